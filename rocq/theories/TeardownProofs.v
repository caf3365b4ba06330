(** Proofs about subscriptions and teardown. *)
From stdpp Require Import base list gmap.
From Coq Require Import Sorting.Sorted.
From Verif Require Import Base Prog TeardownModel TeardownSpec.
Open Scope nat_scope.
Local Open Scope prog_scope.

(** ** Lists *)
Lemma find_last_some f l x : find_last f l = Some x -> x ∈ l /\ f x = true.
Proof.
  unfold find_last. intros H. assert (x ∈ rev (filter (fun y => Is_true (f y)) l)) as Hx.
  { destruct (rev (filter (λ y : nat, f y) l)); [done|]. inversion H; subst. left. }
  rewrite <- elem_of_list_In, <- in_rev, elem_of_list_In in Hx || (apply elem_of_list_In, in_rev, elem_of_list_In in Hx).
  apply elem_of_list_filter in Hx as [H1 H2]. split; [done|]. by apply Is_true_eq_true.
Qed.
Lemma find_last_none f l : find_last f l = None -> forall x, x ∈ l -> f x = false.
Proof.
  unfold find_last. intros H x Hx. destruct (f x) eqn:E; [|done]. exfalso.
  assert (x ∈ rev (filter (fun y => Is_true (f y)) l)) as H1.
  { apply elem_of_list_In. rewrite <- in_rev. apply elem_of_list_In, elem_of_list_filter. by rewrite E. }
  destruct (rev (filter (λ y : nat, f y) l)); [by apply elem_of_nil in H1|done].
Qed.
Lemma find_last_is f l x : x ∈ l -> f x = true -> (forall y, y ∈ l -> f y = true -> y = x) -> find_last f l = Some x.
Proof.
  intros H1 H2 H3. destruct (find_last f l) as [y|] eqn:E.
  - apply find_last_some in E as [E1 E2]. by rewrite (H3 y).
  - apply (find_last_none f l) with (x := x) in E; [congruence|done].
Qed.
Lemma find_last_no f l : (forall y, y ∈ l -> f y = false) -> find_last f l = None.
Proof. intros H. destruct (find_last f l) as [y|] eqn:E; [|done]. apply find_last_some in E as [E1 E2]. rewrite H in E2; done. Qed.
Lemma sorted_filter (f : nat -> Prop) `{forall x, Decision (f x)} l : StronglySorted lt l -> StronglySorted lt (filter f l).
Proof.
  induction 1 as [|x l Hs IH Hx]; [constructor|]. rewrite filter_cons. destruct (decide (f x)); [|done]. constructor; [done|].
  apply Forall_forall. intros y Hy. apply elem_of_list_filter in Hy as [_ Hy]. rewrite Forall_forall in Hx. auto.
Qed.
Lemma sorted_snoc l x : StronglySorted lt l -> (forall y, y ∈ l -> y < x) -> StronglySorted lt (l ++ [x]).
Proof.
  intros Hs H. induction Hs as [|y l Hs IH Hy]; cbn; [repeat constructor|]. constructor.
  - apply IH. intros z Hz. apply H. by right.
  - apply Forall_app. split; [done|]. constructor; [|constructor]. apply H. left.
Qed.
Lemma find_last_max f l x : StronglySorted lt l -> find_last f l = Some x -> forall y, y ∈ l -> f y = true -> y <= x.
Proof.
  unfold find_last. intros Hs Hx y Hy Hf.
  assert (Hm : y ∈ filter (fun z => Is_true (f z)) l) by (apply elem_of_list_filter; split; [by rewrite Hf|done]).
  pose proof (sorted_filter (fun z => Is_true (f z)) l Hs) as Hs'.
  destruct (rev (filter (fun z => Is_true (f z)) l)) as [|z r] eqn:E; [done|]. cbn in Hx. inversion Hx; subst z.
  assert (Ef : filter (fun z => Is_true (f z)) l = rev r ++ [x]).
  { rewrite <- (rev_involutive (filter _ l)). by rewrite E. }
  rewrite Ef in Hm, Hs'. apply elem_of_app in Hm as [Hm|Hm].
  - clear -Hs' Hm. revert Hs' Hm. induction (rev r) as [|z q IH]; intros Hs Hm; [by apply elem_of_nil in Hm|]. cbn in Hs. inversion Hs as [|? ? Hs1 Hz]; subst.
    apply elem_of_cons in Hm as [->|Hm]; [|by apply IH]. rewrite Forall_forall in Hz. assert (z < x); [|lia]. apply Hz. apply elem_of_app. right. left.
  - apply elem_of_list_singleton in Hm. lia.
Qed.
Lemma elem_erase x y l : x ∈ erase y l <-> x ∈ l /\ x <> y.
Proof. unfold erase. rewrite elem_of_list_filter. tauto. Qed.
Lemma sorted_erase x l : StronglySorted lt l -> StronglySorted lt (erase x l).
Proof. apply sorted_filter. Qed.
Lemma elem_rev {A} (x : A) l : x ∈ rev l <-> x ∈ l.
Proof. rewrite !elem_of_list_In. by rewrite <- in_rev. Qed.

Lemma elem_snoc {A} (x y : A) l : x ∈ l ++ [y] <-> x ∈ l \/ x = y.
Proof. by rewrite elem_of_app, elem_of_list_singleton. Qed.

(** ** Infos *)
Lemma matches_spec t a i : matches t a i = true <-> i_type i = t /\ i_addr i = a.
Proof. unfold matches. by rewrite andb_true_iff, !bool_decide_eq_true. Qed.
Lemma same_spec s x y : same s x y = true <-> key s y = key s x.
Proof. unfold same, key. rewrite matches_spec. split; [intros [-> ->]; done|intros H; by inversion H]. Qed.
Notation len s := (List.length (d_infos s)).
Notation un s x := (i_un (info s x)).
Notation owner s x := (i_owner (info s x)).
Lemma info_lookup s x : info s x = default dead (d_infos s !! x).
Proof. unfold info. by rewrite nth_lookup. Qed.
Lemma un_lt s x : un s x = true -> x < len s.
Proof. rewrite info_lookup. destruct (d_infos s !! x) eqn:E; cbn; [|done]. intros _. by eapply lookup_lt_Some. Qed.
Lemma owner_lt s x p : owner s x = Some p -> x < len s.
Proof. rewrite info_lookup. destruct (d_infos s !! x) eqn:E; cbn; [|done]. intros _. by eapply lookup_lt_Some. Qed.

(** ** The other supervisor: what its queue will do to its list. *)
Section foreign.
Context (k : nat -> hty * N).
Fixpoint fok (l : list nat) (q : list fmsg) : Prop :=
  match q with
  | [] => True
  | FSub x :: r => (forall y, y ∈ l -> k y <> k x) /\ fok (l ++ [x]) r
  | FCommit x :: r => x ∈ l /\ (forall y, y ∈ l -> k y = k x -> y = x) /\ fok (erase x l) r
  | FPost _ _ :: r => fok l r
  end.
Fixpoint fend (l : list nat) (q : list fmsg) : list nat :=
  match q with
  | [] => l
  | FSub x :: r => fend (l ++ [x]) r
  | FCommit x :: r => fend (erase x l) r
  | FPost _ _ :: r => fend l r
  end.
Lemma fok_app l q1 q2 : fok l (q1 ++ q2) <-> fok l q1 /\ fok (fend l q1) q2.
Proof. revert l. induction q1 as [|[x|x|a m] q IH]; intros l; cbn; [tauto|rewrite IH; tauto..]. Qed.
Lemma fend_app l q1 q2 : fend l (q1 ++ q2) = fend (fend l q1) q2.
Proof. revert l. induction q1 as [|[x|x|a m] q IH]; intros l; cbn; [done|apply IH..]. Qed.
End foreign.
Definition frange (N : nat) (l : list nat) (q : list fmsg) : Prop :=
  (forall x, x ∈ l -> x < N) /\ (forall x, FSub x ∈ q -> x < N) /\ (forall x, FCommit x ∈ q -> x < N).
Lemma fok_ext k k' N l q : frange N l q -> (forall x, x < N -> k x = k' x) -> fok k l q -> fok k' l q.
Proof.
  revert l. induction q as [|[x|x|a m] q IH]; intros l (H1 & H2 & H3) Hk; cbn; [done|..].
  - intros [Ha Hb]. assert (x < N) by (apply H2; left). split.
    + intros y Hy. rewrite <- !Hk by auto. auto.
    + apply IH; [|done|done]. split; [|split].
      * intros y [Hy| ->%elem_of_list_singleton]%elem_of_app; auto.
      * intros y Hy. apply H2. by right.
      * intros y Hy. apply H3. by right.
  - intros (Ha & Hb & Hc). assert (x < N) by (apply H3; left). split; [done|]. split.
    + intros y Hy. rewrite <- !Hk by auto. auto.
    + apply IH; [|done|done]. split; [|split].
      * intros y [Hy _]%elem_erase; auto.
      * intros y Hy. apply H2. by right.
      * intros y Hy. apply H3. by right.
  - apply IH; [|done]. split; [done|]. split; intros y Hy; [apply H2|apply H3]; by right.
Qed.

Section proofs.
Context (n : nat) (base : nat -> nat) (ext : N -> bool) (su : setup n base ext).
Notation P := (prog dstate dev).
Notation isext := (isext ext).
Notation starter := (starter n).

(** ** Order of events: what precedes an event. *)
Definition before (e : dev) (ev : list dev) : Prop :=
  match e with
  | ESub x => ESub x ∉ ev /\ EDeact ∉ ev
  | EUnsubReq x => EUnsubReq x ∉ ev
  | EGone x => EUnsubReq x ∈ ev /\ EGone x ∉ ev
  | EFGone x => EGone x ∈ ev
  | EInvoke x _ => ESub x ∈ ev /\ EDeact ∉ ev
  | EDrop _ _ => True
  | EDeact => EDeact ∉ ev
  | EPlugDown p => EDeact ∈ ev /\ EPlugDown p ∉ ev
  | EDown => EDeact ∈ ev /\ EDown ∉ ev /\ forall p, p < n -> EPlugDown p ∈ ev
  | ERemove => EDown ∈ ev
  end.
Definition ordered (ev : list dev) : Prop := forall k e, ev !! k = Some e -> before e (take k ev).
Lemma ordered_snoc ev e : ordered ev -> before e ev -> ordered (ev ++ [e]).
Proof.
  intros H He k e' Hk. destruct (decide (k < List.length ev)) as [Hl|Hl].
  - rewrite lookup_app_l in Hk by done. rewrite take_app_le by lia. by apply H.
  - rewrite lookup_app_r in Hk by lia. assert (k = List.length ev) as ->.
    { apply lookup_lt_Some in Hk. cbn in Hk. lia. }
    rewrite Nat.sub_diag in Hk. cbn in Hk. inversion Hk; subst. by rewrite take_app.
Qed.

(** ** The invariant.  [Y]: unsubscription messages taken from the queue and not
    yet worked off; [Z]: subscriptions forgotten whose commit message is due. *)
Record good (Y Z : list nat) (s : dstate) (ev : list dev) : Prop := Good {
  g_own : forall p x, x ∈ d_own s p -> owner s x = Some p;
  g_pts : forall x, x ∈ d_points s -> x < len s;
  g_sorted : StronglySorted lt (d_points s);
  g_map : forall x, x ∈ d_map s <-> live s x /\ isext s x = false;
  g_dead : forall x, x < len s -> un s x = false -> live s x;
  g_msg : forall x, x ∈ Y ++ pending s <-> live s x /\ un s x = true;
  g_nodup : NoDup (Y ++ pending s);
  g_kind : forall x, (MUnsub x ∈ d_q s -> isext s x = false) /\ (MUnsubExt x ∈ d_q s -> isext s x = true);
  g_key : forall x y, live s x \/ x ∈ Z -> live s y \/ y ∈ Z -> key s x = key s y -> x = y;
  g_pkey : forall x y, x ∈ d_points s -> y ∈ d_points s -> key s x = key s y -> x < y -> ~ live s x;
  g_anon : forall x, x < len s -> owner s x = None -> isext s x = false /\ exists t, i_type (info s x) = HUser t;
  g_plug : forall x p, owner s x = Some p -> (p = starter /\ exists t, i_type (info s x) = HUser t) \/ (isext s x = false /\ exists k, i_type (info s x) = HPlug p k);
  g_first : forall x, owner s x = Some lifetime <-> x < 3;
  g_fmap : d_fmap s = d_fpts s;
  g_fok : fok (key s) (d_fpts s) (d_fq s);
  g_fend : forall x, x ∈ fend (d_fpts s) (d_fq s) <-> (live s x \/ x ∈ Z) /\ isext s x = true;
  g_frange : frange (len s) (d_fpts s) (d_fq s);
  g_eu : forall x, EUnsubReq x ∈ ev <-> un s x = true;
  g_eg : forall x, EGone x ∈ ev <-> x < len s /\ ~ live s x;
  g_es : forall x, x < len s -> isext s x = true -> ESub x ∈ ev;
  g_call : forall x m, MCall x m ∈ d_q s -> x < len s /\ isext s x = true;
  g_fext : forall x, x ∈ d_fpts s \/ FSub x ∈ d_fq s -> isext s x = true;
  g_fcom : forall x, FCommit x ∈ d_fq s -> ~ live s x;
  g_esl : forall x, ESub x ∈ ev -> x < len s;
  g_ord : ordered ev
}.
Lemma live_lt Y Z s ev x : good Y Z s ev -> live s x -> x < len s.
Proof.
  intros G. unfold live. destruct (owner s x) as [p|] eqn:E; [intros _; by eapply owner_lt|]. by apply (g_pts _ _ _ _ G).
Qed.
Lemma own_live Y Z s ev p x : good Y Z s ev -> x ∈ d_own s p -> live s x.
Proof. intros G Hx. unfold live. by rewrite (g_own _ _ _ _ G _ _ Hx). Qed.

(** Marking a subscription as UNSUBSCRIBING. *)
Definition with_un (i : dinfo) : dinfo := DInfo (i_type i) (i_addr i) (i_owner i) true.
Definition mark (s : dstate) (x : nat) : dstate :=
  w_q (w_infos s (<[x := with_un (info s x)]> (d_infos s))) (d_q s ++ [if ext (i_addr (info s x)) then MUnsubExt x else MUnsub x]).
Lemma info_mark s x y : x < len s -> info (mark s x) y = if decide (y = x) then with_un (info s x) else info s y.
Proof.
  intros Hx. rewrite !info_lookup. unfold mark. cbn. destruct (decide (y = x)) as [->|Hne].
  - rewrite list_lookup_insert by done. by rewrite <- info_lookup.
  - by rewrite list_lookup_insert_ne by done.
Qed.
Lemma mark_type s x y : x < len s -> i_type (info (mark s x) y) = i_type (info s y).
Proof. intros Hx. rewrite info_mark by done. destruct (decide (y = x)) as [->|]; done. Qed.
Lemma mark_addr s x y : x < len s -> i_addr (info (mark s x) y) = i_addr (info s y).
Proof. intros Hx. rewrite info_mark by done. destruct (decide (y = x)) as [->|]; done. Qed.
Lemma mark_owner s x y : x < len s -> owner (mark s x) y = owner s y.
Proof. intros Hx. rewrite info_mark by done. destruct (decide (y = x)) as [->|]; done. Qed.
Lemma mark_un s x y : x < len s -> un (mark s x) y = true <-> un s y = true \/ y = x.
Proof. intros Hx. rewrite info_mark by done. destruct (decide (y = x)) as [->|]; cbn; tauto. Qed.
Lemma mark_live s x y : x < len s -> live (mark s x) y <-> live s y.
Proof. intros Hx. unfold live. rewrite mark_owner by done. done. Qed.
Lemma mark_key s x y : x < len s -> key (mark s x) y = key s y.
Proof. intros Hx. unfold key. by rewrite mark_type, mark_addr. Qed.
Lemma mark_ext s x y : x < len s -> isext (mark s x) y = isext s y.
Proof. intros Hx. unfold TeardownModel.isext. by rewrite mark_addr. Qed.
Lemma mark_len s x : len (mark s x) = len s.
Proof. unfold mark. cbn. by rewrite insert_length. Qed.
Lemma mark_pending s x : pending (mark s x) = pending s ++ [x].
Proof. unfold pending, mark. cbn. rewrite omap_app. cbn. by destruct (ext _). Qed.
Lemma good_mark Y Z s ev x : good Y Z s ev -> live s x -> un s x = false -> good Y Z (mark s x) (ev ++ [EUnsubReq x]).
Proof.
  intros G Hl Hu. pose proof (live_lt _ _ _ _ _ G Hl) as Hx. destruct G. split.
  - intros p y. rewrite mark_owner by done. apply g_own0.
  - intros y. rewrite mark_len. apply g_pts0.
  - done.
  - intros y. rewrite mark_live, mark_ext by done. apply g_map0.
  - intros y Hy1 Hy2. rewrite mark_len in Hy1. rewrite mark_live by done. apply g_dead0; [done|].
    destruct (un s y) eqn:E; [|done]. assert (un (mark s x) y = true) by (apply mark_un; auto). congruence.
  - intros y. rewrite mark_live, mark_un, mark_pending, (assoc_L (++)), elem_snoc, g_msg0 by done. split; [intros [?| ->]|intros [? [?|?]]]; tauto.
  - rewrite mark_pending, (assoc_L (++)). apply NoDup_app. split; [done|]. split; [|apply NoDup_singleton].
    intros y Hy ->%elem_of_list_singleton. apply g_msg0 in Hy as [_ Hy]. congruence.
  - intros y. rewrite mark_ext by done. change (d_q (mark s x)) with (d_q s ++ [if ext (i_addr (info s x)) then MUnsubExt x else MUnsub x]).
    rewrite !elem_snoc. destruct (g_kind0 y) as [K1 K2]. unfold TeardownModel.isext in *. destruct (ext (i_addr (info s x))) eqn:E.
    + split; [intros [?|?]; [auto|done]|]. intros [?|H]; [auto|]. inversion H; by subst.
    + split; [|intros [?|?]; [auto|done]]. intros [?|H]; [auto|]. inversion H; by subst.
  - intros y z. rewrite !mark_live, !mark_key by done. apply g_key0.
  - intros y z. rewrite !mark_live, !mark_key by done. apply g_pkey0.
  - intros y. rewrite mark_len, mark_owner, mark_ext, mark_type by done. apply g_anon0.
  - intros y p. rewrite mark_owner, mark_ext, mark_type by done. apply g_plug0.
  - intros y. rewrite mark_owner by done. apply g_first0.
  - done.
  - eapply fok_ext; [exact g_frange0| |exact g_fok0]. intros y _. by rewrite mark_key.
  - intros y. rewrite mark_live, mark_ext by done. apply g_fend0.
  - rewrite mark_len. apply g_frange0.
  - intros y. rewrite elem_snoc, mark_un, g_eu0 by done. split; [intros [?|H]; [auto|inversion H; auto]|intros [?| ->]; auto].
  - intros y. rewrite elem_snoc, mark_len, mark_live by done. rewrite g_eg0. split; [intros [?|?]; done|tauto].
  - intros y. rewrite elem_snoc, mark_len, mark_ext by done. intros. left. auto.
  - intros y m. change (d_q (mark s x)) with (d_q s ++ [if ext (i_addr (info s x)) then MUnsubExt x else MUnsub x]).
    rewrite mark_len, mark_ext by done. rewrite elem_snoc. intros [?|H]; [eauto|]. by destruct (ext (i_addr (info s x))).
  - intros y. rewrite mark_ext by done. apply g_fext0.
  - intros y. rewrite mark_live by done. apply g_fcom0.
  - intros y. rewrite elem_snoc, mark_len. intros [?|?]; [auto|done].
  - apply ordered_snoc; [done|]. cbn. rewrite g_eu0. congruence.
Qed.

(** Changes elsewhere. *)
Definition core (s : dstate) := (d_own s, d_points s, d_infos s, d_map s, d_q s, d_fq s, d_fpts s, d_fmap s).
Definition quiet (e : dev) : Prop := match e with ESub _ | EUnsubReq _ | EGone _ => False | _ => True end.
Lemma quiet_unsub ev e x : quiet e -> EUnsubReq x ∈ ev ++ [e] <-> EUnsubReq x ∈ ev.
Proof. intros H. rewrite elem_snoc. split; [|auto]. intros [?|Hx]; [done|]. by subst e. Qed.
Lemma quiet_gone ev e x : quiet e -> EGone x ∈ ev ++ [e] <-> EGone x ∈ ev.
Proof. intros H. rewrite elem_snoc. split; [|auto]. intros [?|Hx]; [done|]. by subst e. Qed.
Lemma good_frame Y Z s ev s' e : good Y Z s ev -> core s' = core s -> quiet e -> before e ev -> good Y Z s' (ev ++ [e]).
Proof.
  destruct s, s'. unfold core. cbn. intros G H He Ho. inversion H; subst. clear H. destruct G.
  split; try assumption.
  - intros x. rewrite quiet_unsub by done. apply g_eu0.
  - intros x. rewrite quiet_gone by done. apply g_eg0.
  - intros x H1 H2. apply elem_of_app. left. by apply g_es0.
  - intros x. rewrite elem_snoc. intros [?|<-]; [auto|done].
  - by apply ordered_snoc.
Qed.
Lemma good_frame0 Y Z s ev s' : good Y Z s ev -> core s' = core s -> good Y Z s' ev.
Proof. destruct s, s'. unfold core. cbn. intros G H. inversion H; subst. clear H. destruct G. split; assumption. Qed.

(** A subscription is forgotten. *)
Definition gone (s : dstate) (x : nat) : dstate :=
  let s1 := if isext s x then s else w_map s (erase x (d_map s)) in
  match owner s x with
  | Some p => w_own s1 (updn (d_own s1) p (erase x (d_own s1 p)))
  | None => w_points s1 (erase x (d_points s1))
  end.
Lemma gone_infos s x : d_infos (gone s x) = d_infos s.
Proof. unfold gone. destruct (isext s x), (owner s x); done. Qed.
Lemma gone_info s x y : info (gone s x) y = info s y.
Proof. unfold info. by rewrite gone_infos. Qed.
Lemma gone_q s x : d_q (gone s x) = d_q s.
Proof. unfold gone. destruct (isext s x), (owner s x); done. Qed.
Lemma gone_fq s x : d_fq (gone s x) = d_fq s.
Proof. unfold gone. destruct (isext s x), (owner s x); done. Qed.
Lemma gone_fpts s x : d_fpts (gone s x) = d_fpts s.
Proof. unfold gone. destruct (isext s x), (owner s x); done. Qed.
Lemma gone_fmap s x : d_fmap (gone s x) = d_fmap s.
Proof. unfold gone. destruct (isext s x), (owner s x); done. Qed.
Lemma gone_own s x p y : y ∈ d_own (gone s x) p -> y ∈ d_own s p.
Proof.
  unfold gone. destruct (isext s x), (owner s x) as [q|]; cbn; try done; unfold updn; destruct (decide (p = q)) as [->|]; try done; by intros [? _]%elem_erase.
Qed.
Lemma gone_points s x y : y ∈ d_points (gone s x) -> y ∈ d_points s.
Proof. unfold gone. destruct (isext s x), (owner s x) as [q|]; cbn; try done; by intros [? _]%elem_erase. Qed.
Lemma gone_live Y Z s ev x y : good Y Z s ev -> live (gone s x) y <-> live s y /\ y <> x.
Proof.
  intros G. unfold live. rewrite gone_info. unfold gone. destruct (owner s x) as [q|] eqn:Ex, (owner s y) as [p|] eqn:Ey.
  - assert (d_own (if isext s x then s else w_map s (erase x (d_map s))) = d_own s) as H by by destruct (isext s x). cbn. rewrite H.
    unfold updn. destruct (decide (p = q)) as [->|Hne]; [by rewrite elem_erase|]. split; [|by intros []]. intros Hy. split; [done|]. intros ->. congruence.
  - assert (d_points (if isext s x then s else w_map s (erase x (d_map s))) = d_points s) as H by by destruct (isext s x). cbn. rewrite H.
    split; [|by intros []]. intros Hy. split; [done|]. intros ->. congruence.
  - assert (d_own (if isext s x then s else w_map s (erase x (d_map s))) = d_own s) as H by by destruct (isext s x). cbn. rewrite H.
    split; [|by intros []]. intros Hy. split; [done|]. intros ->. congruence.
  - assert (d_points (if isext s x then s else w_map s (erase x (d_map s))) = d_points s) as H by by destruct (isext s x). cbn. rewrite H. by rewrite elem_erase.
Qed.
Lemma gone_map s x y : (isext s x = true -> x ∉ d_map s) -> y ∈ d_map (gone s x) <-> y ∈ d_map s /\ y <> x.
Proof.
  intros H. assert (d_map (gone s x) = if isext s x then d_map s else erase x (d_map s)) as E by by unfold gone; destruct (isext s x), (owner s x).
  rewrite E. destruct (isext s x); [|by rewrite elem_erase]. split; [|by intros []]. intros Hy. split; [done|]. intros ->. by apply H.
Qed.
Lemma good_gone Y Z s ev x : good (x :: Y) Z s ev -> good Y (x :: Z) (gone s x) (ev ++ [EGone x]).
Proof.
  intros G. assert (Hl : live s x /\ un s x = true) by (apply (g_msg _ _ _ _ G); left). destruct Hl as [Hl Hu].
  pose proof (live_lt _ _ _ _ _ G Hl) as Hx. pose proof (fun y => gone_live (x :: Y) Z s ev x y G) as GL'.
  assert (Hk : forall y, key (gone s x) y = key s y) by (intros y; unfold key; by rewrite gone_info).
  assert (He : forall y, isext (gone s x) y = isext s y) by (intros y; unfold TeardownModel.isext; by rewrite gone_info).
  destruct G. split.
  - intros p y Hy. rewrite gone_info. apply gone_own in Hy. auto.
  - intros y Hy. rewrite gone_infos. apply gone_points in Hy. auto.
  - unfold gone. destruct (isext s x), (owner s x); cbn; try done; by apply sorted_erase.
  - intros y. rewrite gone_map, GL', He, g_map0; [tauto|]. intros E Hm. apply g_map0 in Hm as [_ Hm]. congruence.
  - intros y. rewrite gone_infos, gone_info, GL'. intros H1 H2. split; [by apply g_dead0|]. intros ->. congruence.
  - intros y. rewrite GL', gone_info. unfold pending. rewrite gone_q. specialize (g_msg0 y). unfold pending in *. cbn in g_msg0, g_nodup0. rewrite elem_of_cons in g_msg0.
    apply NoDup_cons in g_nodup0 as [Hn _]. split.
    + intros Hy. split; [|by apply g_msg0; right]. split; [by apply g_msg0; right|]. by intros ->.
    + intros [[H1 H2] H3]. destruct g_msg0 as [_ [?|?]]; done.
  - unfold pending. rewrite gone_q. cbn in g_nodup0. by apply NoDup_cons in g_nodup0 as [_ ?].
  - intros y. rewrite gone_q, He. apply g_kind0.
  - intros y z. rewrite !GL', !Hk, !elem_of_cons. intros H1 H2. apply g_key0; [destruct H1 as [[]|[->|]]|destruct H2 as [[]|[->|]]]; auto.
  - intros y z Hy Hz. rewrite GL', !Hk. intros H1 H2 [H3 _]. apply gone_points in Hy, Hz. exact (g_pkey0 y z Hy Hz H1 H2 H3).
  - intros y. rewrite gone_infos, gone_info, He. apply g_anon0.
  - intros y p. rewrite gone_info, He. apply g_plug0.
  - intros y. rewrite gone_info. apply g_first0.
  - by rewrite gone_fmap, gone_fpts.
  - rewrite gone_fpts, gone_fq. eapply fok_ext; [exact g_frange0| |exact g_fok0]. intros. by rewrite Hk.
  - intros y. rewrite gone_fpts, gone_fq, g_fend0, GL', He, elem_of_cons. destruct (decide (y = x)) as [->|]; tauto.
  - rewrite gone_infos, gone_fpts, gone_fq. done.
  - intros y. rewrite elem_snoc, gone_info, g_eu0. split; [intros [?|?]; done|auto].
  - intros y. rewrite elem_snoc, gone_infos, GL', g_eg0. split.
    + intros [[? ?]|H]; [tauto|]. inversion H; subst. tauto.
    + intros [H1 H2]. destruct (decide (y = x)) as [->|]; [auto|]. left. tauto.
  - intros y. rewrite gone_infos, He. intros. apply elem_snoc. left. auto.
  - intros y m. rewrite gone_q, gone_infos, He. apply g_call0.
  - intros y. rewrite gone_fpts, gone_fq, He. apply g_fext0.
  - intros y. rewrite gone_fq, GL'. intros Hc [H _]. by apply (g_fcom0 y).
  - intros y. rewrite elem_snoc, gone_infos. intros [?|?]; [auto|done].
  - apply ordered_snoc; [done|]. cbn. rewrite g_eu0, g_eg0. split; [done|]. by intros [_ ?].
Qed.
Lemma good_local Y Z s ev x : good Y (x :: Z) s ev -> isext s x = false -> good Y Z s ev.
Proof.
  intros G He. destruct G. split; try assumption.
  - intros y z Hy Hz. apply g_key0; rewrite elem_of_cons; tauto.
  - intros y. rewrite g_fend0, elem_of_cons. split; [|tauto]. intros [[?|[->|?]] ?]; [tauto|congruence|tauto].
Qed.
Lemma good_commit Y Z s ev x : good Y (x :: Z) s ev -> x ∉ Z -> isext s x = true -> ~ live s x -> x < len s -> good Y Z (w_fq s (d_fq s ++ [FCommit x])) ev.
Proof.
  intros G Hz He Hl Hx. set (s' := w_fq s (d_fq s ++ [FCommit x])). destruct G.
  assert (HL : forall y, live s' y <-> live s y) by done. split; try assumption.
  - intros y z Hy Hz'. apply g_key0; rewrite elem_of_cons; rewrite HL in *; tauto.
  - change (d_fpts s') with (d_fpts s). change (d_fq s') with (d_fq s ++ [FCommit x]). apply fok_app. split; [done|]. cbn. split.
    + apply g_fend0. split; [right; left|done].
    + split; [|done]. intros y Hy Hk. apply g_fend0 in Hy as [Hy _]. apply g_key0; [done| |done]. right. left.
  - intros y. change (d_fpts s') with (d_fpts s). change (d_fq s') with (d_fq s ++ [FCommit x]). rewrite fend_app. cbn.
    rewrite elem_erase, g_fend0, HL, elem_of_cons. change (isext s' y) with (isext s y). split; [tauto|]. intros [H1 H2]. split; [tauto|]. intros ->. tauto.
  - destruct g_frange0 as (R1 & R2 & R3). change (d_fpts s') with (d_fpts s). change (d_fq s') with (d_fq s ++ [FCommit x]). split; [done|]. split.
    + intros y. rewrite elem_snoc. intros [?|?]; [auto|done].
    + intros y. rewrite elem_snoc. intros [?|H]; [auto|]. inversion H; subst. done.
  - intros y. change (d_fq s') with (d_fq s ++ [FCommit x]). rewrite elem_snoc. intros [?|[?|?]]; [apply g_fext0; auto|apply g_fext0; auto|done].
  - intros y. change (d_fq s') with (d_fq s ++ [FCommit x]). rewrite elem_snoc, HL. intros [?|H]; [auto|]. inversion H; by subst.
Qed.
(** Lifetime drops a subscription of a plugin from its list. *)
Lemma good_drop Y Z s ev x p : good Y Z s ev -> owner s x = Some p -> good Y Z (w_points s (erase x (d_points s))) ev.
Proof.
  intros G Ho. set (s' := w_points s (erase x (d_points s))).
  assert (HL : forall y, live s' y <-> live s y).
  { intros y. unfold live. change (info s' y) with (info s y). destruct (owner s y) eqn:E; [done|]. cbn. rewrite elem_erase. split; [by intros []|].
    intros Hy. split; [done|]. intros ->. congruence. }
  destruct G. split; try assumption.
  - intros y Hy. apply elem_erase in Hy as [Hy _]. by apply g_pts0.
  - by apply sorted_erase.
  - intros y. rewrite HL. apply g_map0.
  - intros y. rewrite HL. apply g_dead0.
  - intros y. rewrite HL. apply g_msg0.
  - intros y z. rewrite !HL. apply g_key0.
  - intros y z Hy Hz. rewrite HL. apply elem_erase in Hy as [Hy _], Hz as [Hz _]. by apply g_pkey0.
  - intros y. rewrite HL. apply g_fend0.
  - intros y. rewrite HL. apply g_eg0.
  - intros y. rewrite HL. apply g_fcom0.
Qed.
(** A new subscription. *)
Definition add (s : dstate) (t : hty) (a : N) (o : option nat) : dstate :=
  let x := len s in
  let s1 := w_infos s (d_infos s ++ [DInfo t a o false]) in
  let s2 := if ext a then w_fq s1 (d_fq s ++ [FSub x]) else w_map s1 (d_map s ++ [x]) in
  let s3 := w_points s2 (d_points s ++ [x]) in
  match o with Some p => w_own s3 (updn (d_own s) p (d_own s p ++ [x])) | None => s3 end.
Lemma add_infos s t a o : d_infos (add s t a o) = d_infos s ++ [DInfo t a o false].
Proof. unfold add. destruct (ext a), o; done. Qed.
Lemma add_points s t a o : d_points (add s t a o) = d_points s ++ [len s].
Proof. unfold add. destruct (ext a), o; done. Qed.
Lemma add_q s t a o : d_q (add s t a o) = d_q s.
Proof. unfold add. destruct (ext a), o; done. Qed.
Lemma add_own s t a o p : d_own (add s t a o) p = if bool_decide (o = Some p) then d_own s p ++ [len s] else d_own s p.
Proof.
  assert (d_own (add s t a o) = match o with Some p => updn (d_own s) p (d_own s p ++ [len s]) | None => d_own s end) as -> by by unfold add; destruct (ext a), o.
  destruct o as [q|]; [|by rewrite bool_decide_eq_false_2]. unfold updn. destruct (decide (p = q)) as [->|Hne].
  - by rewrite bool_decide_eq_true_2.
  - rewrite bool_decide_eq_false_2; [done|]. intros H. inversion H. done.
Qed.
Lemma add_info s t a o y : info (add s t a o) y = if decide (y = len s) then DInfo t a o false else info s y.
Proof.
  rewrite !info_lookup, add_infos. destruct (decide (y = len s)) as [->|Hne]; [by rewrite list_lookup_middle|].
  destruct (decide (y < len s)) as [Hy|Hy]; [by rewrite lookup_app_l|].
  rewrite !lookup_ge_None_2; [done| |]; rewrite ?app_length; cbn; lia.
Qed.
Lemma good_add s ev t a o :
  good [] [] s ev -> EDeact ∉ ev -> (forall x, live s x -> key s x <> (HUser t, a)) -> o = None /\ ext a = false \/ o = Some starter ->
  good [] [] (add s (HUser t) a o) (ev ++ [ESub (len s)]).
Proof.
  intros G Hd Hf Ho. set (x := len s) in *. set (s' := add s (HUser t) a o).
  assert (HI : forall y, y <> x -> info s' y = info s y) by (intros y Hy; unfold s'; rewrite add_info; by destruct (decide (y = len s))).
  assert (HX : info s' x = DInfo (HUser t) a o false) by (unfold s'; rewrite add_info; by destruct (decide (x = len s))).
  assert (Hlen : len s' = S x) by (unfold s'; rewrite add_infos, app_length; cbn; unfold x; lia).
  assert (Hnx : ~ live s x) by (intros H; apply (live_lt _ _ _ _ _ G) in H; unfold x in H; lia).
  assert (HL : forall y, live s' y <-> live s y \/ y = x).
  { intros y. destruct (decide (y = x)) as [->|Hne].
    - split; [auto|]. intros _. unfold live. rewrite HX. cbn. destruct o as [p|].
      + unfold s'. rewrite add_own, bool_decide_eq_true_2 by done. apply elem_snoc. by right.
      + unfold s'. rewrite add_points. apply elem_snoc. by right.
    - unfold live. rewrite HI by done. destruct (owner s y) as [p|].
      + unfold s'. rewrite add_own. case_bool_decide; [rewrite elem_snoc|]; fold x; tauto.
      + unfold s'. rewrite add_points, elem_snoc. fold x. tauto. }
  assert (HE : forall y, y <> x -> isext s' y = isext s y) by (intros y Hy; unfold TeardownModel.isext; by rewrite HI).
  assert (HEX : isext s' x = ext a) by (unfold TeardownModel.isext; by rewrite HX).
  assert (HK : forall y, y <> x -> key s' y = key s y) by (intros y Hy; unfold key; by rewrite HI).
  assert (HKX : key s' x = (HUser t, a)) by (unfold key; by rewrite HX).
  assert (Hlt : forall y, live s y -> y <> x) by (intros y Hy ->; done).
  assert (Hq : pending s' = pending s) by (unfold pending, s'; by rewrite add_q).
  assert (Hmap : d_map s' = if ext a then d_map s else d_map s ++ [x]) by (unfold s', add; by destruct (ext a), o).
  assert (Hfq : d_fq s' = if ext a then d_fq s ++ [FSub x] else d_fq s) by (unfold s', add; by destruct (ext a), o).
  assert (Hfp : d_fpts s' = d_fpts s) by (unfold s', add; by destruct (ext a), o).
  assert (Hfm : d_fmap s' = d_fmap s) by (unfold s', add; by destruct (ext a), o).
  assert (Hfok : fok (key s') (d_fpts s) (d_fq s)).
  { eapply fok_ext; [exact (g_frange _ _ _ _ G)| |exact (g_fok _ _ _ _ G)]. intros y Hy. symmetry. apply HK. unfold x. lia. }
  destruct G. split.
  - intros p y. unfold s' at 1. rewrite add_own. case_bool_decide as E.
    + rewrite elem_snoc. intros [Hy| ->]; [|fold x; by rewrite HX]. pose proof (g_own0 _ _ Hy) as H. pose proof (owner_lt _ _ _ H). rewrite HI by (unfold x; lia). done.
    + intros Hy. pose proof (g_own0 _ _ Hy) as H. pose proof (owner_lt _ _ _ H). rewrite HI by (unfold x; lia). done.
  - intros y. unfold s' at 1. rewrite add_points, elem_snoc, Hlen. fold x. intros [Hy| ->]; [|lia]. apply g_pts0 in Hy. unfold x. lia.
  - unfold s'. rewrite add_points. apply sorted_snoc; done.
  - intros y. rewrite HL, Hmap. destruct (decide (y = x)) as [->|Hne].
    + rewrite HEX. destruct (ext a); [|rewrite elem_snoc; tauto]. rewrite g_map0. split; [tauto|]. by intros [_ ?].
    + rewrite HE by done. destruct (ext a); [rewrite g_map0; tauto|]. rewrite elem_snoc, g_map0. tauto.
  - intros y H1 H2. rewrite HL. destruct (decide (y = x)) as [->|Hne]; [auto|]. left. apply g_dead0; [rewrite Hlen in H1; unfold x in *; lia|]. by rewrite HI in H2.
  - intros y. rewrite Hq, HL. rewrite g_msg0. destruct (decide (y = x)) as [->|Hne].
    + rewrite HX. cbn. split; [tauto|]. by intros [_ ?].
    + rewrite HI by done. tauto.
  - by rewrite Hq.
  - intros y. unfold s' at 1 3. rewrite !add_q. destruct (g_kind0 y) as [K1 K2].
    assert (Hne : MUnsub y ∈ d_q s \/ MUnsubExt y ∈ d_q s -> y <> x).
    { intros H. apply Hlt. apply g_msg0. cbn. unfold pending. apply elem_of_list_omap. destruct H as [H|H]; [by exists (MUnsub y)|by exists (MUnsubExt y)]. }
    split; intros H; rewrite HE by (apply Hne; auto); auto.
  - intros y z Hy Hz. rewrite !HL in *. intros Hk.
    destruct (decide (y = x)) as [->|Hy1], (decide (z = x)) as [->|Hz1]; [done|..].
    + exfalso. rewrite HKX, HK in Hk by done. eapply Hf; [|symmetry; exact Hk]. destruct Hz as [[?|?]|Hz]; [done|done|by apply elem_of_nil in Hz].
    + exfalso. rewrite HKX, HK in Hk by done. eapply Hf; [|exact Hk]. destruct Hy as [[?|?]|Hy]; [done|done|by apply elem_of_nil in Hy].
    + rewrite !HK in Hk by done. apply g_key0; [destruct Hy as [[?|?]|Hy]; [auto|done|auto]|destruct Hz as [[?|?]|Hz]; [auto|done|auto]|done].
  - intros y z Hy Hz Hk Hlyz. rewrite HL. unfold s' in Hy, Hz. rewrite add_points, elem_snoc in Hy, Hz. fold x in Hy, Hz.
    assert (Hyx : y <> x) by (intros ->; destruct Hz as [Hz| ->]; [apply g_pts0 in Hz; unfold x in *; lia|lia]).
    destruct Hy as [Hy|?]; [|done]. rewrite (HK y) in Hk by done. intros [Hl|?]; [|done]. destruct Hz as [Hz| ->].
    + assert (z <> x) by (apply g_pts0 in Hz; unfold x; lia). rewrite HK in Hk by done. exact (g_pkey0 y z Hy Hz Hk Hlyz Hl).
    + rewrite HKX in Hk. by apply (Hf y).
  - intros y Hy. rewrite Hlen in Hy. destruct (decide (y = x)) as [->|Hne].
    + rewrite HX, HEX. cbn. intros ->. destruct Ho as [[_ ?]|?]; [|done]. split; [done|by exists t].
    + rewrite HI, HE by done. apply g_anon0. unfold x in *. lia.
  - intros y p. destruct (decide (y = x)) as [->|Hne].
    + rewrite HX. cbn. intros ->. left. destruct Ho as [[? _]|H]; [done|]. inversion H. split; [done|by exists t].
    + rewrite HI, HE by done. apply g_plug0.
  - intros y. destruct (decide (y = x)) as [->|Hne].
    + rewrite HX. cbn. assert (3 <= x). { destruct (decide (3 <= x)); [done|]. assert (owner s x = Some lifetime) as H by (apply g_first0; lia). apply owner_lt in H. unfold x in H. lia. }
      split; [|lia]. destruct Ho as [[-> _]| ->]; [done|]. intros E1. injection E1 as E1. unfold TeardownModel.starter, lifetime in E1. destruct su. lia.
    + rewrite HI by done. apply g_first0.
  - by rewrite Hfm, Hfp.
  - rewrite Hfp, Hfq. destruct (ext a) eqn:Ea; [|done]. apply fok_app. split; [done|]. cbn. split; [|done]. intros y Hy. apply g_fend0 in Hy as [[Hy|Hy] _]; [|by apply elem_of_nil in Hy].
    rewrite HKX, HK by auto. by apply Hf.
  - intros y. rewrite Hfp, Hfq, HL. assert (y = x -> ~ y ∈ fend (d_fpts s) (d_fq s)) as Hny.
    { intros ->. intros [[?|Hy] _]%g_fend0; [done|by apply elem_of_nil in Hy]. }
    destruct (decide (y = x)) as [->|Hne].
    + rewrite HEX. destruct (ext a); [|split; [intros; exfalso; by apply Hny|by intros [_ ?]]]. rewrite fend_app. cbn. rewrite elem_snoc. tauto.
    + rewrite HE by done. destruct (ext a); [rewrite fend_app; cbn; rewrite elem_snoc|]; rewrite g_fend0; rewrite elem_of_nil; tauto.
  - rewrite Hlen, Hfp, Hfq. destruct g_frange0 as (R1 & R2 & R3). split; [intros y Hy; apply R1 in Hy; unfold x; lia|]. destruct (ext a).
    + split; intros y; rewrite elem_snoc; (intros [Hy|Hy]; [|inversion Hy; lia || (subst; unfold x; lia)]); [apply R2 in Hy|apply R3 in Hy]; unfold x; lia.
    + split; intros y Hy; [apply R2 in Hy|apply R3 in Hy]; unfold x; lia.
  - intros y. rewrite elem_snoc, g_eu0. destruct (decide (y = x)) as [->|Hne].
    + rewrite HX. cbn. split; [|done]. intros [H|H]; [apply un_lt in H; unfold x in H; lia|done].
    + rewrite HI by done. split; [by intros [?|?]|auto].
  - intros y. rewrite elem_snoc, Hlen, HL, g_eg0. split.
    + intros [[H1 H2]|?]; [|done]. split; [unfold x; lia|]. intros [?| ->]; [done|unfold x in *; lia].
    + intros [H1 H2]. left. assert (y <> x) by tauto. split; [unfold x in *; lia|tauto].
  - intros y H1 H2. rewrite elem_snoc. destruct (decide (y = x)) as [->|Hne]; [auto|]. left. apply g_es0; [rewrite Hlen in H1; unfold x in *; lia|by rewrite HE in H2].
  - intros y m. unfold s' at 1. rewrite add_q, Hlen. intros Hc. destruct (g_call0 _ _ Hc). rewrite HE by (unfold x; lia). split; [unfold x; lia|done].
  - intros y. rewrite Hfp, Hfq. destruct g_frange0 as (R1 & R2 & R3).
    assert (Hold : y ∈ d_fpts s \/ FSub y ∈ d_fq s -> isext s' y = true).
    { intros Hy. rewrite HE; [by apply g_fext0|]. destruct Hy as [Hy|Hy]; [apply R1 in Hy|apply R2 in Hy]; unfold x; lia. }
    destruct (ext a) eqn:Ea; [|done]. rewrite elem_snoc. intros [?|[?|Hy]]; [auto|auto|]. inversion Hy; subst. by rewrite HEX.
  - intros y. rewrite Hfq, HL. intros Hc. assert (FCommit y ∈ d_fq s) as Hc'.
    { destruct (ext a); [|done]. apply elem_snoc in Hc as [?|?]; done. }
    destruct g_frange0 as (R1 & R2 & R3). intros [?| ->]; [by apply (g_fcom0 y)|]. apply R3 in Hc'. unfold x in Hc'. lia.
  - intros y. rewrite elem_snoc, Hlen. intros [Hy|Hy]; [apply g_esl0 in Hy; unfold x; lia|]. inversion Hy. unfold x. lia.
  - apply ordered_snoc; [done|]. cbn. split; [|done]. intros Hy%g_esl0. unfold x in Hy. lia.
Qed.

(** Messages are taken from the queues and put there. *)
Lemma good_pop Z s ev m x r : good [] Z s ev -> d_q s = m :: r -> un_of m = Some x -> good [x] Z (w_q s r) ev.
Proof.
  intros G Hq Hm. assert (Hp : pending s = x :: omap un_of r) by (unfold pending; rewrite Hq; cbn; by rewrite Hm).
  destruct G. split; try assumption.
  - intros y. rewrite <- (g_msg0 y), Hp. done.
  - by rewrite Hp in g_nodup0.
  - intros y. destruct (g_kind0 y) as [K1 K2]. rewrite Hq in K1, K2. split; intros H; [apply K1|apply K2]; by right.
  - intros y z H. apply (g_call0 y z). rewrite Hq. by right.
Qed.
Lemma good_pop_call Y Z s ev y m r : good Y Z s ev -> d_q s = MCall y m :: r -> good Y Z (w_q s r) ev.
Proof.
  intros G Hq. assert (Hp : pending s = omap un_of r) by (unfold pending; by rewrite Hq). destruct G. split; try assumption.
  - intros z. rewrite <- (g_msg0 z), Hp. done.
  - by rewrite Hp in g_nodup0.
  - intros z. destruct (g_kind0 z) as [K1 K2]. rewrite Hq in K1, K2. split; intros H; [apply K1|apply K2]; by right.
  - intros z k H. apply (g_call0 z k). rewrite Hq. by right.
Qed.
Lemma good_fsub Y Z s ev x r : good Y Z s ev -> d_fq s = FSub x :: r ->
  good Y Z (w_fmap (w_fpts (w_fq s r) (d_fpts s ++ [x])) (d_fmap s ++ [x])) ev.
Proof.
  intros G Hq. destruct G. rewrite Hq in *. split; try assumption.
  - cbn. by rewrite g_fmap0.
  - by apply g_fok0.
  - destruct g_frange0 as (R1 & R2 & R3). split; [|split].
    + intros y. cbn. rewrite elem_snoc. intros [?| ->]; [auto|]. apply R2. left.
    + intros y Hy. apply R2. by right.
    + intros y Hy. apply R3. by right.
  - intros y. cbn. rewrite elem_snoc. intros [[?| ->]|?]; apply g_fext0; [auto|right; left|right; by right].
  - intros y Hy. apply g_fcom0. by right.
Qed.
Lemma good_fcommit Y Z s ev x r : good Y Z s ev -> d_fq s = FCommit x :: r ->
  find_last (same s x) (d_fpts s) = Some x /\ x ∈ d_fmap s /\
  good Y Z (w_fmap (w_fpts (w_fq s r) (erase x (d_fpts s))) (erase x (d_fmap s))) (ev ++ [EFGone x]).
Proof.
  intros G Hq. assert (G' := G). destruct G. rewrite Hq in *. cbn in g_fok0. destruct g_fok0 as (F1 & F2 & F3). split; [|split].
  - apply find_last_is; [done|by apply same_spec|]. intros y Hy Hs. apply F2; [done|]. by apply same_spec.
  - by rewrite g_fmap0.
  - apply (good_frame _ _ (w_fmap (w_fpts (w_fq s r) (erase x (d_fpts s))) (erase x (d_fmap s)))); [|done|done|].
    2: { cbn. apply g_eg0. split; [apply g_frange0; left|apply g_fcom0; left]. }
    split; try assumption.
    + cbn. by rewrite g_fmap0.
    + destruct g_frange0 as (R1 & R2 & R3). split; [|split].
      * intros y. cbn. intros [? _]%elem_erase. auto.
      * intros y Hy. apply R2. by right.
      * intros y Hy. apply R3. by right.
    + intros y. cbn. rewrite elem_erase. intros [[? _]|?]; apply g_fext0; [auto|right; by right].
    + intros y Hy. apply g_fcom0. by right.
Qed.
Lemma pending_calls s l m : omap un_of (d_q s ++ ((fun x => MCall x m) <$> l)) = pending s.
Proof. unfold pending. rewrite omap_app. replace (omap un_of ((fun x => MCall x m) <$> l)) with (@nil nat); [by rewrite app_nil_r|]. by induction l. Qed.
Lemma good_fpost Y Z s ev a m r : good Y Z s ev -> d_fq s = FPost a m :: r ->
  good Y Z (w_q (w_fq s r) (d_q s ++ ((fun x => MCall x m) <$> filter (fun x => i_addr (info s x) = a) (d_fmap s)))) ev.
Proof.
  intros G Hq. set (l := filter _ _). set (s' := w_q _ _). assert (Hp : pending s' = pending s) by apply (pending_calls s l m).
  destruct G. rewrite Hq in *. split; try assumption.
  - intros y. rewrite Hp. apply g_msg0.
  - by rewrite Hp.
  - intros y. destruct (g_kind0 y) as [K1 K2]. split; intros [H|(z & H & _)%elem_of_list_fmap]%elem_of_app; [by apply K1|done|by apply K2|done].
  - destruct g_frange0 as (R1 & R2 & R3). split; [done|]. split; intros y Hy; [apply R2|apply R3]; by right.
  - intros y k [H|(z & H & Hz)%elem_of_list_fmap]%elem_of_app; [by eapply g_call0|]. inversion H; subst.
    apply elem_of_list_filter in Hz as [_ Hz]. rewrite g_fmap0 in Hz. split; [|apply g_fext0; by left]. destruct g_frange0 as [R1 _]. exact (R1 z Hz).
  - intros y [?|?]; apply g_fext0; [by left|right; by right].
  - intros y Hy. apply g_fcom0. by right.
Qed.
Lemma good_post Y Z s ev a m : good Y Z s ev -> good Y Z (w_fq s (d_fq s ++ [FPost a m])) ev.
Proof.
  intros G. destruct G. split; try assumption; cbn.
  - by apply fok_app.
  - intros y. rewrite fend_app. apply g_fend0.
  - destruct g_frange0 as (R1 & R2 & R3). split; [done|]. split; intros y; rewrite elem_snoc; intros [?|?]; auto; done.
  - intros y. rewrite elem_snoc. intros [?|[?|?]]; [apply g_fext0; auto|apply g_fext0; auto|done].
  - intros y. rewrite elem_snoc. intros [?|?]; [by apply g_fcom0|done].
Qed.
End proofs.
