From stdpp Require Import base list gmap.
From Verif Require Import Base FltkWakeModel FltkWakeSpec.
Open Scope Z_scope.

(** Messages popped by the running callback and not yet subtracted. *)
Definition fetched (r : option (N * cpc)) : nat :=
  match r with
  | Some (_, CPop n) | Some (_, CProcess n) | Some (_, CSub n) => n
  | None => 0
  end.

Record kinv (s : kstate) : Prop := {
  ki_count : k_counter s = Z.of_nat (length (k_inb s 0)) + Z.of_nat (fetched (k_run s)) - Z.of_nat (size (k_enq s));
  ki_idle : idle s -> k_counter s <= 0;
  ki_sched : Forall (eq 0%N) (k_sched s);
  ki_run : forall c p, k_run s = Some (c, p) -> c = 0%N;
  ki_enq : forall t c, k_enq s !! t = Some c -> c = 0%N
}.

Lemma kinv_init : kinv kinit.
Proof. split; cbn; try done. Qed.

Lemma kinv_step s o s' e : kinv s -> (forall t c m, o = KPush t c m -> c = 0%N) ->
  kstep s o = Ok (s', e) -> kinv s'.
Proof.
  intros I. pose proof I as [I1 I2 I3 I4 I5]. intros Ho H. unfold idle in *. destruct o as [t c m|t| |]; cbn in H.
  - rewrite (Ho _ _ _ eq_refl) in *. unfold k_push in H. destruct (k_enq s !! t) as [x|] eqn:Et; inversion H; subst; [done|].
    split; cbn; try done.
    + rewrite app_length, map_size_insert_None by done. cbn. lia.
    + intros t' c'. destruct (decide (t = t')) as [<-|]; [rewrite lookup_insert; congruence|].
      rewrite lookup_insert_ne by done. apply I5.
  - unfold k_add in H. destruct (k_enq s !! t) as [c|] eqn:Et; inversion H; subst; [|done].
    assert (size (k_enq s) = S (size (delete t (k_enq s)))).
    { rewrite <-(insert_delete (k_enq s) t c Et) at 1. rewrite map_size_insert_None; [done|]. apply lookup_delete. }
    split; cbn; try done.
    + rewrite I1. lia.
    + intros [Hs Hr]. destruct (Z.eqb_spec (k_counter s) 0).
      * by destruct (k_sched s).
      * specialize (I2 (conj Hs Hr)). lia.
    + destruct (k_counter s =? 0); [|done]. apply Forall_app. split; [done|]. constructor; [|done].
      symmetry. by eapply I5.
    + intros t' c' Ht. apply lookup_delete_Some in Ht as [_ Ht]. by eapply I5.
  - unfold k_start in H. destruct (k_run s) as [r|] eqn:Er; [by inversion H; subst|].
    destruct (k_sched s) as [|c rest] eqn:Es; inversion H; subst.
    + done.
    + inversion I3; subst. split; cbn; try done.
      * intros [? ?]; done.
      * by intros ? ? [= <- _].
  - inversion H as [Hk]; clear H. unfold k_step in Hk. destruct (k_run s) as [[c p]|] eqn:Er.
    2:{ by inversion Hk; subst. }
    pose proof (I4 _ _ eq_refl); subst c. destruct p as [n|n|n]; cbn in I1.
    + destruct (k_inb s 0) as [|m rest] eqn:Ei; inversion Hk; subst; split; cbn; try done.
      * rewrite Ei. cbn in *. destruct n; cbn; lia.
      * intros [Hs Hr]. destruct n; [|done]. cbn in *. lia.
      * by destruct n; intros ? ? [= <- _].
      * cbn in I1. lia.
      * by intros [? ?].
      * by intros ? ? [= <- _].
    + inversion Hk; subst; split; cbn; try done.
      * by intros [? ?].
      * by intros ? ? [= <- _].
    + inversion Hk; subst; split; cbn; try done.
      * destruct (k_counter s =? Z.of_nat n); cbn; lia.
      * intros [Hs Hr]. destruct (Z.eqb_spec (k_counter s) (Z.of_nat n)); [lia|done].
      * destruct (k_counter s =? Z.of_nat n); [done|]. by intros ? ? [= <- _].
Qed.

Lemma kinv_run ops : forall s s' e, single ops -> kinv s -> run kstep s ops = Ok (s', e) -> kinv s'.
Proof.
  induction ops as [|o ops IH]; intros s s' e Hs I H; cbn [run] in H.
  - by inversion H; subst.
  - destruct (kstep s o) as [[s1 e1]| |] eqn:Ho; cbn [rbind] in H; try discriminate.
    destruct (run kstep s1 ops) as [[s2 e2]| |] eqn:Hr; cbn [rbind] in H; try discriminate.
    inversion H; subst. eapply IH; [|eapply kinv_step; [exact I| |exact Ho]|exact Hr].
    + intros t c m Hin. apply (Hs t c m). by right.
    + intros t c m ->. apply (Hs t c m). by left.
Qed.

Lemma not_stuck ops s e : single ops -> run kstep kinit ops = Ok (s, e) ->
  idle s -> k_enq s = ∅ -> k_inb s 0 = [].
Proof.
  intros Hs H Hi He. pose proof (kinv_run _ _ _ _ Hs kinv_init H) as I.
  pose proof (ki_idle _ I Hi). pose proof (ki_count _ I) as Hc. destruct Hi as [_ Hr]. rewrite Hr, He in Hc.
  rewrite map_size_empty in Hc. cbn in Hc. apply nil_length_inv. lia.
Qed.

Lemma korder_gen ops c : forall s s' e,
  run kstep s ops = Ok (s', e) ->
  kdispatched c e ++ k_queue s' c ++ k_inb s' c = k_queue s c ++ k_inb s c ++ kpushed c s ops.
Proof.
  induction ops as [|o ops IH]; intros s s' e H.
  - inversion H; subst; simpl. by rewrite app_nil_r.
  - cbn [run] in H. destruct (kstep s o) as [[s1 e1]| |] eqn:Hs; cbn [rbind] in H; try discriminate.
    destruct (run kstep s1 ops) as [[s2 e2]| |] eqn:Hr; cbn [rbind] in H; try discriminate.
    inversion H; subst. pose proof (IH _ _ _ Hr) as IH'. clear IH.
    assert (Hone : kdispatched c e1 ++ k_queue s1 c ++ k_inb s1 c ++ kpushed c s1 ops = k_queue s c ++ k_inb s c ++ kpushed c s (o :: ops)).
    { cbn [kpushed]. rewrite Hs.
      destruct o as [t c' m|t| |]; cbn in Hs.
      - unfold k_push in Hs. destruct (k_enq s !! t) as [x|] eqn:Et; inversion Hs; subst; clear Hs.
        + rewrite bool_decide_eq_false_2 by congruence. done.
        + rewrite bool_decide_eq_true_2 by done. cbn [k_queue k_inb andb]. unfold upd. rewrite (N.eqb_sym c' c).
          destruct (N.eqb_spec c c') as [->|]; [|done]. cbn. by rewrite <-!(assoc_L (++)).
      - unfold k_add in Hs. destruct (k_enq s !! t); by inversion Hs; subst.
      - unfold k_start in Hs. destruct (k_run s), (k_sched s); by inversion Hs; subst.
      - inversion Hs as [Hk]; clear Hs. unfold k_step in Hk. destruct (k_run s) as [[c' p]|]; [|by inversion Hk; subst].
        destruct p as [n|n|n].
        + destruct (k_inb s c') as [|m rest] eqn:Ei; inversion Hk; subst; [done|].
          cbn [k_queue k_inb]. unfold upd. destruct (N.eqb_spec c c') as [->|]; [|done].
          rewrite Ei. cbn. by rewrite <-!(assoc_L (++)).
        + inversion Hk; subst. cbn [k_queue k_inb]. unfold upd.
          assert (Hd : forall q, kdispatched c (KDispatched c' <$> q) = if N.eqb c c' then q else []).
          { unfold kdispatched. intros q. rewrite (N.eqb_sym c c'). induction q as [|x q IHq]; csimpl; [by destruct (c' =? c)%N|].
            rewrite IHq. by destruct (c' =? c)%N. }
          rewrite Hd. destruct (N.eqb_spec c c') as [->|]; done.
        + by inversion Hk; subst. }
    rewrite <-Hone. unfold kdispatched in *. rewrite omap_app, <-!(assoc_L (++)). by rewrite IH'.
Qed.

Lemma korder ops c s e : run kstep kinit ops = Ok (s, e) ->
  kdispatched c e ++ k_queue s c ++ k_inb s c = kpushed c kinit ops.
Proof. intros H. by apply (korder_gen _ c) in H. Qed.

(** Progress of the FLTK thread alone. *)
Definition knext (s : kstate) : kop := match k_run s with None => KStart | Some _ => KStep end.

Definition weight (r : option (N * cpc)) : nat :=
  match r with
  | None => 0
  | Some (_, CPop O) => 1
  | Some (_, CPop (S _)) => 4
  | Some (_, CProcess _) => 3
  | Some (_, CSub _) => 2
  end.
Definition kmeasure (s : kstate) : nat := (10 * length (k_sched s) + 5 * length (k_inb s 0) + weight (k_run s))%nat.

Record kq (s : kstate) : Prop := {
  kq_queue : match k_run s with
             | Some (_, CPop n) => length (k_queue s 0) = n
             | Some (_, CProcess n) => length (k_queue s 0) = n
             | _ => k_queue s 0 = []
             end
}.

Lemma kq_step s o s' e : kinv s -> kq s -> kstep s o = Ok (s', e) -> kq s'.
Proof.
  intros I [Q] H. constructor. destruct o as [t c m|t| |]; cbn in H.
  - unfold k_push in H. destruct (k_enq s !! t); by inversion H; subst.
  - unfold k_add in H. destruct (k_enq s !! t); by inversion H; subst.
  - unfold k_start in H. destruct (k_run s) as [r|] eqn:Er, (k_sched s); inversion H; subst; rewrite ?Er; try done.
    cbn. by rewrite Q.
  - inversion H as [Hk]; clear H. unfold k_step in Hk. destruct (k_run s) as [[c p]|] eqn:Er.
    2:{ inversion Hk; subst. by rewrite Er. }
    pose proof (ki_run _ I _ _ Er); subst c. destruct p as [n|n|n].
    + destruct (k_inb s 0) eqn:Ei; inversion Hk; subst; cbn.
      * by destruct (k_queue s 0) eqn:Eq; cbn.
      * unfold upd; cbn. rewrite app_length; cbn. lia.
    + by inversion Hk; subst.
    + inversion Hk; subst; cbn. destruct (k_counter s =? Z.of_nat n); cbn; [done|]. by rewrite Q.
Qed.

Lemma kprogress_gen n : forall s, (kmeasure s <= n)%nat -> kinv s -> kq s -> k_enq s = ∅ ->
  exists l s' e, run kstep s l = Ok (s', e) /\ Forall (fun o => o = KStart \/ o = KStep) l /\ idle s' /\ k_enq s' = ∅ /\
    kdispatched 0 e = k_queue s 0 ++ k_inb s 0.
Proof.
  induction n as [|n IH]; intros s Hm I Q He.
  - assert (Hsch : k_sched s = []) by (apply nil_length_inv; unfold kmeasure in Hm; lia).
    assert (Hin : k_inb s 0 = []) by (apply nil_length_inv; unfold kmeasure in Hm; lia).
    assert (Hr : k_run s = None). { unfold kmeasure in Hm. destruct (k_run s) as [[? [[]| |]]|]; cbn in Hm; try lia. done. }
    exists [], s, []. cbn. split; [done|]. split; [done|]. split; [done|]. split; [done|].
    destruct Q as [Q]. rewrite Hr in Q. by rewrite Q, Hin.
  - destruct (decide (k_sched s = [] /\ k_run s = None)) as [Hidle|Hbusy].
    { exists [], s, []. cbn. split; [done|]. split; [done|]. split; [done|]. split; [done|].
      destruct Q as [Q]. destruct Hidle as [Hsch Hr]. rewrite Hr in Q. rewrite Q. cbn.
      pose proof (ki_idle _ I (conj Hsch Hr)). pose proof (ki_count _ I) as Hc. rewrite Hr, He, map_size_empty in Hc. cbn in Hc.
      symmetry. apply nil_length_inv. lia. }
    assert (Hstep : exists s1 e1, kstep s (knext s) = Ok (s1, e1) /\ (kmeasure s1 < kmeasure s)%nat /\ k_enq s1 = ∅ /\ knext s <> KStart \/ 
       exists s1, kstep s KStart = Ok (s1, []) /\ knext s = KStart /\ (kmeasure s1 < kmeasure s)%nat /\ k_enq s1 = ∅).
    { unfold knext, kstep, kmeasure. destruct (k_run s) as [[c p]|] eqn:Er.
      - exists (k_step s).1, (k_step s).2. left. split; [by destruct (k_step s)|].
        pose proof (ki_run _ I _ _ Er); subst c. pose proof (ki_count _ I) as Hc. rewrite Er, He, map_size_empty in Hc.
        unfold k_step. rewrite Er. destruct p as [k|k|k].
        + destruct (k_inb s 0) eqn:Ei; cbn.
          * rewrite Ei. destruct k; cbn; split; [lia|done|lia|done].
          * destruct k; cbn; split; [lia|done|lia|done].
        + cbn. split; [lia|done].
        + cbn. destruct (k_counter s =? Z.of_nat k); cbn; split; [lia|done|lia|done].
      - exists s, []. right. destruct (k_sched s) as [|c rest] eqn:Es; [by destruct Hbusy|].
        eexists. unfold k_start. rewrite Er, Es. split; [done|]. split; [done|]. cbn. split; [lia|done]. }
    assert (Hone : exists s1 e1, kstep s (knext s) = Ok (s1, e1) /\ (kmeasure s1 < kmeasure s)%nat /\ k_enq s1 = ∅).
    { destruct Hstep as (s1 & e1 & [(?&?&?&?)|(s2&Hs&Hn&?&?)]); [eauto 10|]. exists s2, []. rewrite Hn. done. }
    destruct Hone as (s1 & e1 & Hs & Hlt & He1). clear Hstep.
    assert (I1 : kinv s1). { eapply kinv_step; [exact I| |exact Hs]. intros t c m. unfold knext. by destruct (k_run s). }
    assert (Q1 : kq s1) by (eapply kq_step; [exact I|exact Q|exact Hs]).
    destruct (IH s1 ltac:(lia) I1 Q1 He1) as (l & s2 & e2 & H2 & Hl & Hi & He2 & Hd).
    assert (Hrun : run kstep s (knext s :: l) = Ok (s2, e1 ++ e2)) by (cbn [run]; rewrite Hs; cbn [rbind]; by rewrite H2).
    exists (knext s :: l), s2, (e1 ++ e2). split; [done|]. split.
    { constructor; [|done]. unfold knext. destruct (k_run s); auto. }
    split; [done|]. split; [done|].
    pose proof (korder_gen _ 0%N _ _ _ Hrun) as Ho1.
    assert (Hp : kpushed 0 s (knext s :: l) = []).
    { assert (Hall : forall l' s', Forall (fun o => o = KStart \/ o = KStep) l' -> kpushed 0 s' l' = []).
      { clear. induction l' as [|o l' IHl]; intros s' Hf; [done|]. inversion Hf as [|? ? Ho Hf']; subst.
        cbn [kpushed]. destruct Ho as [-> | ->]; cbn; [by apply IHl|]. destruct (k_step s'); by apply IHl. }
      apply Hall. constructor; [|done]. unfold knext. destruct (k_run s); auto. }
    rewrite Hp, app_nil_r in Ho1. rewrite <-Ho1.
    assert (k_inb s2 0 = [] /\ k_queue s2 0 = []) as [-> ->]; [|by rewrite !app_nil_r].
    assert (I2 : kinv s2 /\ kq s2).
    { clear -I1 Q1 H2 Hl. revert s1 e2 I1 Q1 H2. induction l as [|o l IHl]; intros s1 e2 I1 Q1 H2; cbn [run] in H2.
      - by inversion H2; subst.
      - inversion Hl as [|? ? Ho Hl']; subst. destruct (kstep s1 o) as [[s3 e3]| |] eqn:E3; cbn [rbind] in H2; try discriminate.
        destruct (run kstep s3 l) as [[s4 e4]| |] eqn:E4; cbn [rbind] in H2; try discriminate. inversion H2; subst.
        eapply IHl; [done| | |exact E4].
        + eapply kinv_step; [exact I1| |exact E3]. by destruct Ho as [-> | ->].
        + eapply kq_step; [exact I1|exact Q1|exact E3]. }
    destruct I2 as [I2 [Q2]]. destruct Hi as [Hsch Hr]. rewrite Hr in Q2. split; [|done].
    pose proof (ki_idle _ I2 (conj Hsch Hr)). pose proof (ki_count _ I2) as Hc. rewrite Hr, He2, map_size_empty in Hc. cbn in Hc.
    apply nil_length_inv. lia.
Qed.

Lemma kq_run ops : forall s s' e, single ops -> kinv s -> kq s -> run kstep s ops = Ok (s', e) -> kq s'.
Proof.
  induction ops as [|o ops IH]; intros s s' e Hs I Q H; cbn [run] in H.
  - by inversion H; subst.
  - destruct (kstep s o) as [[s1 e1]| |] eqn:Ho; cbn [rbind] in H; try discriminate.
    destruct (run kstep s1 ops) as [[s2 e2]| |] eqn:Hr; cbn [rbind] in H; try discriminate.
    inversion H; subst. eapply IH; [|eapply kinv_step; [exact I| |exact Ho]|eapply kq_step; [exact I|exact Q|exact Ho]|exact Hr].
    + intros t c m Hin. apply (Hs t c m). by right.
    + intros t c m ->. apply (Hs t c m). by left.
Qed.

Lemma kprogress ops s e : single ops -> run kstep kinit ops = Ok (s, e) -> k_enq s = ∅ ->
  exists l s' e', run kstep s l = Ok (s', e') /\ Forall (fun o => o = KStart \/ o = KStep) l /\ idle s' /\
    kdispatched 0 e' = k_queue s 0 ++ k_inb s 0.
Proof.
  intros Hs H He. pose proof (kinv_run _ _ _ _ Hs kinv_init H) as I.
  assert (Q : kq s) by (eapply kq_run; [exact Hs|exact kinv_init|by constructor|exact H]).
  destruct (kprogress_gen _ s (le_n _) I Q He) as (l & s' & e' & ? & ? & ? & ? & ?). exists l, s', e'. done.
Qed.

(** A stuck state: idle with a positive counter.  No operation leaves it. *)
Lemma dead_stays ops : forall s s' e, idle s -> 0 < k_counter s -> run kstep s ops = Ok (s', e) ->
  idle s' /\ 0 < k_counter s' /\ e = [].
Proof.
  induction ops as [|o ops IH]; intros s s' e Hi Hc H; cbn [run] in H.
  - by inversion H; subst.
  - destruct (kstep s o) as [[s1 e1]| |] eqn:Ho; cbn [rbind] in H; try discriminate.
    destruct (run kstep s1 ops) as [[s2 e2]| |] eqn:Hr; cbn [rbind] in H; try discriminate.
    inversion H; subst.
    assert (idle s1 /\ 0 < k_counter s1 /\ e1 = []) as (Hi1 & Hc1 & ->).
    { destruct Hi as [Hsch Hrun]. destruct o as [t c m|t| |]; cbn in Ho.
      - unfold k_push in Ho. destruct (k_enq s !! t); inversion Ho; subst; done.
      - unfold k_add in Ho. destruct (k_enq s !! t); inversion Ho; subst; [|done]. unfold idle; cbn.
        destruct (Z.eqb_spec (k_counter s) 0); [lia|]. split; [done|]. split; [lia|done].
      - unfold k_start in Ho. rewrite Hrun, Hsch in Ho. by inversion Ho; subst.
      - unfold k_step in Ho. rewrite Hrun in Ho. by inversion Ho; subst. }
    by destruct (IH _ _ _ Hi1 Hc1 Hr) as (? & ? & ->).
Qed.
