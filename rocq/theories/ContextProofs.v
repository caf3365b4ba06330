(** C80. *)
From stdpp Require Import base list gmap.
From Verif Require Import Base ContextModel ContextSpec.
Open Scope N_scope.

Lemma pc_go s th p th' : at_pc (go s th p) th' = if decide (th = th') then p else at_pc s th'.
Proof. unfold at_pc, go. cbn. case_decide as H; [subst; by rewrite lookup_insert|by rewrite lookup_insert_ne]. Qed.

(** ** Whatever the users do *)
Record G (s : ctx) : Prop := {
  g_live : forall o, o ∈ c_live s <-> c_str s = Some o \/ exists th w, at_pc s th = PSet w o;
  g_one : forall th th' w w' o, at_pc s th = PSet w o -> at_pc s th' = PSet w' o -> th = th';
  g_next : forall th w o, at_pc s th = PSet w o -> o < c_next s /\ c_str s <> Some o;
  g_str : forall o, c_str s = Some o -> o < c_next s;
  g_ret : forall th w, at_pc s th = PRet w -> c_str s <> None;
  g_ptr : forall a o, c_ptr s !! a = Some (Some o) -> o < c_next s /\ c_str s <> None /\ forall th w, at_pc s th <> PSet w o }.
Lemma G_init : G xinit.
Proof. split; cbn; unfold at_pc; cbn; try done. intros o. rewrite elem_of_empty. split; [done|]. intros [?|(th & w & H)]; [done|]. by rewrite lookup_empty in H. all: by intros *; rewrite lookup_empty. Qed.

(** A thread goes on without touching the objects. *)
Lemma G_go s th p : G s -> (forall w o, at_pc s th <> PSet w o) -> (forall w o, p <> PSet w o) -> (forall w, p = PRet w -> c_str s <> None) -> G (go s th p).
Proof.
  intros [A B C D E F] H1 H2 H3. split; cbn.
  - intros o. rewrite A. split; (intros [?|(th' & w & Hx)]; [by left|right; exists th', w]).
    + rewrite pc_go. case_decide; [subst; by destruct (H1 w o)|done].
    + rewrite pc_go in Hx. case_decide; [by destruct (H2 w o)|done].
  - intros th1 th2 w1 w2 o. rewrite !pc_go. repeat case_decide; subst; try (by intros ? ?; destruct (H2 w1 o)); try (by intros ? ?; destruct (H2 w2 o)). apply B.
  - intros th1 w o. rewrite pc_go. case_decide; [intros Hx; by destruct (H2 w o)|apply C].
  - done.
  - intros th1 w. rewrite pc_go. case_decide; [apply H3|apply E].
  - intros a o Ha. destruct (F a o Ha) as (F1 & F2 & F3). split_and!; try done. intros th1 w. rewrite pc_go. case_decide; [apply H2|apply F3].
Qed.
Lemma G_ptr s a x : G s -> (forall o, x = Some o -> c_str s = Some o) -> G (set_ptr s a x).
Proof.
  intros [A B C D E F] Hx. split; try done. cbn. intros a' o Ha. apply lookup_insert_Some in Ha as [[<- ->]|[_ Ha]]; [|by apply (F a' o)].
  specialize (Hx o eq_refl). split; [by apply D|]. split; [congruence|]. intros th w Hp. apply C in Hp as [_ ?]. done.
Qed.
Lemma G_sup s a : G s -> G (set_sup s a).
Proof. intros [A B C D E F]. by split. Qed.
Lemma G_make s th w : G s -> at_pc s th = PMake w -> G (go (make s) th (PSet w (c_next s))).
Proof.
  intros [A B C D E F] Hp. split; cbn.
  - intros o. rewrite elem_of_union, elem_of_singleton, A. split.
    + intros [[?|(th' & w' & Hx)]| ->]; [by left| |right; exists th, w; rewrite pc_go; by rewrite decide_True].
      right. exists th', w'. rewrite pc_go. case_decide; [subst; congruence|done].
    + intros [?|(th' & w' & Hx)]; [by left; left|]. rewrite pc_go in Hx. case_decide; [injection Hx as <- <-; by right|left; right; by exists th', w'].
  - intros th1 th2 w1 w2 o. rewrite !pc_go. repeat case_decide; subst; [done| | |apply B].
    + intros [= _ <-] Hx. change (at_pc (make s) th2) with (at_pc s th2) in Hx. apply C in Hx as [? _]. lia.
    + intros Hx [= _ <-]. change (at_pc (make s) th1) with (at_pc s th1) in Hx. apply C in Hx as [? _]. lia.
  - intros th1 w1 o. rewrite pc_go. case_decide.
    + intros [= _ <-]. split; [lia|]. intros Hx. apply D in Hx. lia.
    + intros Hx. apply C in Hx as [? ?]. split; [lia|done].
  - intros o Ho. apply D in Ho. lia.
  - intros th1 w1. rewrite pc_go. case_decide; [done|apply E].
  - intros a o Ha. destruct (F a o Ha) as (F1 & F2 & F3). split; [lia|]. split; [done|]. intros th1 w1. rewrite pc_go. case_decide; [intros [= _ <-]; lia|apply F3].
Qed.
Lemma G_assign s th w o s1 e : G s -> at_pc s th = PSet w o -> assign s o = (s1, e) -> G (go s1 th (PRet w)) /\ c_str s1 = Some o /\ c_ptr s1 = c_ptr s /\ c_pc s1 = c_pc s.
Proof.
  intros [A B C D E F] Hp Ha. destruct (C th w o Hp) as [Hlt Hne].
  assert (K : exists L, s1 = Ctx (c_sup s) (Some o) L (c_next s) (c_ptr s) (c_pc s) (c_dead s) /\ forall x, x ∈ L <-> x ∈ c_live s /\ c_str s <> Some x).
  { unfold assign in Ha. destruct (c_str s) as [o'|]; injection Ha as <- _; eexists; (split; [reflexivity|]); intros x; [rewrite elem_of_difference, elem_of_singleton|]; naive_solver. }
  destruct K as (L & -> & HL). split; [|done]. split; cbn.
  - intros x. rewrite HL, A. split.
    + intros [[?|(th' & w' & Hx)] Hn]; [done|]. destruct (decide (th' = th)) as [->|Hth]; [left; congruence|]. right. exists th', w'. rewrite pc_go, decide_False by done. done.
    + intros [[= <-]|(th' & w' & Hx)]; [split; [right; by exists th, w|done]|]. rewrite pc_go in Hx. case_decide as Hd; [done|]. change (at_pc s th' = PSet w' x) in Hx. split; [right; by exists th', w'|by eapply C].
  - intros th1 th2 w1 w2 x. rewrite !pc_go. repeat case_decide; try done. apply B.
  - intros th1 w1 x. rewrite pc_go. case_decide as Hd; [done|]. intros Hx. change (at_pc s th1 = PSet w1 x) in Hx. split; [by eapply C|]. intros [= <-]. by apply Hd, (B _ _ _ _ _ Hp Hx).
  - by intros x [= <-].
  - done.
  - intros a x Hx. destruct (F a x Hx) as (F1 & F2 & F3). split; [done|]. split; [done|]. intros th1 w1. rewrite pc_go. case_decide; [done|apply F3].
Qed.

Lemma advance_ok s th : G s -> exists s' e, advance s th = Ok (s', e) /\ G s' /\ c_dead s' = c_dead s.
Proof.
  intros Hg. unfold advance. destruct (at_pc s th) as [|a|a|w|w|w o|w] eqn:Hp.
  - by exists s, [].
  - destruct (c_sup s); eexists _, _; (split; [reflexivity|]); (split; [|done]); (apply G_go; [done|by intros ? ?; rewrite Hp|done|done]).
  - eexists _, _. split; [reflexivity|]. split; [|done]. apply G_go; [by apply G_ptr; [apply G_sup|]| |done|done]. intros w o Hx. change (at_pc s th = PSet w o) in Hx. congruence.
  - destruct (c_str s) eqn:Hs; eexists _, _; (split; [reflexivity|]); (split; [|done]); (apply G_go; [done|by intros ? ?; rewrite Hp|done|]); [intros; by rewrite Hs|done].
  - eexists _, _. split; [reflexivity|]. split; [|done]. by apply G_make.
  - destruct (assign s o) as [s1 e] eqn:Ha. eexists _, _. split; [reflexivity|]. split; [by eapply G_assign|]. unfold assign in Ha. by destruct (c_str s); injection Ha as <- _.
  - destruct (c_str s) as [o|] eqn:Hs; [|by destruct (g_ret _ Hg th w Hp)]. eexists _, _. split; [reflexivity|]. split; [|by destruct w].
    apply G_go; [|intros w' o' Hx|done|done]. { destruct w as [a|]; [|done]. apply G_ptr; [done|]. by intros ? [= ->]. }
    assert (Hy : at_pc s th = PSet w' o') by (by destruct w). congruence.
Qed.
(** What goes wrong, exactly. *)
Definition stale (s : ctx) (a : N) : Prop := exists o, c_ptr s !! a = Some (Some o) /\ c_str s <> Some o.
Lemma live_ptr s a o : G s -> c_ptr s !! a = Some (Some o) -> o ∈ c_live s <-> c_str s = Some o.
Proof. intros Hg Ha. destruct (g_ptr _ Hg a o Ha) as (_ & _ & F). rewrite (g_live _ Hg). split; [|by left]. intros [?|(th & w & Hx)]; [done|]. by apply F in Hx. Qed.
Lemma step_G s o : G s -> lawful s o -> (exists s' e, xstep s o = Ok (s', e) /\ G s' /\ c_dead s' = false) \/ (exists a, o = OpDeliver a /\ stale s a /\ xstep s o = Crash).
Proof.
  intros Hg [Hd Hl].
  assert (Hs : forall x : res (ctx * list xev), x = Ok (s, []) -> (exists s' e, x = Ok (s', e) /\ G s' /\ c_dead s' = false)) by (intros x ->; by exists s, []).
  destruct o as [th a|th p a|th|th|a|]; cbn; try done.
  - left. destruct (at_pc s th) eqn:Hp; try (by apply Hs). eexists _, _. split; [reflexivity|]. split; [|done]. apply G_go; [done|by intros ? ?; rewrite Hp|done|done].
  - left. destruct (at_pc s th) eqn:Hp; try (by apply Hs). destruct (active s p); [|by apply Hs]. eexists _, _. split; [reflexivity|]. split; [|done]. apply G_go; [by apply G_ptr| |done|done].
    intros w o Hx. change (at_pc s th = PSet w o) in Hx. congruence.
  - left. destruct (at_pc s th) eqn:Hp; try (by apply Hs). eexists _, _. split; [reflexivity|]. split; [|done]. apply G_go; [done|by intros ? ?; rewrite Hp|done|done].
  - left. destruct (advance_ok s th Hg) as (s' & e & H1 & H2 & H3). exists s', e. split; [done|]. split; [done|congruence].
  - destruct (c_ptr s !! a) as [[o|]|] eqn:Ha; [|left; by apply Hs..]. destruct (decide (o ∈ c_live s)) as [Hi|Hi]; [left; by eexists _, _|].
    right. exists a. split; [done|]. split; [|done]. exists o. split; [done|]. intros Hx. by apply Hi, (live_ptr s a o Hg Ha).
Qed.
Lemma stale_crash s a : G s -> stale s a -> xstep s (OpDeliver a) = Crash.
Proof. intros Hg (o & Ha & Hne). cbn. rewrite Ha. rewrite decide_False; [done|]. by rewrite (live_ptr s a o Hg Ha). Qed.
Lemma run_G ops s ev : guarded xstep lawful xinit ops -> run xstep xinit ops = Ok (s, ev) -> G s.
Proof.
  intros Hg H. refine (run_inv_ev xstep lawful (fun s _ => G s) _ ops xinit [] s ev G_init Hg H).
  intros s0 _ o s' e H0 Ho Hs. destruct (step_G s0 o H0 Ho) as [(s1 & e1 & H1 & H2 & _)|(a & _ & _ & H1)]; congruence.
Qed.

(** ** Users who wait for the root *)
Definition busy_one (s : ctx) : Prop := forall th th', at_pc s th <> PIdle -> at_pc s th' <> PIdle -> th = th'.
Record RA (s : ctx) (ev : list xev) : Prop := {
  ra_str : c_str s = None; ra_act : forall a, active s a = false; ra_busy : busy_one s;
  ra_made : (made ev = [] /\ forall th w o, at_pc s th <> PSet w o) \/ exists th w o, at_pc s th = PSet w o /\ made ev = [o];
  ra_ev : forall w o, EGot w o ∉ ev /\ EFreed o ∉ ev }.
Record RB (o : N) (s : ctx) (ev : list xev) : Prop := {
  rb_str : c_str s = Some o; rb_ptr : forall a x, c_ptr s !! a = Some (Some x) -> x = o;
  rb_pc : forall th w, at_pc s th <> PMake w /\ forall x, at_pc s th <> PSet w x;
  rb_made : made ev = [o]; rb_ev : forall w x, (EGot w x ∈ ev -> x = o) /\ EFreed x ∉ ev }.
Definition R (s : ctx) (ev : list xev) : Prop := RA s ev \/ exists o, RB o s ev.

Lemma made_app e e' : made (e ++ e') = made e ++ made e'.
Proof. apply omap_app. Qed.
Lemma RA_go s ev th p e : RA s ev -> (at_pc s th <> PIdle \/ calm_threads s) -> (forall w o, at_pc s th <> PSet w o) -> (forall w o, p <> PSet w o) -> made e = [] -> (forall w o, EGot w o ∉ e /\ EFreed o ∉ e) -> RA (go s th p) (ev ++ e).
Proof.
  intros [A B C D E] Hb Hp Hp' Hm He. split; try done.
  - intros th1 th2. rewrite !pc_go. repeat case_decide; subst; try done.
    + intros _ H2. destruct Hb as [Hb|Hb]; [by apply C|by destruct H2].
    + intros H1 _. destruct Hb as [Hb|Hb]; [by apply C|by destruct H1].
    + apply C.
  - rewrite made_app, Hm, app_nil_r. destruct D as [[D D']|(th1 & w & o & D1 & D2)]; [left; split; [done|]; intros th1 w o; rewrite pc_go; case_decide; [apply Hp'|apply D']|]. right. exists th1, w, o. rewrite pc_go. case_decide; [subst; by apply Hp in D1|done].
  - intros w o. destruct (E w o), (He w o). split; intros Hx; apply elem_of_app in Hx as [?|?]; done.
Qed.
Lemma RA_ptr s ev a : RA s ev -> RA (set_ptr s a None) ev.
Proof. intros [A B C D E]. split; try done. intros a'. unfold active. cbn. destruct (decide (a = a')) as [->|Hne]; [by rewrite lookup_insert|]. rewrite lookup_insert_ne by done. apply B. Qed.
Lemma RB_go o s ev th p e : RB o s ev -> (forall w, p <> PMake w /\ forall x, p <> PSet w x) -> made e = [] -> (forall w x, (EGot w x ∈ e -> x = o) /\ EFreed x ∉ e) -> RB o (go s th p) (ev ++ e).
Proof.
  intros [A B C D E] Hp Hm He. split; try done.
  - intros th1 w. rewrite pc_go. case_decide; [apply Hp|apply C].
  - by rewrite made_app, Hm, app_nil_r.
  - intros w x. destruct (E w x), (He w x). split; intros Hx; apply elem_of_app in Hx as [?|?]; auto.
Qed.
Lemma no_ev (w : who) (x : N) : EGot w x ∉ ([] : list xev) /\ EFreed x ∉ ([] : list xev).
Proof. split; apply not_elem_of_nil. Qed.
Lemma RA_skip s ev : RA s ev -> RA s (ev ++ []).
Proof. by rewrite app_nil_r. Qed.

Lemma step_RA s ev o s' e : G s -> RA s ev -> good_use s o -> xstep s o = Ok (s', e) -> R s' (ev ++ e).
Proof.
  intros Hg HA [[Hd Hl] Hr] H. assert (Hs : Ok (s, []) = Ok (s', e) -> R s' (ev ++ e)) by (intros [= <- <-]; rewrite app_nil_r; by left).
  assert (Hact : ~ has_active s) by (intros [a Ha]; by rewrite (ra_act _ _ HA) in Ha).
  destruct o as [th a|th p a|th|th|a|]; cbn in H, Hr; try done.
  - destruct (at_pc s th) eqn:Hp; auto. injection H as <- <-. left. apply RA_go; [done|by right|by intros ? ?; rewrite Hp|done|done|apply no_ev].
  - destruct (at_pc s th) eqn:Hp; auto. rewrite (ra_act _ _ HA) in H. auto.
  - destruct (at_pc s th) eqn:Hp; auto. injection H as <- <-. left. apply RA_go; [done|right; by destruct Hr|by intros ? ?; rewrite Hp|done|done|apply no_ev].
  - unfold advance in H. destruct (at_pc s th) as [|a|a|w|w|w o|w] eqn:Hp; auto.
    + destruct (c_sup s); injection H as <- <-; left; (apply RA_go; [done|left; by rewrite Hp|by intros ? ?; rewrite Hp|done|done|]); [|apply no_ev]. intros w o. split; intros Hx; by apply elem_of_list_singleton in Hx.
    + injection H as <- <-. left. apply RA_go; [|left; change (at_pc s th <> PIdle); by rewrite Hp| |done|done|apply no_ev].
      * apply RA_ptr. by destruct HA.
      * intros w o Hx. change (at_pc s th = PSet w o) in Hx. congruence.
    + rewrite (ra_str _ _ HA) in H. injection H as <- <-. left. apply RA_go; [done|left; by rewrite Hp|by intros ? ?; rewrite Hp|done|done|apply no_ev].
    + injection H as <- <-. left. destruct HA as [A B C D E]. split; try done.
      * intros th1 th2. rewrite !pc_go. repeat case_decide; subst; try done.
        -- intros _ H2. apply C; [by rewrite Hp|done].
        -- intros H1 _. apply C; [done|by rewrite Hp].
        -- apply C.
      * right. exists th, w, (c_next s). rewrite pc_go, decide_True by done. split; [done|]. rewrite made_app. cbn. destruct D as [[-> _]|(th1 & w1 & o & D1 & _)]; [done|].
        assert (th1 = th) as -> by (apply C; [by rewrite D1|by rewrite Hp]). congruence.
      * intros w1 o. destruct (E w1 o). split; intros Hx; apply elem_of_app in Hx as [?|Hx]; try done; by apply elem_of_list_singleton in Hx.
    + destruct (assign s o) as [s1 e1] eqn:Ha. injection H as <- <-. right. exists o. unfold assign in Ha. rewrite (ra_str _ _ HA) in Ha. injection Ha as <- <-. destruct HA as [A B C D E].
      rewrite app_nil_r. split; try done.
      * cbn. intros a x Hx. specialize (B a). unfold active in B. by rewrite Hx in B.
      * intros th1 w1. rewrite pc_go. case_decide as Hd1; [done|]. change (at_pc s th1 <> PMake w1 /\ forall x, at_pc s th1 <> PSet w1 x).
        assert (Hi : at_pc s th1 = PIdle). { destruct (at_pc s th1) eqn:E1; try done; exfalso; apply Hd1, C; by rewrite ?E1, ?Hp. } by rewrite Hi.
      * destruct D as [[_ D]|(th1 & w1 & o1 & D1 & D2)].
        -- by destruct (D th w o).
        -- assert (th1 = th) as -> by (apply C; [by rewrite D1|by rewrite Hp]). congruence.
      * intros w1 x. by destruct (E w1 x).
    + rewrite (ra_str _ _ HA) in H. done.
  - destruct (c_ptr s !! a) as [[o|]|] eqn:Ha; auto. exfalso. specialize (ra_act _ _ HA a). unfold active. by rewrite Ha.
Qed.

Lemma RB_ptr o s ev a x : RB o s ev -> (forall y, x = Some y -> y = o) -> RB o (set_ptr s a x) ev.
Proof. intros [A B C D E] Hx. split; try done. cbn. intros a' y Ha. apply lookup_insert_Some in Ha as [[<- ->]|[_ Ha]]; [by apply Hx|by eapply B]. Qed.
Lemma RB_sup o s ev a : RB o s ev -> RB o (set_sup s a) ev.
Proof. intros [A B C D E]. by split. Qed.
Lemma no_ev' (o : N) (w : who) (x : N) : (EGot w x ∈ ([] : list xev) -> x = o) /\ EFreed x ∉ ([] : list xev).
Proof. split; [|apply not_elem_of_nil]. intros H. by apply elem_of_nil in H. Qed.
Lemma step_RB o s ev op s' e : RB o s ev -> good_use s op -> xstep s op = Ok (s', e) -> R s' (ev ++ e).
Proof.
  intros HB [[Hd Hl] _] H. assert (Hs : Ok (s, []) = Ok (s', e) -> R s' (ev ++ e)) by (intros [= <- <-]; rewrite app_nil_r; right; by exists o).
  destruct op as [th a|th p a|th|th|a|]; cbn in H; try done.
  - destruct (at_pc s th) eqn:Hp; auto. injection H as <- <-. right. exists o. apply RB_go; [done|done|done|apply no_ev'].
  - destruct (at_pc s th) eqn:Hp; auto. destruct (active s p); [|auto]. injection H as <- <-. right. exists o. apply RB_go; [by apply RB_ptr|done|done|apply no_ev'].
  - destruct (at_pc s th) eqn:Hp; auto. injection H as <- <-. right. exists o. apply RB_go; [done|done|done|apply no_ev'].
  - unfold advance in H. destruct (rb_pc _ _ _ HB th None) as [_ _]. destruct (at_pc s th) as [|a|a|w|w|w x|w] eqn:Hp; auto.
    + destruct (c_sup s); injection H as <- <-; right; exists o; (apply RB_go; [done|done|done|]); [|apply no_ev']. intros w x. split; intros Hx; by apply elem_of_list_singleton in Hx.
    + injection H as <- <-. right. exists o. apply RB_go; [by apply RB_ptr; [apply RB_sup|]|done|done|apply no_ev'].
    + rewrite (rb_str _ _ _ HB) in H. injection H as <- <-. right. exists o. apply RB_go; [done|done|done|apply no_ev'].
    + by destruct (rb_pc _ _ _ HB th w).
    + destruct (rb_pc _ _ _ HB th w) as [_ Hx]. by destruct (Hx x).
    + rewrite (rb_str _ _ _ HB) in H. injection H as <- <-. right. exists o. apply RB_go; [|done|done|].
      * destruct w as [a|]; [|done]. apply RB_ptr; [done|]. by intros ? [= ->].
      * intros w' x. split; intros Hx; apply elem_of_list_singleton in Hx; [|done]. by injection Hx as _ ->.
  - destruct (c_ptr s !! a) as [[x|]|] eqn:Ha; auto. destruct (decide _); [|done]. injection H as <- <-. right. exists o. destruct HB as [A B C D E]. split; try done.
    + rewrite made_app. cbn. by rewrite app_nil_r.
    + intros w y. destruct (E w y). split; intros Hx; apply elem_of_app in Hx as [?|Hx]; auto; by apply elem_of_list_singleton in Hx.
Qed.
Lemma idle_init th : at_pc xinit th = PIdle.
Proof. unfold at_pc. cbn. by rewrite lookup_empty. Qed.
Lemma R_init : R xinit [].
Proof.
  left. split.
  - done.
  - intros a. unfold active. cbn. by rewrite lookup_empty.
  - intros th th' H. by destruct H; apply idle_init.
  - left. split; [done|]. intros th w o. by rewrite idle_init.
  - intros w o. apply no_ev.
Qed.
Lemma step_R s ev o s' e : G s -> R s ev -> good_use s o -> xstep s o = Ok (s', e) -> R s' (ev ++ e).
Proof. intros Hg [HA|[x HB]] Ho H; [by eapply step_RA|by eapply step_RB]. Qed.
Lemma good_lawful ops : forall s, guarded xstep good_use s ops -> guarded xstep lawful s ops.
Proof. induction ops as [|o ops IH]; intros s; [done|]. cbn. intros [[H _] Hg]. split; [done|]. destruct (xstep s o) as [[s1 e1]| |]; auto. Qed.
Lemma run_R ops s ev : guarded xstep good_use xinit ops -> run xstep xinit ops = Ok (s, ev) -> G s /\ R s ev.
Proof.
  intros Hg H. refine (run_inv_ev xstep good_use (fun s ev => G s /\ R s ev) _ ops xinit [] s ev (conj G_init R_init) Hg H).
  intros s0 ev0 o s' e [H0 H1] Ho Hs. split; [|by eapply step_R]. destruct Ho as [Ho _]. destruct (step_G s0 o H0 Ho) as [(s1 & e1 & H2 & H3 & _)|(a & _ & _ & H2)]; congruence.
Qed.
Lemma R_fresh s ev a : R s ev -> ~ stale s a.
Proof.
  intros [HA|[x HB]] (o & Ha & Hne).
  - specialize (ra_act _ _ HA a). unfold active. by rewrite Ha.
  - apply Hne. rewrite (rb_str _ _ _ HB). by rewrite (rb_ptr _ _ _ HB a o Ha).
Qed.
Lemma safe_run ops : forall s ev, G s -> R s ev -> guarded xstep good_use s ops -> exists s' e, run xstep s ops = Ok (s', e).
Proof.
  induction ops as [|o ops IH]; intros s ev Hg Hr Ho; [by exists s, []|]. cbn in *. destruct Ho as [Ho Hops].
  destruct (step_G s o Hg (proj1 Ho)) as [(s1 & e1 & H1 & H2 & _)|(a & -> & Hst & _)]; [|by apply (R_fresh s ev a) in Hst].
  rewrite H1 in Hops |- *. cbn. destruct (IH s1 (ev ++ e1) H2) as (s2 & e2 & H3); [by eapply (step_R s ev o)|done|]. rewrite H3. by eexists _, _.
Qed.

(** ** One root *)
Definition rooting (p : pc) : bool := match p with PRoot _ | PRootSet _ => true | _ => false end.
Definition K (s : ctx) : Prop :=
  (forall th1 th2, rooting (at_pc s th1) = true -> rooting (at_pc s th2) = true -> th1 = th2) /\
  (is_Some (c_sup s) -> forall th a, at_pc s th <> PRootSet a).
Lemma at_go s th p th' : at_pc (go s th p) th' = if decide (th' = th) then p else at_pc s th'.
Proof. unfold at_pc, go. cbn. destruct (decide (th' = th)) as [->|Hne]; [by rewrite lookup_insert|by rewrite lookup_insert_ne]. Qed.
Lemma K_go s s0 th p : K s -> (forall x, at_pc s0 x = at_pc s x) -> (rooting p = true -> rooting (at_pc s th) = true \/ calm_threads s) ->
  (is_Some (c_sup s0) -> is_Some (c_sup s) \/ (rooting (at_pc s th) = true /\ rooting p = false)) -> (is_Some (c_sup s0) -> forall a, p <> PRootSet a) -> K (go s0 th p).
Proof.
  intros [K1 K2] Hat Hp Hs Hns. assert (Hr : forall x, x <> th -> rooting p = true -> rooting (at_pc s x) = false).
  { intros x Hx Hr. destruct (Hp Hr) as [H|H]; [|by rewrite (H x)]. destruct (rooting (at_pc s x)) eqn:E; [|done]. by destruct (Hx (K1 x th E H)). }
  split.
  - intros x y. rewrite !at_go, !Hat. destruct (decide (x = th)) as [->|Hx], (decide (y = th)) as [->|Hy]; [done|..]; [intros H1 H2; rewrite Hr in H2; done|intros H1 H2; rewrite Hr in H1; done|apply K1].
  - intros H x a. rewrite at_go, Hat. destruct (decide (x = th)) as [->|Hx]; [by apply Hns|]. destruct (Hs H) as [H'|[H1 H2]]; [by apply K2|].
    intros Hx2. destruct Hx. apply K1; [by rewrite Hx2|done].
Qed.
Lemma assign_pc s o x : at_pc (assign s o).1 x = at_pc s x /\ c_sup (assign s o).1 = c_sup s.
Proof. unfold assign. by destruct (c_str s). Qed.
Lemma step_K s o s' e : K s -> good_use s o -> xstep s o = Ok (s', e) -> K s' /\ forall a, c_sup s = Some a -> c_sup s' = Some a.
Proof.
  intros Hk [[_ Hl] Ho] H. assert (Hsame : Ok (s, []) = Ok (s', e) -> K s' /\ forall a, c_sup s = Some a -> c_sup s' = Some a) by (intros Hx; by injection Hx as <- <-).
  destruct o as [th a|th p a|th|th|a|]; cbn in H.
  - destruct (at_pc s th) eqn:E; try (by apply Hsame). injection H as <- <-. split; [|done]. apply (K_go s); try done; [intros _; by right|by left].
  - destruct (at_pc s th) eqn:E; try (by apply Hsame). destruct (active s p); [|by apply Hsame]. injection H as <- <-. split; [|done]. apply (K_go s); try done. by left.
  - destruct (at_pc s th) eqn:E; try (by apply Hsame). injection H as <- <-. split; [|done]. apply (K_go s); try done. by left.
  - unfold advance in H. destruct (at_pc s th) as [|a|a|w|w|w o|w] eqn:E.
    + by apply Hsame.
    + destruct (c_sup s) as [b|] eqn:Es; injection H as <- <-; (split; [|cbn; congruence]).
      * apply (K_go s); try done. by left.
      * apply (K_go s); try done; [intros _; left; by rewrite E|by left|]. rewrite Es. by intros [? ?].
    + injection H as <- <-. split; [apply (K_go s); try done; intros _; right; by rewrite E|]. intros b Hb. exfalso. destruct Hk as [_ K2]. by apply (K2 (mk_is_Some _ _ Hb) th a).
    + destruct (c_str s); injection H as <- <-; (split; [|done]); (apply (K_go s); try done; by left).
    + injection H as <- <-. split; [|done]. apply (K_go s); try done. by left.
    + destruct (assign s o) as [s1 e1] eqn:Ea. pose proof (assign_pc s o th) as Hx. rewrite Ea in Hx. destruct Hx as [_ Hc]. cbn in Hc.
      injection H as <- <-. split; [|cbn; congruence]. apply (K_go s); try done; [intros x; pose proof (assign_pc s o x) as Hx; rewrite Ea in Hx; apply Hx|rewrite Hc; by left].
    + destruct (c_str s) as [o|]; [|done]. injection H as <- <-. split; [|by destruct w]. apply (K_go s); try done; [by destruct w|destruct w; by left].
  - destruct (c_ptr s !! a) as [[o|]|]; [|by apply Hsame..]. destruct (decide _); [|done]. injection H as <- <-. done.
  - done.
Qed.
Lemma run_K ops : forall s s' e, K s -> guarded xstep good_use s ops -> run xstep s ops = Ok (s', e) -> K s' /\ forall a, c_sup s = Some a -> c_sup s' = Some a.
Proof.
  induction ops as [|o ops IH]; intros s s' e Hk Hg H; cbn in *; [by injection H as <- <-|]. destruct Hg as [Ho Hg].
  destruct (xstep s o) as [[s1 e1]| |] eqn:E; try done. cbn in H. destruct (run xstep s1 ops) as [[s2 e2]| |] eqn:E2; try done. cbn in H. injection H as <- <-.
  destruct (step_K s o s1 e1 Hk Ho E) as [K1 C1]. destruct (IH s1 s2 e2 K1 Hg E2) as [K2 C2]. split; [done|auto].
Qed.
Lemma K_init : K xinit.
Proof. assert (Hi : forall th, at_pc xinit th = PIdle) by (intros th; unfold at_pc; cbn; by rewrite lookup_empty). split; [intros x y; by rewrite Hi|intros [? ?]; done]. Qed.
