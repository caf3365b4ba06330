(** The invariant of the name service holds in all runs. *)
From stdpp Require Import base list gmap strings.
From Verif Require Import Base Prog RegistryModel RegistrySpec RegistryProofs ActorModel ActorSpec ActorMoves ActorReach ActorSteps ActorProofs NetModel NetSpec NetLocal NetViews NetInv NetRun ActorSafeSpec NamesModel NamesSpec NamesLocal NamesEvents NamesFlight NamesViews NamesInv NamesAct.
Open Scope N_scope.

Section proofs.
Context (nm : N -> string) (cfg : N -> plug -> list uact) (ra : N) (unl : N -> bool).
Context {HI : Inj eq eq nm}.
Notation S y n := (sto (y_net y) n).
Notation T y n := (trace (y_net y) n).
Notation listed := (listed nm).
Notation ystep := (ystep nm cfg ra unl).
Notation YI := (YI nm ra).
Notation ran ops y ev := (run ystep (yinit ra) ops = Ok (y, ev)).

Lemma fl_ninit : fl ninit.
Proof. split; cbn; try (intros; by apply elem_of_nil in H); intros; by left. Qed.
Lemma sto_yinit n : S (yinit ra) n = ainit.
Proof. unfold sto. cbn. destruct (decide (ra = n)) as [->|?]; [by rewrite lookup_singleton|by rewrite lookup_singleton_ne]. Qed.
Lemma trace_yinit n : T (yinit ra) n = [].
Proof. unfold trace. cbn. destruct (decide (ra = n)) as [->|?]; [by rewrite lookup_singleton|by rewrite lookup_singleton_ne]. Qed.
Lemma new_ra : nstep cfg ra unl ninit (NNew ra) = Ok (y_net (yinit ra), []).
Proof. cbn. rewrite bool_decide_false; [done|]. rewrite lookup_empty. by intros []. Qed.
Lemma YI_init : YI (yinit ra) [].
Proof.
  split.
  - apply (fl_step _ _ _ _ _ _ _ fl_ninit new_ra).
  - cbn. rewrite lookup_singleton. eauto.
  - exists [], []. done.
  - by intros n x ?%elem_of_nil.
  - by intros n x ?%elem_of_nil.
  - by intros d ?%elem_of_nil.
  - intros k a. unfold owner. cbn. by rewrite lookup_empty.
  - intros c m a. rewrite trace_yinit. by intros ?%elem_of_nil.
  - intros c m. split; unfold op; rewrite ?sto_yinit; cbn; try lia. by rewrite lookup_empty.
  - intros _ c x. rewrite trace_yinit. by intros ?%elem_of_nil.
  - intros _ c m. unfold NamesSpec.listed, owner. cbn. by rewrite lookup_empty.
Qed.
Lemma from_query_link y ev n r l q : YI y ev -> y_from y n = r :: l -> x_pend (S y n) !! number r = Some q -> link_query q = false.
Proof.
  intros HY Hf Hq. pose proof (from_query nm y n r q (i_fl _ _ _ _ HY) (i_from _ _ _ _ HY n r ltac:(rewrite Hf; by left)) Hq) as H.
  destruct r; destruct H as (m & -> & _); done.
Qed.
Lemma YI_view y ev o y' e : YI y ev -> ystep y o = Ok (y', e) -> yview nm cfg ra unl y y' e /\ fl (y_net y').
Proof. intros HY Hs. apply (ystep_view nm cfg ra unl _ o); [apply (i_fl _ _ _ _ HY)|intros n r l q; by apply (from_query_link y ev)|done]. Qed.
Lemma open_false y n id : open (y_net y) n id = false -> x_pend (S y n) !! id = None \/ x_st (S y n) = AShutDown.
Proof.
  unfold open, sto. destruct (w_act (y_net y) !! n) as [nd|]; [|intros _; left; cbn; apply lookup_empty].
  intros [H|H]%andb_false_iff; [left; apply bool_decide_eq_false in H; by apply eq_None_not_Some|right]. by apply negb_false_iff, bool_decide_eq_true in H.
Qed.
Lemma YI_step y ev o y' e : YI y ev -> ystep y o = Ok (y', e) -> YI y' (ev ++ e).
Proof.
  intros HY Hs. destruct (YI_view _ _ _ _ _ HY Hs) as [HV HF]. pose proof (ystep_dom _ _ _ _ _ _ _ _ ra Hs (i_ra _ _ _ _ HY)) as Hra. clear Hs.
  destruct HV as [n o' r0 y' s' e' HA|y' Hid Ht Hf|p m l y' Hid Hsv Hp Ht Hf|p m l y' r out En Hsv Hp Hr Er Ht Hf|n r l y' Hid Ho Hn Ht Hf].
  - by eapply act_inv.
  - eapply idle_inv; try done; by left.
  - eapply idle_inv; try done; [right|by left]. split; [by apply serves_dead; [apply (i_ra _ _ _ _ HY)|]|]. intros k. rewrite Ht. case_decide; [subst k; rewrite Hp; by exists [m]|by exists []].
  - rewrite app_nil_r. by eapply serve_inv.
  - eapply idle_inv; try done; [by left|right]. exists n, r, l. split_and!; try done; [by apply open_false|by left].
Qed.
Lemma YI_run ops y ev : ran ops y ev -> YI y ev.
Proof.
  intros Hr. apply (run_inv_ev ystep (fun _ _ => True) YI (fun s ev o s' e H _ => YI_step s ev o s' e H) ops (yinit ra) [] y ev); [apply YI_init| |done].
  clear. generalize (yinit ra). induction ops as [|o ops IH]; intros y; cbn; [done|]. split; [done|]. by destruct (ystep y o) as [[? ?]| |].
Qed.

(** ** What follows *)
Lemma holds_op y ev c m : YI y ev -> holds y c m <-> op y c m.
Proof. intros HY. apply (reach_reg _ _ _ (fl_reach _ (i_fl _ _ _ _ HY) c)). Qed.
Lemma owner_run ops y ev c m : ran ops y ev -> holds y c m -> listed y c m.
Proof. intros HY%YI_run H%(holds_op _ _ _ _ HY). by apply (o_op _ _ _ _ (i_own _ _ _ _ HY c m)). Qed.
Lemma exclusive_run ops y ev c d m : ran ops y ev -> holds y c m -> holds y d m -> c = d.
Proof. intros Hr Hc Hd. pose proof (owner_run _ _ _ _ _ Hr Hc) as H1. pose proof (owner_run _ _ _ _ _ Hr Hd) as H2. unfold NamesSpec.listed in *. congruence. Qed.
Lemma found_run ops y ev c m a : ran ops y ev -> EvDiscResp m (Some a) ∈ T y c -> exists id, EvReg m id ∈ T y a.
Proof. intros HY%YI_run. apply (i_found _ _ _ _ HY). Qed.
Lemma waits_pend y c id q : waits y c id q -> x_pend (S y c) !! id = Some q /\ x_st (S y c) <> AShutDown.
Proof. unfold waits, sto. by destruct (w_act (y_net y) !! c). Qed.
Lemma pend_ev y ev c id q : YI y ev -> x_pend (S y c) !! id = Some q -> exists x, x ∈ T y c /\ req_ev x = Some (id, q).
Proof. intros HY Hq. destruct (reach_reqs _ _ _ (fl_reach _ (i_fl _ _ _ _ HY) c)) as (_ & _ & R3). apply R3 in Hq. by apply elem_of_list_omap in Hq. Qed.
Lemma waits_run ops y ev c id q : ran ops y ev -> serves ra (y_net y) = true -> waits y c id q ->
  match q with
  | QReg m => Reg (RegReq id c (nm m) c) ∈ y_to y c \/ exists r, r ∈ y_from y c /\ number r = id
  | QDisc m => (exists x, x ∈ y_to y c /\ (x = Discover (DiscReq id c c (nm m)) \/ x = Promise (DiscReq id c c (nm m)))) \/
      DiscReq id c c (nm m) ∈ promises (y_reg y) \/ exists r, r ∈ y_from y c /\ number r = id
  | _ => True
  end.
Proof.
  intros HY%YI_run Hsv%(serves_live _ _ (i_ra _ _ _ _ HY)) [Hq Hst]%waits_pend. destruct (pend_ev _ _ _ _ _ HY Hq) as (x & Hx & He). pose proof (i_wait _ _ _ _ HY Hsv c x Hx) as Hw.
  assert (Ha : answered y c id -> exists r, r ∈ y_from y c /\ number r = id) by (intros [?|[?|?]]; [done|congruence|done]).
  destruct q; try done; destruct x; try done; cbn in *; repeat case_match; try done; injection He as -> ->; naive_solver.
Qed.
Lemma quiet_run ops y ev c id q : ran ops y ev -> serves ra (y_net y) = true -> settled y c -> waits y c id q ->
  match q with QReg _ => False | QDisc m => DiscReq id c c (nm m) ∈ promises (y_reg y) /\ owner y (nm m) = None | _ => True end.
Proof.
  intros Hr Hsv [Ht Hf] Hw. pose proof (waits_run _ _ _ _ _ _ Hr Hsv Hw) as H. pose proof (i_rinv _ _ _ _ (YI_run _ _ _ Hr)) as HRI. destruct q; try done; rewrite Ht, Hf in H.
  - destruct H as [?%elem_of_nil|(? & ?%elem_of_nil & _)]; done.
  - destruct H as [(? & ?%elem_of_nil & _)|[H|(? & ?%elem_of_nil & _)]]; try done. split; [done|]. by apply (ri_prom _ HRI _) in H.
Qed.
Lemma back_run ops y ev c m : ran ops y ev -> serves ra (y_net y) = true -> listed y c m ->
  holds y c m \/ DeregService (nm m) ∈ y_to y c \/ (exists q, RegOk q ∈ y_from y c /\ rr_name q = nm m) \/ lost_answer nm ev c m \/ EvRegResp m false ∈ T y c.
Proof.
  intros HY%YI_run Hsv%(serves_live _ _ (i_ra _ _ _ _ HY)) Hl. pose proof (i_back _ _ _ _ HY Hsv _ _ Hl) as H. unfold kept in H.
  rewrite (holds_op _ _ _ _ HY), <- (backs_pos nm), <- (oks_pos nm). done.
Qed.
Lemma registry_run ops y ev : ran ops y ev -> exists rops out, run rstep rinit rops = Ok (y_reg y, out).
Proof. intros HY%YI_run. apply (i_reg _ _ _ _ HY). Qed.

(** The actors are those of NetModel.v. *)
Lemma net_step y o y' e : ystep y o = Ok (y', e) -> exists nops ne, run (nstep cfg ra unl) (y_net y) nops = Ok (y_net y', ne).
Proof.
  assert (HN : forall y o y' e, y_nstep nm cfg ra unl y o = Ok (y', e) -> exists nops ne, run (nstep cfg ra unl) (y_net y) nops = Ok (y_net y', ne)).
  { clear. intros y o y' e. unfold y_nstep. destruct (nstep cfg ra unl (y_net y) o) as [[w ne]| |] eqn:E; cbn [rbind]; try done. intros [= <- <-]. rewrite (post_net nm). exists [o], (ne ++ []). cbn [run]. by rewrite E. }
  destruct o as [o|p|n]; cbn [NamesModel.ystep].
  - destruct (allowed o); [apply HN|]. intros [= <- <-]. by exists [], [].
  - destruct (y_to y p) as [|m l]; [intros [= <- <-]; by exists [], []|]. destruct (serves ra (y_net y)); [|intros [= <- <-]; by exists [], []].
    destruct (rstep (y_reg y) m) as [[r out]| |]; cbn [rbind]; try done. intros [= <- <-].
    pose proof (emits out (Names (y_net y) r (upd (y_to y) p l) (y_from y) (y_pid y))) as (E1 & _). rewrite E1. by exists [], [].
  - destruct (y_from y n) as [|r l]; [intros [= <- <-]; by exists [], []|]. destruct (open (y_net y) n (number r)); [apply (HN (Names (y_net y) (y_reg y) (y_to y) (upd (y_from y) n l) (y_pid y)))|]. intros [= <- <-]. by exists [], [].
Qed.
Lemma net_run ops y ev : ran ops y ev -> exists nops ne, run (nstep cfg ra unl) ninit nops = Ok (y_net y, ne).
Proof.
  apply (run_inv ystep (fun y => exists nops ne, run (nstep cfg ra unl) ninit nops = Ok (y_net y, ne))).
  - intros s o s' e (n1 & e1 & H1) (n2 & e2 & H2)%net_step. exists (n1 ++ n2), (e1 ++ e2). rewrite run_app, H1. cbn [rbind]. by rewrite H2.
  - exists [NNew ra], ([] ++ []). cbn [run]. by rewrite new_ra.
Qed.

(** ** Rules of use *)
Section rules.
Context (HC : forall n, prudent_cfg ra (cfg n)).
Lemma rule_step y o : winv ra (y_net y) -> RInv (y_reg y) -> yrule cfg ra unl y o ->
  exists y' e nops ne, ystep y o = Ok (y', e) /\ winv ra (y_net y') /\ RInv (y_reg y') /\ guarded (nstep cfg ra unl) (nrule cfg ra unl) (y_net y) nops /\ run (nstep cfg ra unl) (y_net y) nops = Ok (y_net y', ne).
Proof.
  intros HW HR Hy.
  assert (HN : forall y o, winv ra (y_net y) -> RInv (y_reg y) -> nrule cfg ra unl (y_net y) o ->
    exists y' e nops ne, y_nstep nm cfg ra unl y o = Ok (y', e) /\ winv ra (y_net y') /\ RInv (y_reg y') /\ guarded (nstep cfg ra unl) (nrule cfg ra unl) (y_net y) nops /\ run (nstep cfg ra unl) (y_net y) nops = Ok (y_net y', ne)).
  { clear y o HW HR Hy. intros y o HW HR Hy. destruct (nstep_inv cfg ra unl HC (y_net y) o HW Hy) as (w & ne & Hs & HW'). unfold y_nstep. rewrite Hs. cbn [rbind]. eexists _, _, [o], (ne ++ []). split; [done|]. rewrite (post_net nm). split; [done|]. split.
    - clear -HR. assert (E : forall y, y_reg (foldl (post nm) y ne) = y_reg y) by (clear; induction ne as [|[n x] ne IH]; intros y; cbn [foldl]; [done|]; rewrite IH; done). by rewrite E.
    - cbn [guarded run]. rewrite Hs. done. }
  destruct o as [o|p|n]; cbn [NamesModel.ystep yrule] in *.
  - destruct (allowed o); [by apply HN|]. exists y, [], [], []. done.
  - destruct (y_to y p) as [|m l]; [exists y, [], [], []; done|]. destruct (serves ra (y_net y)); [|eexists _, [], [], []; done].
    destruct (rstep_refines (y_reg y) (owner y) m HR (fun k => eq_refl)) as (r1 & b' & out & -> & HRI' & _). cbn [rbind].
    destruct (emits out (Names (y_net y) r1 (upd (y_to y) p l) (y_from y) (y_pid y))) as (E1 & E2 & _). cbn [y_net y_reg y_to y_from y_pid] in *. eexists _, [], [], []. split; [reflexivity|]. rewrite E1, E2. done.
  - destruct (y_from y n) as [|r l]; [exists y, [], [], []; done|]. destruct (open (y_net y) n (number r)); [|eexists _, _, [], []; done].
    apply (HN (Names (y_net y) (y_reg y) (y_to y) (upd (y_from y) n l) (y_pid y))); [exact HW|exact HR|exact (Hy eq_refl)].
Qed.
Lemma guarded_app {ST O E} (step : ST -> O -> res (ST * list E)) ok s o1 s1 e1 o2 : guarded step ok s o1 -> run step s o1 = Ok (s1, e1) -> guarded step ok s1 o2 -> guarded step ok s (o1 ++ o2).
Proof.
  revert s e1. induction o1 as [|o o1 IH]; intros s e1; cbn [guarded run app]; [by intros _ [= -> _]|]. intros [Ho Hg] Hr Hg2. split; [done|]. destruct (step s o) as [[s2 e2]| |]; cbn [rbind] in *; try done.
  destruct (run step s2 o1) as [[s3 e3]| |] eqn:E3; cbn [rbind] in *; try done. injection Hr as <- <-. by eapply IH.
Qed.
Lemma rules_run ops : guarded ystep (yrule cfg ra unl) (yinit ra) ops -> exists y ev nops ne, ran ops y ev /\
  guarded (nstep cfg ra unl) (nrule cfg ra unl) ninit nops /\ run (nstep cfg ra unl) ninit nops = Ok (y_net y, ne).
Proof.
  intros Hg. destruct (run_safe_ev ystep (yrule cfg ra unl) (fun y _ => (winv ra (y_net y) /\ RInv (y_reg y)) /\ exists nops ne, guarded (nstep cfg ra unl) (nrule cfg ra unl) ninit nops /\ run (nstep cfg ra unl) ninit nops = Ok (y_net y, ne))) with (ops := ops) (s := yinit ra) (ev := [] : list yev) as (y & ev & Hr & _ & nops & ne & H1 & H2).
  - intros y ev o [[HW HR] (n1 & e1 & G1 & R1)] Hy. destruct (rule_step y o HW HR Hy) as (y' & e & n2 & e2 & Hs & HW' & HR' & G2 & R2). exists y', e. split; [done|]. split; [done|].
    exists (n1 ++ n2), (e1 ++ e2). split; [by eapply guarded_app|]. rewrite run_app, R1. cbn [rbind]. by rewrite R2.
  - split; [split|].
    + destruct (nstep_inv cfg ra unl HC ninit (NNew ra) (winv_init ra) I) as (w & e & Hs & HW). rewrite new_ra in Hs. by injection Hs as <- <-.
    + destruct (registry_reach []) as (s & e & Hr & HR & _). by injection Hr as <- <-.
    + exists [NNew ra], ([] ++ []). cbn [guarded run]. rewrite new_ra. cbn. done.
  - done.
  - exists y, ev, nops, ne. done.
Qed.
End rules.
End proofs.
