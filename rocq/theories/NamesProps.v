(** C59: the registry and the actors which use it. *)
From stdpp Require Import base list gmap strings pretty.
From Verif Require Import Base Prog RegistryModel RegistrySpec RegistryProofs ActorModel ActorSpec ActorSafeSpec NetModel NetSpec NetInv NetProps NamesModel NamesSpec NamesProofs NamesCancel.
Open Scope N_scope.

(** The runs: any sequence of steps which does not end in a failed assertion.  Names are
    told apart. *)
Definition leadsto (nm : N -> string) (cfg : N -> plug -> list uact) (ra : N) (unl : N -> bool) (ops : list yop) (y : names) (ev : list yev) : Prop :=
  Inj eq eq nm /\ run (ystep nm cfg ra unl) (yinit ra) ops = Ok (y, ev).

(** ** The parts are those of C57 and C17-C19 *)
Theorem C59_net : forall nm cfg ra unl ops y ev, leadsto nm cfg ra unl ops y ev ->
  (exists nops ne, run (nstep cfg ra unl) ninit nops = Ok (y_net y, ne)) /\ (exists rops out, run rstep rinit rops = Ok (y_reg y, out)).
Proof. intros * [HI Hr]. split; [by eapply net_run|by eapply registry_run]. Qed.
(** Under the rules of C57 no assertion fails, and what C57 says holds here. *)
Theorem C59_safe_partial : forall nm cfg ra unl ops, (forall n, prudent_cfg ra (cfg n)) -> guarded (ystep nm cfg ra unl) (yrule cfg ra unl) (yinit ra) ops ->
  exists y ev, run (ystep nm cfg ra unl) (yinit ra) ops = Ok (y, ev) /\ reached cfg ra unl (y_net y).
Proof. intros * HC Hg. destruct (rules_run nm cfg ra unl HC ops Hg) as (y & ev & nops & ne & H1 & H2 & H3). exists y, ev. split; [done|]. by exists nops, ne. Qed.

(** ** Names *)
(** Who was told that a name is registered, and has not given it back, owns it. *)
Theorem C59_owner : forall nm cfg ra unl ops y ev c m, leadsto nm cfg ra unl ops y ev -> holds y c m -> owner y (nm m) = Some c.
Proof. intros * [HI Hr]. by eapply owner_run. Qed.
(** So there are no two of them. *)
Theorem C59_exclusive : forall nm cfg ra unl ops y ev c d m, leadsto nm cfg ra unl ops y ev -> holds y c m -> holds y d m -> c = d.
Proof. intros * [HI Hr]. by eapply exclusive_run. Qed.
(** What is found under a name has asked for that name. *)
Theorem C59_found : forall nm cfg ra unl ops y ev c m a, leadsto nm cfg ra unl ops y ev -> EvDiscResp m (Some a) ∈ trace (y_net y) c -> exists id, EvReg m id ∈ trace (y_net y) a.
Proof. intros * [HI Hr]. by eapply found_run. Qed.
(** What the registry still knows is held, or about to be given back, or the answer is
    under way, or came too late, or the registration failed for the actor (it timed out). *)
Theorem C59_known : forall nm cfg ra unl ops y ev c m, leadsto nm cfg ra unl ops y ev -> serves ra (y_net y) = true -> owner y (nm m) = Some c ->
  holds y c m \/ DeregService (nm m) ∈ y_to y c \/ (exists q, RegOk q ∈ y_from y c /\ rr_name q = nm m) \/ lost_answer nm ev c m \/ EvRegResp m false ∈ trace (y_net y) c.
Proof. intros * [HI Hr]. by eapply back_run. Qed.
(** So an actor which has given back what it held leaves nothing behind. *)
Theorem C59_nothing_left : forall nm cfg ra unl ops y ev c, leadsto nm cfg ra unl ops y ev -> serves ra (y_net y) = true -> settled y c ->
  (forall m, ~ holds y c m /\ ~ lost_answer nm ev c m /\ EvRegResp m false ∉ trace (y_net y) c) -> forall m, owner y (nm m) <> Some c.
Proof.
  intros * HL Hs [Ht Hf] Hn m Ho. destruct (Hn m) as (H1 & H2 & H3). destruct (C59_known _ _ _ _ _ _ _ _ _ HL Hs Ho) as [?|[H|[(q & H & _)|[?|?]]]]; try done.
  - rewrite Ht in H. by apply elem_of_nil in H.
  - rewrite Hf in H. by apply elem_of_nil in H.
Qed.

(** ** Answers *)
(** While the registry works, an open request is in its queue, or its answer is under way,
    or it is a promise the registry keeps. *)
Theorem C59_under_way : forall nm cfg ra unl ops y ev c id q, leadsto nm cfg ra unl ops y ev -> serves ra (y_net y) = true -> waits y c id q ->
  match q with
  | QReg m => Reg (RegReq id c (nm m) c) ∈ y_to y c \/ exists r, r ∈ y_from y c /\ number r = id
  | QDisc m => (exists x, x ∈ y_to y c /\ (x = Discover (DiscReq id c c (nm m)) \/ x = Promise (DiscReq id c c (nm m)))) \/
      DiscReq id c c (nm m) ∈ promises (y_reg y) \/ exists r, r ∈ y_from y c /\ number r = id
  | _ => True
  end.
Proof. intros * [HI Hr]. by eapply waits_run. Qed.
(** So when nothing is under way, nobody waits but for names which nobody has. *)
Theorem C59_answered : forall nm cfg ra unl ops y ev c id q, leadsto nm cfg ra unl ops y ev -> serves ra (y_net y) = true -> settled y c -> waits y c id q ->
  match q with QReg _ => False | QDisc m => DiscReq id c c (nm m) ∈ promises (y_reg y) /\ owner y (nm m) = None | _ => True end.
Proof. intros * [HI Hr]. by eapply quiet_run. Qed.
(** And not even for those, when the promise was given up. *)
Theorem C59_withdrawn : forall nm cfg ra unl ops y ev c id, leadsto nm cfg ra unl ops y ev -> serves ra (y_net y) = true -> y_to y c = [] -> withdrawn (trace (y_net y) c) id ->
  (forall d, d ∈ promises (y_reg y) -> ~ (dr_origin d = c /\ dr_id d = id)) /\
  (forall q, waits y c id q -> exists r, r ∈ y_from y c /\ number r = id).
Proof. intros * [HI Hr]. by eapply withdrawn_run. Qed.

(** ** Runs *)
Definition use (l : list (N * uact)) (n : N) (p : plug) : list uact := match p with PRg => omap (fun '(c, u) => if bool_decide (c = n) then Some u else None) l | _ => [] end.
Notation ys l := (ystep pretty (use l) 0 yes).
Lemma went l ops (P : names -> list yev -> bool) : match run (ys l) (yinit 0) ops with Ok (y, ev) => P y ev | _ => false end = true -> exists y ev, leadsto pretty (use l) 0 yes ops y ev /\ P y ev = true.
Proof. destruct (run (ys l) (yinit 0) ops) as [[y ev]| |] eqn:E; try done. intros H. exists y, ev. split; [split; [apply _|done]|done]. Qed.
Definition keepsb (l : list (N * uact)) (y : names) (o : yop) : bool := bool_decide (yrule (use l) 0 yes y o).
Lemma keepsb_ok l ops : guardedb (ys l) (keepsb l) (yinit 0) ops = true -> guarded (ys l) (yrule (use l) 0 yes) (yinit 0) ops.
Proof. apply guardedb_sound. intros y o. apply bool_decide_eq_true_1. Qed.
Definition holdsb (y : names) (c m : N) : bool := sinceb (fun x => bool_decide (x = EvRegResp m true)) (fun x => bool_decide (x = EvDereg m \/ x = EvRegResp m false)) (trace (y_net y) c).
Lemma holdsb_ok y c m : holdsb y c m = true -> holds y c m.
Proof. apply sinceb_ok; [|intros x; apply bool_decide_eq_false_1]. intros x Hx%bool_decide_eq_true_1. done. Qed.
Definition none {A} (l : list A) : bool := match l with [] => true | _ => false end.
Lemma none_ok {A} (l : list A) : none l = true -> l = [].
Proof. by destruct l. Qed.
Definition settledb (y : names) (c : N) : bool := none (y_to y c) && none (y_from y c).
Lemma settledb_ok y c : settledb y c = true -> settled y c.
Proof. intros [H1%none_ok H2%none_ok]%andb_true_iff. done. Qed.
Definition waitsb (y : names) (n id : N) (q : query) : bool :=
  match w_act (y_net y) !! n with Some nd => bool_decide (x_pend (w_s nd) !! id = Some q) && bool_decide (x_st (w_s nd) <> AShutDown) | None => false end.
Lemma waitsb_ok y n id q : waitsb y n id q = true -> waits y n id q.
Proof. unfold waitsb, waits. destruct (w_act (y_net y) !! n); [|done]. intros [H1%bool_decide_eq_true_1 H2%bool_decide_eq_true_1]%andb_true_iff. done. Qed.
Ltac parts H := repeat (apply andb_true_iff in H as [H ?]); repeat match goal with E : bool_decide _ = true |- _ => apply bool_decide_eq_true_1 in E end.
Notation D p n := (YNet (NDeliver p n)). Notation L n o := (YNet (NLocal n o)). Notation New n := (YNet (NNew n)).

(** Actor 2 waits for the name 7; actor 1 registers it.  All rules are kept. *)
Definition wait7 : list yop := [L 0 OInitReq; L 0 OStart; New 1; New 2; L 2 OInitReq; D 2 0; D 0 2; YServe 2].
Definition up7 : list yop := wait7 ++ [L 1 OInitReq; D 1 0; D 0 1; YServe 1; YReply 1; YReply 2; D 2 1; D 1 2; L 1 OStart; L 2 OStart].
Definition two : list (N * uact) := [(1, URegister 7); (2, UDiscover 7 true false)].
Lemma use_prudent l : NoDup (omap (fun '(c, u) => reg_of u) l) -> NoDup (omap (fun '(c, u) => disc_of u) l) -> Forall (fun '(c, u) => ~ link_act u /\ ~ release_act u) l -> forall n, prudent_cfg 0 (use l n).
Proof.
  intros H1 H2 H3 n.
  assert (Hs : forall (f : uact -> option N), NoDup (omap (fun '(c, u) => f u) l) -> NoDup (omap f (use l n PRg))).
  { intros f. clear. assert (Hsub : forall x, x ∈ omap f (use l n PRg) -> x ∈ omap (fun '(c, u) => f u) l).
    { intros x (u & ([c u'] & Hl & Hu)%elem_of_list_omap & Hx)%elem_of_list_omap. case_bool_decide; [|done]. injection Hu as <-. apply elem_of_list_omap. by exists (c, u'). }
    cbn in *. induction l as [|[c u] l IH]; cbn; [constructor|]. intros HN.
    assert (Hsub' : forall x, x ∈ omap f (use l n PRg) -> x ∈ omap (fun '(c, u) => f u) l).
    { intros x (u2 & ([c' u'] & Hl & Hu)%elem_of_list_omap & Hx)%elem_of_list_omap. case_bool_decide; [|done]. injection Hu as <-. apply elem_of_list_omap. by exists (c', u'). }
    destruct (f u) as [x|] eqn:E; [apply NoDup_cons in HN as [HN1 HN2]|]; case_bool_decide; cbn; rewrite ?E; auto. apply NoDup_cons. split; [|auto]. intros Hx. apply HN1. by apply Hsub'. }
  unfold prudent_cfg. split_and!; cbn; try constructor; try (by apply Hs).
  - by apply not_elem_of_nil.
  - apply Forall_forall. intros u ([c u'] & Hl & Hu)%elem_of_list_omap. rewrite Forall_forall in H3. specialize (H3 _ Hl). case_bool_decide; [|done]. by injection Hu as <-.
Qed.
Example C59_up : (forall n, prudent_cfg 0 (use two n)) /\ guarded (ys two) (yrule (use two) 0 yes) (yinit 0) up7 /\
  exists y ev, leadsto pretty (use two) 0 yes up7 y ev /\ serves 0 (y_net y) = true /\ settled y 1 /\ settled y 2 /\ holds y 1 7 /\ owner y (pretty 7) = Some 1 /\
    EvDiscResp 7 (Some 1) ∈ trace (y_net y) 2 /\ status (y_net y) 2 = AOperational.
Proof.
  split; [apply use_prudent; apply (bool_decide_unpack _); vm_compute; exact I|]. split; [apply keepsb_ok; vm_compute; reflexivity|].
  destruct (went two up7 (fun y ev => serves 0 (y_net y) && settledb y 1 && settledb y 2 && holdsb y 1 7 && bool_decide (owner y (pretty 7) = Some 1) && bool_decide (EvDiscResp 7 (Some 1) ∈ trace (y_net y) 2) && bool_decide (status (y_net y) 2 = AOperational))) as (y & ev & Hl & H); [vm_compute; reflexivity|].
  parts H. exists y, ev. split_and!; try done; first [by apply settledb_ok|by apply holdsb_ok].
Qed.
(** The hypotheses of C59_under_way and C59_answered: actor 2 waits for a name nobody has. *)
Example C59_waiting : exists y ev, leadsto pretty (use two) 0 yes wait7 y ev /\ serves 0 (y_net y) = true /\ settled y 2 /\ waits y 2 2 (QDisc 7) /\
  DiscReq 2 2 2 (pretty 7) ∈ promises (y_reg y) /\ owner y (pretty 7) = None.
Proof.
  destruct (went two wait7 (fun y ev => serves 0 (y_net y) && settledb y 2 && waitsb y 2 2 (QDisc 7) && bool_decide (DiscReq 2 2 2 (pretty 7) ∈ promises (y_reg y)) && bool_decide (owner y (pretty 7) = None))) as (y & ev & Hl & H); [vm_compute; reflexivity|].
  parts H. exists y, ev. split_and!; try done; first [by apply settledb_ok|by apply waitsb_ok].
Qed.
(** Two actors want the same name: one of them gets it. *)
Definition both : list (N * uact) := [(1, URegister 7); (2, URegister 7)].
Definition race : list yop := [L 0 OInitReq; L 0 OStart; New 1; New 2; L 1 OInitReq; L 2 OInitReq; D 2 0; D 1 0; D 0 2; D 0 1; YServe 2; YServe 1; YReply 1; YReply 2].
Example C59_race : exists y ev, leadsto pretty (use both) 0 yes race y ev /\ holds y 2 7 /\ ~ holds y 1 7 /\ EvRegResp 7 false ∈ trace (y_net y) 1 /\ owner y (pretty 7) = Some 2.
Proof.
  destruct (went both race (fun y ev => holdsb y 2 7 && bool_decide (EvRegResp 7 false ∈ trace (y_net y) 1) && bool_decide (owner y (pretty 7) = Some 2))) as (y & ev & Hl & H); [vm_compute; reflexivity|].
  parts H. apply holdsb_ok in H. exists y, ev. split_and!; try done. intros H2. by pose proof (C59_exclusive _ _ _ _ _ _ _ _ _ _ Hl H H2).
Qed.
(** Actor 1 gives its name back when it shuts down; the hypotheses of C59_nothing_left. *)
Definition one : list (N * uact) := [(1, URegister 7)].
Definition ask7 : list yop := [L 0 OInitReq; L 0 OStart; New 1; L 1 OInitReq; D 1 0; D 0 1].
Definition back7 : list yop := ask7 ++ [YServe 1; YReply 1; L 1 OStart; L 1 OShutReq; YServe 1; L 1 OUnsubscribed].
Example C59_gives_back : guarded (ys one) (yrule (use one) 0 yes) (yinit 0) back7 /\ exists y ev, leadsto pretty (use one) 0 yes back7 y ev /\ serves 0 (y_net y) = true /\ settled y 1 /\
  EvRegResp 7 true ∈ trace (y_net y) 1 /\ (forall m, ~ holds y 1 m /\ ~ lost_answer pretty ev 1 m /\ EvRegResp m false ∉ trace (y_net y) 1) /\ status (y_net y) 1 = AShutDown /\ (forall m : N, owner y (pretty m) <> Some 1).
Proof.
  split; [apply keepsb_ok; vm_compute; reflexivity|].
  destruct (went one back7 (fun y ev => serves 0 (y_net y) && settledb y 1 && bool_decide (EvRegResp 7 true ∈ trace (y_net y) 1) && bool_decide (x_rm (sto (y_net y) 1) = ∅) && forallb (fun x => match x with YDrop _ _ => false | _ => true end) ev &&
    forallb (fun x => match x with EvRegResp _ false => false | _ => true end) (trace (y_net y) 1) && bool_decide (status (y_net y) 1 = AShutDown))) as (y & ev & Hl & H); [vm_compute; reflexivity|].
  parts H. exists y, ev. assert (Hn : forall m, ~ holds y 1 m /\ ~ lost_answer pretty ev 1 m /\ EvRegResp m false ∉ trace (y_net y) 1).
  { intros m. split_and!.
    - destruct Hl as [HI Hr]. pose proof (YI_run pretty (use one) 0 yes _ _ _ Hr) as HY. rewrite (holds_op _ _ _ _ _ _ HY). unfold NamesInv.op. match goal with E : x_rm _ = ∅ |- _ => rewrite E end. by rewrite lookup_empty.
    - intros (q & Hq & _). match goal with E : forallb _ ev = true |- _ => rewrite forallb_forall in E; apply elem_of_list_In, E in Hq end. done.
    - intros Hq. match goal with E : forallb _ (trace _ 1) = true |- _ => rewrite forallb_forall in E; apply elem_of_list_In, E in Hq end. done. }
  split_and!; try done; [by apply settledb_ok|]. eapply (C59_nothing_left _ _ _ _ _ _ _ _ Hl); [done|by apply settledb_ok|done].
Qed.
(** Actor 2 gives up the promise; the hypotheses of C59_withdrawn. *)
Definition gives_up : list yop := wait7 ++ [L 2 OShutReq; YServe 2].
Example C59_gives_up : exists y ev, leadsto pretty (use two) 0 yes gives_up y ev /\ serves 0 (y_net y) = true /\ y_to y 2 = [] /\ withdrawn (trace (y_net y) 2) 2 /\ waits y 2 2 (QDisc 7) /\ y_from y 2 = [PromCancelled (DiscReq 2 2 2 (pretty 7))] /\
  exists y' ev', leadsto pretty (use two) 0 yes (gives_up ++ [YReply 2; L 2 OUnsubscribed]) y' ev' /\ status (y_net y') 2 = AShutDown.
Proof.
  destruct (went two gives_up (fun y ev => serves 0 (y_net y) && none (y_to y 2) && waitsb y 2 2 (QDisc 7) && bool_decide (take 8 (trace (y_net y) 2) = [EvInitReq; EvInitVote PLc true; EvLink 0 false 1; EvDiscover 7; EvInitVote PRg false; EvPromise 7 2; EvLinkResp 0 true; EvInitVote PLc true] /\ drop 8 (trace (y_net y) 2) = [EvInitVote PRg false; EvState AInitializing AShuttingDown; EvShutVote PRs true; EvCancel 7; EvShutVote PRg false]) &&
    match y_from y 2 with [PromCancelled (DiscReq 2 2 2 k)] => bool_decide (k = pretty 7) | _ => false end)) as (y & ev & Hl & H); [vm_compute; reflexivity|].
  parts H. exists y, ev. split_and!; try done.
  - by apply none_ok.
  - match goal with E : _ /\ _ |- _ => destruct E as [E1 E2] end. exists [EvInitReq; EvInitVote PLc true; EvLink 0 false 1; EvDiscover 7; EvInitVote PRg false], 7, [EvLinkResp 0 true; EvInitVote PLc true; EvInitVote PRg false; EvState AInitializing AShuttingDown; EvShutVote PRs true], [EvShutVote PRg false].
    split; [rewrite <- (take_drop 8 (trace (y_net y) 2)), E1, E2; done|]. intros i Hi. repeat (apply elem_of_cons in Hi as [Hi|Hi]; [done|]). by apply elem_of_nil in Hi.
  - by apply waitsb_ok.
  - clear -H0. repeat (case_match; try done). apply bool_decide_eq_true_1 in H0. by subst.
  - destruct (went two (gives_up ++ [YReply 2; L 2 OUnsubscribed]) (fun y ev => bool_decide (status (y_net y) 2 = AShutDown))) as (y' & ev' & Hl' & H'); [vm_compute; reflexivity|]. apply bool_decide_eq_true_1 in H'. by exists y', ev'.
Qed.

(** ** What does not hold *)
(** A name which is registered for an actor which shuts down before it learns of that stays
    in the registry: the plugin forgets names in the state REGISTERING without giving them
    back (plugin/registry.cpp 154-165), and the answer is dropped.  Whoever looks for the
    name afterwards finds the actor which is gone. *)
Definition stale : list yop := ask7 ++ [YServe 1; L 1 OShutReq; L 1 OUnsubscribed; D 1 0; YReply 1; New 2; L 2 OInitReq; D 2 0; D 0 2; YServe 2; YReply 2].
Theorem C59_stale_refuted : let l := [(1, URegister 7); (2, UDiscover 7 false false)] in
  (forall n, prudent_cfg 0 (use l n)) /\ guarded (ys l) (yrule (use l) 0 yes) (yinit 0) stale /\
  exists y ev, leadsto pretty (use l) 0 yes stale y ev /\ serves 0 (y_net y) = true /\ settled y 1 /\ settled y 2 /\ status (y_net y) 1 = AShutDown /\ ~ holds y 1 7 /\ (forall m b, EvRegResp m b ∉ trace (y_net y) 1) /\
    owner y (pretty 7) = Some 1 /\ EvDiscResp 7 (Some 1) ∈ trace (y_net y) 2.
Proof.
  intros l. split; [apply use_prudent; apply (bool_decide_unpack _); vm_compute; exact I|]. split; [apply keepsb_ok; vm_compute; reflexivity|].
  destruct (went l stale (fun y ev => serves 0 (y_net y) && settledb y 1 && settledb y 2 && bool_decide (status (y_net y) 1 = AShutDown) && forallb (fun x => match x with EvRegResp _ _ => false | _ => true end) (trace (y_net y) 1) && bool_decide (owner y (pretty 7) = Some 1) && bool_decide (EvDiscResp 7 (Some 1) ∈ trace (y_net y) 2))) as (y & ev & Hl & H); [vm_compute; reflexivity|].
  parts H. exists y, ev. assert (Hn : forall m b, EvRegResp m b ∉ trace (y_net y) 1).
  { intros m b Hq. match goal with E : forallb _ (trace _ 1) = true |- _ => rewrite forallb_forall in E; apply elem_of_list_In, E in Hq end. done. }
  split_and!; try done; try (by apply settledb_ok). intros (t1 & x & t2 & E & <- & _). apply (Hn 7 true). rewrite E. set_solver.
Qed.
(** The same when the registration timed out, and was reported as failed. *)
Definition late : list yop := ask7 ++ [L 1 (OTimeout 2); L 1 OLate; YServe 1; YReply 1; L 1 OShutReq; L 1 OUnsubscribed; D 1 0].
Theorem C59_late_refuted : (forall n, prudent_cfg 0 (use one n)) /\ guarded (ys one) (yrule (use one) 0 yes) (yinit 0) late /\
  exists y ev, leadsto pretty (use one) 0 yes late y ev /\ serves 0 (y_net y) = true /\ settled y 1 /\ status (y_net y) 1 = AShutDown /\ EvRegResp 7 false ∈ trace (y_net y) 1 /\ ~ holds y 1 7 /\ owner y (pretty 7) = Some 1.
Proof.
  split; [apply use_prudent; apply (bool_decide_unpack _); vm_compute; exact I|]. split; [apply keepsb_ok; vm_compute; reflexivity|].
  destruct (went one late (fun y ev => serves 0 (y_net y) && settledb y 1 && bool_decide (status (y_net y) 1 = AShutDown) && bool_decide (EvRegResp 7 false ∈ trace (y_net y) 1) && bool_decide (EvRegResp 7 true ∉ trace (y_net y) 1) && bool_decide (owner y (pretty 7) = Some 1))) as (y & ev & Hl & H); [vm_compute; reflexivity|].
  parts H. exists y, ev. split_and!; try done; [by apply settledb_ok|]. intros (t1 & x & t2 & E & <- & _). match goal with E : _ ∉ _ |- _ => apply E end. rewrite E. set_solver.
Qed.
(** An actor which shuts down while it links to what it has discovered cancels a promise
    which is fulfilled (plugin/registry.cpp 167-181, 272-282); the registry does not know it
    any more and says nothing (registry.cpp 99-113).  The shutdown waits for the link. *)
Definition cancels : list yop := wait7 ++ [L 1 OInitReq; D 1 0; D 0 1; YServe 1; YReply 1; YReply 2; D 2 1; L 2 OShutReq; YServe 2].
Definition two_op : list (N * uact) := [(1, URegister 7); (2, UDiscover 7 true true)].
Theorem C59_cancel_refuted : (forall n, prudent_cfg 0 (use two_op n)) /\ guarded (ys two_op) (yrule (use two_op) 0 yes) (yinit 0) cancels /\
  exists y ev, leadsto pretty (use two_op) 0 yes cancels y ev /\ serves 0 (y_net y) = true /\ settled y 2 /\ status (y_net y) 2 = AShuttingDown /\ EvCancel 7 ∈ trace (y_net y) 2 /\
    (forall id q, waits y 2 id q -> q = QLink 1) /\ last (trace (y_net y) 2) = Some (EvShutVote PRg false).
Proof.
  split; [apply use_prudent; apply (bool_decide_unpack _); vm_compute; exact I|]. split; [apply keepsb_ok; vm_compute; reflexivity|].
  destruct (went two_op cancels (fun y ev => serves 0 (y_net y) && settledb y 2 && bool_decide (status (y_net y) 2 = AShuttingDown) && bool_decide (EvCancel 7 ∈ trace (y_net y) 2) && bool_decide (map_Forall (fun _ q => q = QLink 1) (x_pend (sto (y_net y) 2))) && bool_decide (last (trace (y_net y) 2) = Some (EvShutVote PRg false)))) as (y & ev & Hl & H); [vm_compute; reflexivity|].
  parts H. exists y, ev. split_and!; try done; [by apply settledb_ok|]. intros id q [Hq _]%waits_pend. match goal with E : map_Forall _ _ |- _ => by apply (E id) end.
Qed.

Print Assumptions C59_net.
Print Assumptions C59_safe_partial.
Print Assumptions C59_owner.
Print Assumptions C59_exclusive.
Print Assumptions C59_found.
Print Assumptions C59_known.
Print Assumptions C59_nothing_left.
Print Assumptions C59_under_way.
Print Assumptions C59_answered.
Print Assumptions C59_withdrawn.
Print Assumptions C59_stale_refuted.
Print Assumptions C59_late_refuted.
Print Assumptions C59_cancel_refuted.
