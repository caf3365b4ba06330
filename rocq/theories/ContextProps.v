(** C80: the stringifier of a system context is made once and stays. *)
From stdpp Require Import base list gmap.
From Verif Require Import Base ContextModel ContextSpec ContextProofs.
Open Scope N_scope.

(** If the root is created while nobody else uses the context, and users ask for the stringifier
    at a quiet time or when a supervisor is at work, then nothing goes wrong: supervisors create
    child supervisors in any number of threads at once, and print messages whenever they like. *)
Theorem C80_safe : forall ops, guarded xstep good_use xinit ops -> exists s ev, run xstep xinit ops = Ok (s, ev).
Proof. intros ops. exact (safe_run ops xinit [] G_init R_init). Qed.

(** The context makes one stringifier, never destroys it, and gives it to everybody. *)
Theorem C80_once : forall ops s ev, guarded xstep good_use xinit ops -> run xstep xinit ops = Ok (s, ev) ->
  (length (made ev) <= 1)%nat /\ (forall w o, EGot w o ∈ ev -> made ev = [o] /\ c_str s = Some o) /\ forall o, EFreed o ∉ ev.
Proof.
  intros ops s ev Hg H. destruct (run_R ops s ev Hg H) as [_ [HA|[x HB]]].
  - split; [|split; [intros w o Ho; by apply (ra_ev _ _ HA) in Ho|intros o; apply (ra_ev _ _ HA None)]].
    destruct (ra_made _ _ HA) as [[-> _]|(th & w & o & _ & ->)]; cbn; lia.
  - split; [rewrite (rb_made _ _ _ HB); cbn; lia|]. split; [|intros o; apply (rb_ev _ _ _ HB None)].
    intros w o Ho. apply (rb_ev _ _ _ HB) in Ho as ->. split; [apply HB|apply HB].
Qed.
Theorem C80_same : forall ops s ev a o, guarded xstep good_use xinit ops -> run xstep xinit ops = Ok (s, ev) -> c_ptr s !! a = Some (Some o) -> c_str s = Some o /\ o ∈ c_live s.
Proof.
  intros ops s ev a o Hg H Ha. destruct (run_R ops s ev Hg H) as [HG HR].
  assert (Hs : c_str s = Some o). { destruct (decide (c_str s = Some o)); [done|]. exfalso. eapply (R_fresh s ev a HR). by exists o. }
  split; [done|]. by apply (live_ptr s a o HG Ha).
Qed.

(** A context has one root: once there is one, it stays. *)
Theorem C80_root : forall ops1 ops2 s1 e1 s2 e2 a, guarded xstep good_use xinit ops1 -> run xstep xinit ops1 = Ok (s1, e1) -> c_sup s1 = Some a ->
  guarded xstep good_use s1 ops2 -> run xstep s1 ops2 = Ok (s2, e2) -> c_sup s2 = Some a.
Proof.
  intros ops1 ops2 s1 e1 s2 e2 a Hg1 H1 Ha Hg2 H2. destruct (run_K ops1 xinit s1 e1 K_init Hg1 H1) as [Hk _]. by apply (run_K ops2 s1 s2 e2 Hk Hg2 H2).
Qed.

(** Without the rule: what can go wrong is exactly that a supervisor prints a message whose pointer
    is not the one of the context. *)
Theorem C80_exact : forall ops s ev o, guarded xstep lawful xinit (ops ++ [o]) -> run xstep xinit ops = Ok (s, ev) ->
  ((exists s' e, xstep s o = Ok (s', e)) \/ xstep s o = Crash) /\
  (xstep s o = Crash <-> exists a p, o = OpDeliver a /\ c_ptr s !! a = Some (Some p) /\ c_str s <> Some p).
Proof.
  intros ops s ev o Hg H. assert (Hx : guarded xstep lawful xinit ops /\ lawful s o).
  { revert Hg H. generalize xinit ev. induction ops as [|x ops IH]; intros t ev0 Hg H; cbn in *; [injection H as <- <-; by destruct Hg|]. destruct Hg as [Hx Hg].
    destruct (xstep t x) as [[t1 e1]| |]; try done. cbn in H. destruct (run xstep t1 ops) as [[t2 e2]| |] eqn:E; try done. cbn in H. injection H as <- <-. destruct (IH t1 e2 Hg E). done. }
  destruct Hx as [Hg' Ho]. pose proof (run_G ops s ev Hg' H) as HG. split.
  - destruct (step_G s o HG Ho) as [(s1 & e1 & H1 & _)|(a & _ & _ & H1)]; [left; by eexists _, _|by right].
  - split.
    + intros Hc. destruct (step_G s o HG Ho) as [(s1 & e1 & H1 & _)|(a & -> & (p & Hp & Hn) & _)]; [congruence|]. by exists a, p.
    + intros (a & p & -> & Hp & Hn). apply stale_crash; [done|]. by exists p.
Qed.

(** ** Runs *)
Global Instance xev_eq : EqDecision xev.
Proof. solve_decision. Defined.
Definition crashes (ops : list xop) : bool := match run xstep xinit ops with Crash => true | _ => false end.
Definition fine (ops : list xop) (p : ctx -> list xev -> bool) : bool := match run xstep xinit ops with Ok (s, e) => p s e | _ => false end.
Definition pcs (s : ctx) : list pc := (map_to_list (c_pc s)).*2.
Definition rootpc (p : pc) : list N := match p with PRoot a | PRootSet a => [a] | _ => [] end.
Definition lawfulb (s : ctx) (o : xop) : bool :=
  negb (c_dead s) && match o with
  | OpRoot _ a | OpChild _ _ a => bool_decide (c_ptr s !! a = None) && bool_decide (a ∉ mjoin (rootpc <$> pcs s))
  | OpDestroy => false | _ => true end.
Definition idleb (p : pc) : bool := match p with PIdle => true | _ => false end.
Definition calmb (s : ctx) : bool := forallb idleb (pcs s).
Definition activeb (s : ctx) : bool := existsb (fun x => active s x.1) (map_to_list (c_ptr s)).
Definition good_useb (s : ctx) (o : xop) : bool :=
  lawfulb s o && match o with OpRoot _ _ => calmb s | OpUser _ => calmb s || activeb s | _ => true end.
Lemma pcs_in s th : at_pc s th = PIdle \/ at_pc s th ∈ pcs s.
Proof.
  unfold at_pc, pcs. destruct (c_pc s !! th) as [p|] eqn:E; [right|by left]. apply elem_of_list_fmap. exists (th, p). split; [done|]. by apply elem_of_map_to_list.
Qed.
Lemma lawfulb_sound s o : lawfulb s o = true -> lawful s o.
Proof.
  intros [H1 H2]%andb_true_iff. apply negb_true_iff in H1. split; [done|].
  assert (Hf : forall a, bool_decide (c_ptr s !! a = None) && bool_decide (a ∉ mjoin (rootpc <$> pcs s)) = true -> fresh_actor s a); [|destruct o; try done; by apply Hf].
  intros a [Ha%bool_decide_eq_true_1 Hb%bool_decide_eq_true_1]%andb_true_iff. split; [done|].
  assert (Hq : forall th p, at_pc s th = p -> a ∈ rootpc p -> False).
  { intros th p Hp Hi. destruct (pcs_in s th) as [Hx|Hx]; [rewrite Hx in Hp; subst p; by apply elem_of_nil in Hi|]. apply Hb, elem_of_list_join. exists (rootpc p). split; [done|]. apply elem_of_list_fmap. exists p. split; [done|]. by rewrite <- Hp. }
  intros th. split; intros Hp; apply (Hq th _ Hp); left.
Qed.
Lemma calmb_sound s : calmb s = true -> calm_threads s.
Proof. unfold calmb. rewrite forallb_forall. intros H th. destruct (pcs_in s th) as [?|Hx]; [done|]. apply elem_of_list_In, H in Hx. by destruct (at_pc s th). Qed.
Lemma good_useb_sound s o : good_useb s o = true -> good_use s o.
Proof.
  intros [H1 H2]%andb_true_iff. split; [by apply lawfulb_sound|]. destruct o; try done; cbn; [by apply calmb_sound|].
  apply orb_true_iff in H2 as [H2|H2]; [left; by apply calmb_sound|right]. unfold activeb in H2. apply existsb_exists in H2 as (x & _ & Hx). by exists x.1.
Qed.

(** A root, and children made by two threads at once, while a user asks as well. *)
Definition steps (th : N) (n : nat) : list xop := replicate n (OpStep th).
Definition demo : list xop := [OpRoot 1 10] ++ steps 1 6 ++ [OpDeliver 10; OpChild 1 10 11; OpChild 2 10 12; OpUser 3; OpStep 2; OpStep 1; OpStep 3; OpStep 2; OpDeliver 12; OpStep 1; OpStep 3; OpDeliver 11; OpChild 2 12 13] ++ steps 2 2 ++ [OpDeliver 13].
Example C80_example : guarded xstep good_use xinit demo /\
  fine demo (fun s ev => bool_decide (made ev = [1]) && bool_decide (c_ptr s !! 13 = Some (Some 1)) && bool_decide (EPrinted 11 ∈ ev) && bool_decide (EPrinted 12 ∈ ev) && bool_decide (EPrinted 13 ∈ ev) && bool_decide (EGot None 1 ∈ ev)) = true.
Proof. split; [apply (guardedb_sound _ good_useb); [apply good_useb_sound|]; vm_compute; reflexivity|vm_compute; reflexivity]. Qed.

(** A user who asks for the stringifier in another thread while the root is created: the root is left
    with a pointer to a stringifier which is destroyed. *)
Theorem C80_user_refuted : exists ops a, guarded xstep lawful xinit (ops ++ [OpDeliver a]) /\ (exists s ev, run xstep xinit ops = Ok (s, ev) /\ made ev = [1; 2] /\ EFreed 1 ∈ ev) /\ run xstep xinit (ops ++ [OpDeliver a]) = Crash.
Proof.
  exists ([OpUser 2; OpStep 2; OpRoot 1 10] ++ steps 1 6 ++ steps 2 2), 10. split; [apply (guardedb_sound _ lawfulb); [apply lawfulb_sound|vm_compute; reflexivity]|]. split; [|vm_compute; reflexivity].
  do 2 eexists. split; [vm_compute; reflexivity|]. split; [vm_compute; reflexivity|]. do 3 right. left.
Qed.
(** Two roots at once: both are accepted, and the first is left in the same way. *)
Theorem C80_roots_refuted : exists ops a b, a <> b /\ guarded xstep lawful xinit (ops ++ [OpDeliver a]) /\
  (exists s ev, run xstep xinit ops = Ok (s, ev) /\ (forall x, ERefused x ∉ ev) /\ is_Some (c_ptr s !! a) /\ is_Some (c_ptr s !! b)) /\ run xstep xinit (ops ++ [OpDeliver a]) = Crash.
Proof.
  exists ([OpRoot 1 10; OpRoot 2 20; OpStep 1; OpStep 2; OpStep 1; OpStep 2; OpStep 1; OpStep 2] ++ steps 1 3 ++ steps 2 3), 10, 20. split; [done|].
  split; [apply (guardedb_sound _ lawfulb); [apply lawfulb_sound|vm_compute; reflexivity]|]. split; [|vm_compute; reflexivity].
  do 2 eexists. split; [vm_compute; reflexivity|]. split; [|split; vm_compute; by eexists]. intros x Hx. repeat (apply elem_of_cons in Hx as [Hx|Hx]; [done|]). by apply elem_of_nil in Hx.
Qed.
(** A supervisor which is still referenced when the context is destroyed, and prints. *)
Theorem C80_gone_refuted : exists ops a, run xstep xinit (ops ++ [OpDestroy; OpDeliver a]) = Crash /\ guarded xstep good_use xinit ops /\ (exists s ev, run xstep xinit (ops ++ [OpDestroy]) = Ok (s, ev)).
Proof.
  exists ([OpRoot 1 10] ++ steps 1 6), 10. split; [vm_compute; reflexivity|]. split; [apply (guardedb_sound _ good_useb); [apply good_useb_sound|vm_compute; reflexivity]|].
  do 2 eexists. vm_compute. reflexivity.
Qed.
(** A second root later is refused. *)
Example C80_second : fine ([OpRoot 1 10] ++ steps 1 6 ++ [OpRoot 2 20; OpStep 2]) (fun s ev => bool_decide (ERefused 20 ∈ ev) && bool_decide (c_sup s = Some 10) && bool_decide (c_ptr s !! 20 = None)) = true.
Proof. vm_compute. reflexivity. Qed.

Print Assumptions C80_safe.
Print Assumptions C80_once.
Print Assumptions C80_same.
Print Assumptions C80_root.
Print Assumptions C80_exact.
Print Assumptions C80_user_refuted.
Print Assumptions C80_roots_refuted.
Print Assumptions C80_gone_refuted.
