(** C60: reference counts; who keeps messages, handlers and actors. *)
From stdpp Require Import base list gmap.
From Verif Require Import Base MemModel MemSpec MemInv MemProofs MemTemps MemFacts MemEnds MemKept.
Open Scope N_scope.

(** ** Counters *)
(** The counter of an object is the number of pointers to it, whatever the threads do and
    wherever they are; pointers lead to objects which exist. *)
Theorem C60_counts : forall ops s ev, run mstep minit ops = Ok (s, ev) ->
  (forall o b, heap s !! o = Some b -> o_cnt b = N.of_nat (pointers o (ptrs s))) /\ (forall c o, holds s c o -> allocated s o).
Proof. intros * Hr. apply run_MI in Hr as [HJ _ _ _]. split; [apply (j_cnt _ _ _ _ HJ) | apply (j_live _ _ _ _ HJ)]. Qed.
(** What a pointer leads to is not being destroyed. *)
Theorem C60_held : forall ops s ev c o, run mstep minit ops = Ok (s, ev) -> holds s c o -> alive s o.
Proof. intros * Hr Hh. apply run_MI in Hr as [HJ _ _ _]. by eapply held_alive. Qed.
(** Every object is freed at most once, and what was made and not freed is still there;
    nothing is left in the members and queues of an object which was freed. *)
Theorem C60_freed : forall ops s ev, run mstep minit ops = Ok (s, ev) ->
  NoDup (freed ev) /\ (forall o, o ∈ freed ev <-> o < next s /\ ~ allocated s o) /\
  (forall o, o ∈ freed ev -> (forall c, ~ holds s c o) /\ forall c p, MemModel.owner c = Some o -> (c, p) ∉ ptrs s).
Proof.
  intros * Hr. pose proof (run_FR _ _ _ Hr) as [[HJ _ _ _] Hnd Hiff]. split_and!; [done | |].
  - intros o. rewrite Hiff, eq_None_not_Some. done.
  - intros o Ho. apply Hiff in Ho as [_ Hn]. split.
    + intros c Hc. destruct (j_live _ _ _ _ HJ c o Hc). congruence.
    + intros c p Hc Hin. destruct (j_own _ _ _ _ HJ c p o Hin Hc). congruence.
Qed.
(** Nothing which was freed is touched, as long as what is reached by plain references
    (supervisors of addresses, of actors; actors named by a caller) is alive.  That it is
    alive is left to the protocols of the other claims and to users (partial). *)
Theorem C60_safe_partial : forall ops, guarded mstep mrule minit ops -> exists s ev, run mstep minit ops = Ok (s, ev).
Proof.
  intros ops Hg. destruct (run_safe_ev mstep mrule (fun s (_ : list mev) => MI s)) with (ops := ops) (s := minit) (ev := @nil mev) as (s & e & Hr & _); [| apply MI_init | exact Hg | by exists s, e].
  intros s ev o HM Hok. destruct (step_safe s o HM Hok) as (s' & e & Hs). exists s', e. split; [done|]. by eapply step_ok.
Qed.

(** ** Where pointers are *)
(** A thread which is in no function has no pointer left in a variable but the message it
    is processing, and none which it would have to release by hand. *)
Theorem C60_variables : forall ops s ev t, run mstep minit ops = Ok (s, ev) -> prog s t = [] ->
  forall x o, ~ holds s (CRaw t x) o /\ (x <> 1 -> ~ holds s (CVar t x) o).
Proof. exact run_temps. Qed.
(** While no destructor runs, every object is kept by something other than the contents of
    messages and the lists of children: these alone never form a loop. *)
Theorem C60_kept : forall ops s ev, run mstep minit ops = Ok (s, ev) -> dying s = [] -> forall o, allocated s o -> kept s o.
Proof. exact run_kept. Qed.
(** So when nothing is in queues, maps of requests and subscriptions, in hand or kept by
    the user, all which was ever made has been freed. *)
Theorem C60_nothing_left : forall ops s ev, run mstep minit ops = Ok (s, ev) -> dying s = [] ->
  (forall c o, holds s c o -> exists p f, c = CField p f /\ back f = false) -> heap s = ∅ /\ forall o, o < next s -> o ∈ freed ev.
Proof. exact run_empty. Qed.

(** ** Functions and destructors end *)
(** Whatever the order in which the threads go on: unless new functions are called, the
    number of steps is bounded (a destructor may set off any number of others). *)
Theorem C60_ends : forall pre s ev0 ts ops s' ev, run mstep minit pre = Ok (s, ev0) -> NoDup ts ->
  guarded mstep (goes ts) s ops -> run mstep s ops = Ok (s', ev) -> (length ops <= work ts s)%nat.
Proof. intros * H1 Hnd Hg Hr. pose proof (ends _ _ _ _ _ (run_MI _ _ _ H1) Hnd Hg Hr). lia. Qed.

(** ** Messages which are sent on *)
(** A message is given its next address only while nobody else has it. *)
Theorem C60_sole : forall ops s ev0 t x q p s' ev o, run mstep minit ops = Ok (s, ev0) ->
  prog s t = IRoute x q :: p -> current t (dying s) = None -> mstep s (MGo t) = Ok (s', ev) ->
  ~ holds s (CQueue q) o -> holds s' (CQueue q) o ->
  (forall c, holds s c o <-> c = CVar t x) /\ (forall c, holds s' c o <-> c = CQueue q) /\ pointers o (ptrs s') = 1%nat.
Proof. intros * Hr. apply run_MI in Hr. by apply sole. Qed.
(** If no other thread comes between the question whether somebody else has it and the end
    of the block, a message which is to be sent on is not freed; the same for the
    destructor of a call.  (Partial: see below.) *)
Theorem C60_route_partial : forall ops s ev0 t m b s' ev, run mstep minit ops = Ok (s, ev0) ->
  heap s !! m = Some b -> o_route b = true -> run mstep s [MGo t; MGo t] = Ok (s', ev) ->
  (exists x q p, current t (dying s) = None /\ prog s t = IRoute x q :: IReset x :: p /\ first s (CVar t x) = Some m) \/
  (exists o d p bo, current t (dying s) = Some (o, PRoute, d) /\ heap s !! o = Some bo /\ o_kind bo = KCall p /\ first s (CField o FInner) = Some m) ->
  alive s' m.
Proof.
  intros * Hr Hm Hrt Hr2 Hor. apply run_MI in Hr. destruct Hor as [(x & q & p & H1 & H2 & H3)|(o & d & p & bo & H1 & H2 & H3 & H4)].
  - by eapply end_keeps.
  - by eapply call_keeps.
Qed.

(** ** Runs *)
Definition mruleb (s : mem) (o : mop) : bool :=
  match o with
  | MGo t =>
      match current t (dying s), prog s t with
      | Some (o, PRoute, _), _ => match due s o with Some (_, p, _) => usable s p | None => true end
      | None, i :: _ => forallb (open s) (places i) && forallb (usable s) (objects i)
      | _, _ => true
      end
  | _ => true
  end.
Lemma mruleb_ok s o : mruleb s o = true -> mrule s o.
Proof.
  destruct o as [|t]; [done|]. simpl. destruct (current t (dying s)) as [[[o []] d]|]; try done.
  - intros H m p l E. rewrite E in H. by apply usable_alive.
  - destruct (prog s t) as [|i p]; [done|]. intros H. apply andb_true_iff in H as [H1 H2]. rewrite forallb_forall in H1, H2. split.
    + intros c Hc q Hq. apply elem_of_list_In, H1 in Hc. unfold open in Hc. rewrite Hq in Hc. by apply usable_alive.
    + intros q Hq. apply elem_of_list_In, H2 in Hq. by apply usable_alive.
Qed.
Lemma ruled ops : guardedb mstep mruleb minit ops = true -> guarded mstep mrule minit ops.
Proof. apply guardedb_sound. apply mruleb_ok. Qed.
Definition checks (ops : list mop) (P : mem -> list mev -> bool) : bool :=
  match run mstep minit ops with Ok (s, ev) => P s ev | _ => false end.
Lemma checked ops P : checks ops P = true -> exists s ev, run mstep minit ops = Ok (s, ev) /\ P s ev = true.
Proof. unfold checks. destruct (run mstep minit ops) as [[s ev]| |]; [|done|done]. intros H. by exists s, ev. Qed.
Definition go (t : N) (n : nat) : list mop := replicate n (MGo t).
Definition call (t : N) (f : fn) : list mop := MCall t f :: go t 30.
Definition hasb (s : mem) (c : cell) (o : N) : bool := bool_decide ((c, Some o) ∈ ptrs s).
Definition freedb (o : N) (r : bool) (ev : list mev) : bool := existsb (fun e => match e with VFreed o' r' => (o' =? o) && Bool.eqb r' r end) ev.
Lemma freedb_ok o r ev : freedb o r ev = true -> VFreed o r ∈ ev.
Proof. unfold freedb. rewrite existsb_exists. intros ([o' r'] & Hin & H). apply andb_true_iff in H as [H1 H2]. apply N.eqb_eq in H1 as ->. apply eqb_prop in H2 as ->. by apply elem_of_list_In. Qed.

(** Two contexts, each with its supervisor (0 and 1) and its thread; 1 subscribes (handler
    2, info 3, message 4) to an address of 0; 0 sends message 5, to be sent on; it goes to
    the handler of 1 by call 6. *)
Definition start : list mop :=
  call 0 (FRoot 0) ++ call 1 (FRoot 1) ++ call 1 (FSubscribe 1 1) ++ call 1 (FTake 1) ++ call 1 (FEnd 1) ++
  call 0 (FSend 0 true []) ++ call 0 (FTake 0) ++ call 0 (FCall 1 2) ++ call 1 (FFetch 1 1) ++ call 1 (FTake 1).
(** All is released; the message was sent on by the destructor of the call. *)
Definition finish : list mop :=
  call 0 (FEnd 0) ++ call 1 (FEnd 1) ++ call 1 (FFetch 1 1) ++ call 1 (FTake 1) ++ call 1 (FForeign 0) ++
  call 0 (FFetch 0 0) ++ call 0 (FTake 0) ++ call 0 (FEnd 0) ++
  call 1 (FForget 1 3) ++ call 1 (FUnpoint 1 3) ++ call 0 (FContext 0 0) ++ call 0 (FUserDrop 0) ++ call 1 (FUserDrop 1) ++ call 1 (FContext 1 1).
Example all_freed : guarded mstep mrule minit (start ++ finish) /\ exists s ev, run mstep minit (start ++ finish) = Ok (s, ev) /\
  dying s = [] /\ ptrs s = [] /\ next s = 7 /\ freed ev = [4; 6; 5; 2; 3; 0; 1] /\ VFreed 5 false ∈ ev.
Proof.
  split; [apply ruled; vm_compute; reflexivity|].
  destruct (checked (start ++ finish) (fun s ev => bool_decide (dying s = []) && bool_decide (ptrs s = []) && bool_decide (next s = 7) && bool_decide (freed ev = [4; 6; 5; 2; 3; 0; 1]) && freedb 5 false ev)) as (s & ev & Hr & H); [vm_compute; reflexivity|].
  exists s, ev. split; [exact Hr|]. clear Hr. apply andb_true_iff in H as [H H5]. repeat (apply andb_true_iff in H as [H ?]).
  repeat match goal with E : bool_decide _ = true |- _ => apply bool_decide_eq_true in E end. split_and!; try assumption. by apply freedb_ok.
Qed.
Example kept_while_in_use : exists s ev, run mstep minit start = Ok (s, ev) /\ dying s = [] /\ holds s (CVar 0 1) 5 /\ holds s (CField 6 FInner) 5 /\ holds s (CVar 1 1) 6 /\ pointers 5 (ptrs s) = 2%nat.
Proof.
  destruct (checked start (fun s ev => bool_decide (dying s = []) && hasb s (CVar 0 1) 5 && hasb s (CField 6 FInner) 5 && hasb s (CVar 1 1) 6 && Nat.eqb (pointers 5 (ptrs s)) 2)) as (s & ev & Hr & H); [vm_compute; reflexivity|].
  exists s, ev. split; [exact Hr|]. clear Hr. repeat (apply andb_true_iff in H as [H ?]). apply bool_decide_eq_true in H. unfold hasb in *.
  repeat match goal with E : bool_decide _ = true |- _ => apply bool_decide_eq_true in E | E : Nat.eqb _ _ = true |- _ => apply Nat.eqb_eq in E end. done.
Qed.

(** ** What is not so *)
(** A message which is to be sent on may be lost: the locality it was delivered in and the
    destructor of a call in another locality ask both, before either releases its pointer,
    whether somebody else has the message (supervisor.h 458, messages.cpp 15). *)
Definition lost : list mop :=
  start ++ MCall 0 (FEnd 0) :: go 0 1 ++ MCall 1 (FEnd 1) :: go 1 4 ++ go 0 1 ++ go 1 20.
Theorem C60_route_refuted : guarded mstep mrule minit lost /\ exists s ev, run mstep minit lost = Ok (s, ev) /\ idle s /\ VFreed 5 true ∈ ev.
Proof.
  split; [apply ruled; vm_compute; reflexivity|].
  destruct (checked lost (fun s ev => idleb s && freedb 5 true ev)) as (s & ev & Hr & H); [vm_compute; reflexivity|].
  apply andb_true_iff in H as [H1 H2]. exists s, ev. split_and!; [exact Hr | eapply two_idle; [exact Hr | vm_compute; reflexivity | exact H1] | exact (freedb_ok _ _ _ H2)].
Qed.
(** An address refers to its supervisor, not by a counted pointer (address.hpp 34-35; the
    comment in 24-26 leaves it to the user that the supervisor lives longer): a message to
    a supervisor which is gone is written into freed memory. *)
Definition gone : list mop :=
  call 0 (FRoot 0) ++ call 1 (FRoot 1) ++ call 0 (FSend 0 false []) ++ call 0 (FTake 0) ++ call 1 (FUserDrop 1) ++ call 1 (FContext 1 1).
Theorem C60_dangling_refuted : (exists s ev, run mstep minit gone = Ok (s, ev) /\ freed ev = [1]) /\ run mstep minit (gone ++ call 0 (FForeign 1)) = Crash.
Proof.
  split; [|vm_compute; reflexivity]. destruct (checked gone (fun s ev => bool_decide (freed ev = [1]))) as (s & ev & Hr & H); [vm_compute; reflexivity|].
  exists s, ev. split; [exact Hr | exact (proj1 (bool_decide_eq_true _) H)].
Qed.
(** The destructor of a supervisor empties its inbound queue; if the last pointer to a
    message which is to be sent on is in a call there, the destructor of the call enqueues
    it to the same supervisor (enqueue is pure virtual by then, supervisor.h 174).  1: a
    supervisor, child of 0; 3: its actor. *)
Definition falls : list mop :=
  call 0 (FRoot 0) ++ call 0 (FCreate 0) ++ call 0 (FTake 0) ++ call 0 (FEnd 0) ++ call 1 (FCreate 1) ++ call 1 (FTake 1) ++ call 1 (FEnd 1) ++
  call 1 (FSubscribe 1 3) ++ call 1 (FTake 1) ++ call 1 (FEnd 1) ++
  call 0 (FSend 0 true []) ++ call 0 (FTake 0) ++ call 0 (FCall 1 5) ++ call 0 (FEnd 0) ++ call 0 (FUserDrop 1).
Theorem C60_destructor_refuted : (exists s ev, run mstep minit falls = Ok (s, ev) /\ idle s) /\ run mstep minit (falls ++ call 0 (FRemove 0 1)) = Crash.
Proof.
  split; [|vm_compute; reflexivity]. destruct (checked falls (fun s ev => idleb s)) as (s & ev & Hr & H); [vm_compute; reflexivity|].
  exists s, ev. split; [exact Hr|]. eapply two_idle; [exact Hr | vm_compute; reflexivity | exact H].
Qed.
(** A message in the inbound queue of a supervisor which refers to that supervisor keeps
    it for ever: the queue is emptied by the destructor only, unless it belongs to the
    supervisor of a context (system_context.cpp 41-48).  (The library's own calls come
    before the confirmation of the unsubscription which a shutdown waits for.) *)
Definition loops : list mop :=
  call 0 (FRoot 0) ++ call 0 (FCreate 0) ++ call 0 (FTake 0) ++ call 0 (FEnd 0) ++ call 0 (FUserSend 1 [SRaw 1]) ++
  call 0 (FUserDrop 1) ++ call 0 (FRemove 0 1) ++ call 0 (FUserDrop 0) ++ call 0 (FContext 0 0).
Theorem C60_loop_refuted : guarded mstep mrule minit loops /\ exists s ev, run mstep minit loops = Ok (s, ev) /\ idle s /\
  ptrs s = [(CField 3 FInner, Some 1); (CIn 1, Some 3)] /\ allocated s 1 /\ allocated s 3.
Proof.
  split; [apply ruled; vm_compute; reflexivity|].
  destruct (checked loops (fun s ev => idleb s && bool_decide (ptrs s = [(CField 3 FInner, Some 1); (CIn 1, Some 3)]))) as (s & ev & Hr & H); [vm_compute; reflexivity|].
  apply andb_true_iff in H as [H1 H2]. apply bool_decide_eq_true in H2. exists s, ev. split; [exact Hr|].
  split; [eapply two_idle; [exact Hr | vm_compute; reflexivity | exact H1]|]. split; [exact H2|]. apply C60_counts in Hr as [_ Hl].
  split; eapply Hl; unfold holds; rewrite H2; [left | right; left].
Qed.
(** redirect gives a message another address while a handler of another locality may
    still have it (actor_base.cpp 48-52): 1 is processing call 6. *)
Definition writes : list mop := start ++ MCall 0 (FRedirect 0 true) :: go 0 1.
Theorem C60_redirect_refuted : exists s ev p, run mstep minit writes = Ok (s, ev) /\ prog s 0 = IMark 34 true :: p /\ current 0 (dying s) = None /\
  holds s (CVar 0 34) 5 /\ holds s (CField 6 FInner) 5 /\ holds s (CVar 1 1) 6.
Proof.
  destruct (checked writes (fun s ev => match prog s 0 with IMark x r :: _ => (x =? 34) && r | _ => false end && bool_decide (current 0 (dying s) = None) && hasb s (CVar 0 34) 5 && hasb s (CField 6 FInner) 5 && hasb s (CVar 1 1) 6)) as (s & ev & Hr & H); [vm_compute; reflexivity|].
  exists s, ev. revert H. generalize Hr. clear Hr. intros Hr H. repeat (apply andb_true_iff in H as [H ?]).
  destruct (prog s 0) as [|i p]; [discriminate|]. exists p. split; [exact Hr|]. clear Hr. unfold hasb in *. repeat match goal with E : bool_decide _ = true |- _ => apply bool_decide_eq_true in E end.
  destruct i as [| | | | | | | | | | | | | |x r]; try discriminate. apply andb_true_iff in H as [H ->]. apply N.eqb_eq in H as ->. done.
Qed.

Print Assumptions C60_counts.
Print Assumptions C60_held.
Print Assumptions C60_freed.
Print Assumptions C60_safe_partial.
Print Assumptions C60_variables.
Print Assumptions C60_kept.
Print Assumptions C60_nothing_left.
Print Assumptions C60_ends.
Print Assumptions C60_sole.
Print Assumptions C60_route_partial.
Print Assumptions C60_route_refuted.
Print Assumptions C60_dangling_refuted.
Print Assumptions C60_destructor_refuted.
Print Assumptions C60_loop_refuted.
Print Assumptions C60_redirect_refuted.
