(** Vocabulary of C20-C23 and C30-C33: what can be seen in the trace. *)
From stdpp Require Import base list gmap.
From Verif Require Import Base ChildMgrModel.
Open Scope N_scope.

(** Calls of the factory of spawner [k], and instances it made. *)
Definition is_attempt (k : N) (e : cevent) : bool := match e with EAttempt k' _ => k' =? k | _ => false end.
Definition is_instance (k : N) (e : cevent) : bool := match e with EInstance k' _ _ => k' =? k | _ => false end.
Definition count (p : cevent -> bool) (ev : list cevent) : N := N.of_nat (length (List.filter p ev)).
Definition is_any_attempt (e : cevent) : bool := match e with EAttempt _ _ => true | _ => false end.
Definition is_spawner (e : cevent) : bool := match e with ESpawner _ _ => true | _ => false end.
(** The supervisor dropped the actor. *)
Definition removed (c : N) (ev : list cevent) : Prop := exists k abn ask, ERemoved c k abn ask ∈ ev.

(** policy.h:27-45: may a new instance follow this termination? *)
Definition allowed (c : scfg) (abnormal asked_for : bool) : bool :=
  match sc_policy c with
  | RAlways => true
  | RNever => false
  | RAskActor => asked_for
  | RNormalOnly => negb abnormal
  | RFailOnly => abnormal
  end.

(** Shutdown requests sent to children, in order. *)
Definition shutreqs (ev : list cevent) : list N :=
  omap (fun e => match e with EShutReq c => Some c | _ => None end) ev.
Definition starts (ev : list cevent) : list N :=
  omap (fun e => match e with EStart c => Some c | _ => None end) ev.

(** The loop computes deadlines from the current time whenever the plugin may
    start a timer. *)
Definition fresh_clock (s : cstate) (o : cop) : Prop :=
  match o with
  | OOnSpawn _ _ | OConfirm _ _ _ | OUnsubLast _ _ | ODeactivate _ _ => cm_loop s = cm_now s
  | _ => True
  end.

(** Nothing is under way any more: no message of the plugin, no timer, no request. *)
Definition quiescent (s : cstate) : Prop :=
  cm_spawnq s = [] /\ cm_createq s = [] /\ cm_initout s = ∅ /\ cm_shutout s = ∅ /\ cm_unsub s = ∅ /\ cm_timers s = ∅.
