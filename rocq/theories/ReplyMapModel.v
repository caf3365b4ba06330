(** Model of the reply addresses of requests: who is told that they are not needed any more.

    Code:
    - include/rotor/supervisor.h 511-565 (request_builder_t: the constructor looks the
      address up or makes one; send installs a handler in the latter case; install_handler:
      subscribe with the tag SUPERVISOR and the asking actor as owner, then set);
    - src/rotor/address_mapping.cpp 13-57 (set: try_emplace; get_mapped_address; remove: [at]
      in a noexcept function; has_subscriptions), include/rotor/address_mapping.h 50-61
      (each_subscription, empty);
    - src/rotor/plugin/child_manager.cpp 65-82 (activate: five subscriptions of its own),
      84-91 (deactivate), 93-164 (remove_child: assert; the actor is forgotten), 335-360
      (on_shutdown_confirm), 423-438 (handle_unsubscription), 470-481 (active_actors);
    - src/rotor/plugin/lifetime.cpp 50-72, 81-98 (unsubscribe one; all, the last first),
      112-128 (the confirmation takes the last point which is equal);
    - src/rotor/plugin/plugin_base.cpp 36-52, 60-83 (a plugin is inactive after its last own
      subscription is forgotten: the pointer to the actor becomes null),
      src/rotor/plugin/init_shutdown.cpp 70-73 (deactivate_plugins, before lifetime);
    - src/rotor/actor_base.cpp 172-204, 224-233 (the plugins are asked in reverse order, also
      those which are inactive: child_manager before lifetime).

    Actor 0 is the supervisor, the others are its children.  Number 0 of the types of responses
    is the response to the initialisation request, which the supervisor sends to every child.

    Simplifications:
    - the requests themselves, their timers and answers are in C01-C05 and C40; here only
      addresses and handlers;
    - the imaginary addresses are of the supervisor, so confirmations go through its own
      queue; other messages of the queue do not matter and are left out;
    - of child_info_t only whether there is an actor (no spawners waiting for a timer);
    - the other plugins of the supervisor do not appear; the shutdown of the supervisor gets
      to its lifetime plugin when no child is left (operation guard; C08, C30). *)
From stdpp Require Import base list gmap.
From Verif Require Import Base.
Open Scope N_scope.

Record info := Info { i_uid : N; i_own : N; i_ty : N; i_adr : N }.
Global Instance info_eq : EqDecision info.
Proof. solve_decision. Defined.
Record builder := Bld { b_own : N; b_ty : N; b_adr : N; b_inst : bool }.
Inductive qmsg := QConf (i : info) | QPlug.      (* of a reply subscription; of an own subscription of the child manager *)
Inductive cman := CmOn | CmOff (n : nat) | CmGone.
Record rstate := RS {
  r_kids : gset N;                     (* actors_map, those with an actor *)
  r_map : gmap N (gmap N info);        (* address_mapping_t::actor_map *)
  r_points : list info;                (* of the lifetime plugin, tag SUPERVISOR *)
  r_un : gset N;                       (* in the state UNSUBSCRIBING *)
  r_q : list qmsg;
  r_bld : gmap N builder;
  r_cm : cman;
  r_next : N;
  r_seen : gset N;                     (* actors which ever were *)
  r_ended : gset N;                    (* children which have confirmed their shutdown *)
  r_down : bool }.
Definition rinit : rstate := RS {[0]} ∅ [] ∅ [] ∅ CmOn 1 {[0]} ∅ false.
Inductive rop :=
| OChild (a : N)                       (* a child is created and asked to initialise *)
| OBuild (a ty : N)                    (* request<...>(...) *)
| OSend (b : N)                        (* .send(...) *)
| OEnd (a : N)                         (* the response to the shutdown request of a arrives *)
| ODown                                (* the shutdown of the supervisor: init_shutdown, lifetime *)
| OConf.                               (* the next confirmation is delivered *)
Inductive revt := ESub (i : info) | EUn (i : info) | EConf (i : info) | ERemoved (a : N) | EGone.

Definition set_un (s : rstate) un q := RS (r_kids s) (r_map s) (r_points s) un q (r_bld s) (r_cm s) (r_next s) (r_seen s) (r_ended s) (r_down s).
Definition set_map (s : rstate) m := RS (r_kids s) m (r_points s) (r_un s) (r_q s) (r_bld s) (r_cm s) (r_next s) (r_seen s) (r_ended s) (r_down s).
Definition set_kids (s : rstate) k := RS k (r_map s) (r_points s) (r_un s) (r_q s) (r_bld s) (r_cm s) (r_next s) (r_seen s) (r_ended s) (r_down s).
Definition set_points (s : rstate) p := RS (r_kids s) (r_map s) p (r_un s) (r_q s) (r_bld s) (r_cm s) (r_next s) (r_seen s) (r_ended s) (r_down s).
Definition set_cm (s : rstate) c := RS (r_kids s) (r_map s) (r_points s) (r_un s) (r_q s) (r_bld s) c (r_next s) (r_seen s) (r_ended s) (r_down s).
Definition set_q (s : rstate) q := RS (r_kids s) (r_map s) (r_points s) (r_un s) q (r_bld s) (r_cm s) (r_next s) (r_seen s) (r_ended s) (r_down s).
Definition set_ended (s : rstate) e := RS (r_kids s) (r_map s) (r_points s) (r_un s) (r_q s) (r_bld s) (r_cm s) (r_next s) (r_seen s) e (r_down s).
Definition set_down (s : rstate) := RS (r_kids s) (r_map s) (r_points s) (r_un s) (r_q s) (r_bld s) (r_cm s) (r_next s) (r_seen s) (r_ended s) true.
Definition set_born (s : rstate) a := RS ({[a]} ∪ r_kids s) (r_map s) (r_points s) (r_un s) (r_q s) (r_bld s) (r_cm s) (r_next s) ({[a]} ∪ r_seen s) (r_ended s) (r_down s).
Definition set_bld (s : rstate) b := RS (r_kids s) (r_map s) (r_points s) (r_un s) (r_q s) (<[r_next s := b]> (r_bld s)) (r_cm s) (r_next s + 1) (r_seen s) (r_ended s) (r_down s).
Definition set_sub (s : rstate) i := RS (r_kids s) (r_map s) (r_points s ++ [i]) (r_un s) (r_q s) (r_bld s) (r_cm s) (r_next s + 1) (r_seen s) (r_ended s) (r_down s).

(** get_mapped_address *)
Definition mapped (s : rstate) (a ty : N) : option info := default ∅ (r_map s !! a) !! ty.
(** supervisor.h:511-529; the number of the builder serves as the number of its address *)
Definition build (s : rstate) (a ty : N) : rstate :=
  match mapped s a ty with
  | Some i => set_bld s (Bld a ty (i_adr i) false)
  | None => set_bld s (Bld a ty (r_next s) true)
  end.
(** address_mapping.cpp:13-17 *)
Definition amap_set (s : rstate) (i : info) : rstate :=
  let subs := default ∅ (r_map s !! i_own i) in
  let subs' := match subs !! i_ty i with Some _ => subs | None => <[i_ty i := i]> subs end in
  set_map s (<[i_own i := subs']> (r_map s)).
(** supervisor.h:531-565 *)
Definition send (s : rstate) (b : builder) : rstate * list revt :=
  if b_inst b then
    let i := Info (r_next s) (b_own b) (b_ty b) (b_adr b) in
    (amap_set (set_sub s i) i, [ESub i])
  else (s, []).
(** lifetime.cpp:57-72 *)
Definition unsub (s : rstate) (i : info) : rstate * list revt :=
  if bool_decide (i_uid i ∈ r_un s) then (s, [])
  else (set_un s ({[i_uid i]} ∪ r_un s) (r_q s ++ [QConf i]), [EUn i]).
Fixpoint unsubs (s : rstate) (l : list info) : rstate * list revt :=
  match l with
  | [] => (s, [])
  | i :: l' => let '(s1, e1) := unsub s i in let '(s2, e2) := unsubs s1 l' in (s2, e1 ++ e2)
  end.
(** child_manager.cpp:93-164 *)
Definition remove_child (s : rstate) (a : N) : res (rstate * list revt) :=
  if bool_decide (a ∈ r_kids s) then Ok (set_kids s (r_kids s ∖ {[a]}), [ERemoved a]) else AssertFail.
(** plugin_base.cpp:36-52, for the child manager with its own subscriptions *)
Definition own_subs : nat := 5.
Definition base_deactivate (s : rstate) : rstate :=
  match r_cm s with
  | CmOn => set_q (set_cm s (CmOff own_subs)) (r_q s ++ repeat QPlug own_subs)
  | _ => s
  end.
(** child_manager.cpp:84-91; actor_base.cpp:74-82 skips it when it is inactive *)
Definition deactivate (s : rstate) : res (rstate * list revt) :=
  match r_cm s with
  | CmGone => Ok (s, [])
  | _ =>
      if bool_decide (r_map s = ∅) then
        rbind (if bool_decide (size (r_kids s) = 1%nat) then remove_child s 0 else Ok (s, [])) (fun '(s1, e1) =>
        Ok (base_deactivate s1, e1))
      else Ok (s, [])
  end.
(** child_manager.cpp:335-360 *)
Definition on_shutdown_confirm (s : rstate) (a : N) : res (rstate * list revt) :=
  if bool_decide (a ∈ r_kids s) then
    let s := set_ended s ({[a]} ∪ r_ended s) in
    match r_map s !! a with
    | Some subs => Ok (unsubs s ((map_to_list subs).*2))
    | None => remove_child s a
    end
  else Crash.
(** address_mapping.cpp:31-45 *)
Definition amap_remove (s : rstate) (i : info) : res rstate :=
  match r_map s !! i_own i with
  | None => Crash
  | Some subs =>
      let subs' := filter (fun p => ~ (i_uid p.2 = i_uid i /\ i_adr p.2 = i_adr i)) subs in
      Ok (set_map s (if bool_decide (subs' = ∅) then delete (i_own i) (r_map s) else <[i_own i := subs']> (r_map s)))
  end.
(** child_manager.cpp:423-434 *)
Definition cm_unsubscription (s : rstate) (i : info) : res (rstate * list revt) :=
  match r_cm s with
  | CmGone => Crash
  | _ =>
      rbind (amap_remove s i) (fun s1 =>
      rbind (match r_map s1 !! i_own i with None => remove_child s1 (i_own i) | Some _ => Ok (s1, []) end) (fun '(s2, e2) =>
      Ok (if bool_decide (r_kids s2 = ∅) || bool_decide (r_map s2 = ∅) then base_deactivate s2 else s2, e2)))
  end.
(** subscription_point.cpp:24-39: the type of the handler is one for a type of responses *)
Definition same (i j : info) : bool := bool_decide (i_ty i = i_ty j) && bool_decide (i_adr i = i_adr j).
(** lifetime.cpp:112-121 *)
Definition lt_unsubscription (s : rstate) (i : info) : res (rstate * list revt) :=
  match last (List.filter (same i) (r_points s)) with
  | None => Crash
  | Some j => Ok (set_points s (List.filter (fun k => negb (bool_decide (i_uid k = i_uid j))) (r_points s)), [EConf j])
  end.
Definition conf (s : rstate) : res (rstate * list revt) :=
  match r_q s with
  | [] => Ok (s, [])
  | QPlug :: q =>
      match r_cm s with
      | CmOff (S (S n)) => Ok (set_q (set_cm s (CmOff (S n))) q, [])
      | CmOff 1%nat => Ok (set_q (set_cm s CmGone) q, [EGone])
      | _ => Crash
      end
  | QConf i :: q =>
      rbind (cm_unsubscription (set_q s q) i) (fun '(s1, e1) =>
      rbind (lt_unsubscription s1 i) (fun '(s2, e2) => Ok (s2, e1 ++ e2)))
  end.
Definition rstep (s : rstate) (o : rop) : res (rstate * list revt) :=
  match o with
  | OChild a =>
      let s1 := build (set_born s a) 0 0 in
      match r_bld s1 !! r_next s with Some b => Ok (send s1 b) | None => Ok (s1, []) end
  | OBuild a ty => Ok (build s a ty, [])
  | OSend b => match r_bld s !! b with Some b => Ok (send s b) | None => Ok (s, []) end
  | OEnd a => on_shutdown_confirm s a
  | ODown =>
      rbind (deactivate (set_down s)) (fun '(s1, e1) =>
      let '(s2, e2) := unsubs s1 (rev (r_points s1)) in Ok (s2, e1 ++ e2))
  | OConf => conf s
  end.
