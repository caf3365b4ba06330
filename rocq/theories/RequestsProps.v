(** C08-C12: requests, timeouts, cancellation, reply channels. *)
From stdpp Require Import base list gmap.
From Verif Require Import Base RequestsModel RequestsSpec RequestsProofs AddrMapProofs.

(** C08: however many replies arrive, the requester of [u] sees at most one
    outcome. *)
Theorem C08_at_most_one : forall asup leader ops st ev,
  guarded (rstep asup leader) (rop_ok asup) rinit ops -> (allocs ops < W64)%N ->
  run (rstep asup leader) rinit ops = Ok (st, ev) ->
  forall u, length (outcomes u ev) <= 1.
Proof. exact at_most_one. Qed.

(** A reply to a request which is not outstanding changes nothing and is shown
    to nobody. *)
Theorem C08_late_dropped : forall asup leader ops st ev,
  guarded (rstep asup leader) (rop_ok asup) rinit ops -> (allocs ops < W64)%N ->
  run (rstep asup leader) rinit ops = Ok (st, ev) ->
  forall u, (forall s id c, ~ outstanding st u s id c) -> rstep asup leader st (OArrive u) = Ok (st, []).
Proof. exact late_dropped. Qed.

(** C09: a sent request is outstanding with a running timer, finished with one
    outcome, or cancelled without one. *)
Theorem C09_trichotomy : forall asup leader ops st ev,
  guarded (rstep asup leader) (rop_ok asup) rinit ops -> (allocs ops < W64)%N ->
  run (rstep asup leader) rinit ops = Ok (st, ev) ->
  forall u, In (EReq u) ev ->
  (exists s id c, outstanding st u s id c /\ (id, s) ∈ r_armed st /\ outcomes u ev = [] /\ ~ In (ECancel u) ev) \/
  ((forall s id c, ~ outstanding st u s id c) /\ length (outcomes u ev) = 1) \/
  ((forall s id c, ~ outstanding st u s id c) /\ outcomes u ev = [] /\ In (ECancel u) ev).
Proof. exact trichotomy. Qed.

Theorem C09_timeout : forall asup leader ops st ev,
  guarded (rstep asup leader) (rop_ok asup) rinit ops -> (allocs ops < W64)%N ->
  run (rstep asup leader) rinit ops = Ok (st, ev) ->
  forall u s id c, outstanding st u s id c ->
  exists st' rm, rstep asup leader st (OFire id s) = Ok (st', [ETimeout u (rm_origin rm) (rm_source rm)]) /\
    r_sent st !! u = Some rm /\ rm_id rm = id /\ rm_sup rm = s /\
    (forall s' id' c', ~ outstanding st' u s' id' c').
Proof. exact timeout_fires. Qed.

(** While the reply channel exists, the first reply is given to the requester
    and its timer is gone. *)
Theorem C09_response : forall asup leader ops st ev,
  guarded (rstep asup leader) (rop_ok asup) rinit ops -> (allocs ops < W64)%N ->
  run (rstep asup leader) rinit ops = Ok (st, ev) ->
  forall u s id c rm, outstanding st u s id c -> r_sent st !! u = Some rm -> rm_imag rm ∈ r_subs st ->
  exists st', rstep asup leader st (OArrive u) = Ok (st', [EResp u u (rm_origin rm) (rm_source rm); ECancel u]) /\
    (id, s) ∉ r_armed st' /\ (forall s' id' c', ~ outstanding st' u s' id' c').
Proof. exact response_given. Qed.

(** The reply channel of a request exists unless its mapping was removed. *)
Theorem C09_channel : forall asup leader ops st ev a ty u rm,
  run (rstep asup leader) rinit ops = Ok (st, ev) -> ~ In (OUnmap a ty) ops ->
  r_sent st !! u = Some rm -> rm_source rm = a -> rm_type rm = ty -> rm_imag rm ∈ r_subs st.
Proof. exact channel_kept. Qed.

(** Disciplined use never hits an assert or undefined behaviour. *)
Theorem C09_safe : forall asup leader ops,
  guarded (rstep asup leader) (rop_ok asup) rinit ops -> (allocs ops < W64)%N ->
  exists st ev, run (rstep asup leader) rinit ops = Ok (st, ev).
Proof.
  exact (fun asup leader ops Hg Hn =>
    match reach asup leader ops Hg Hn with
    | ex_intro _ st (ex_intro _ ev (conj H _)) => ex_intro _ st (ex_intro _ ev H)
    end).
Qed.

(** C10 *)
Theorem C10_distinct : forall asup leader ops st ev,
  guarded (rstep asup leader) (rop_ok asup) rinit ops -> (allocs ops < W64)%N ->
  run (rstep asup leader) rinit ops = Ok (st, ev) ->
  NoDup ((r_armed st).*1) /\
  (forall s id, is_Some (r_map st !! (s, id)) -> (id, s) ∈ r_armed st) /\
  (forall s1 s2 id, is_Some (r_map st !! (s1, id)) -> is_Some (r_map st !! (s2, id)) -> s1 = s2) /\
  (forall id b, r_built st !! id = Some b -> id ∉ (r_armed st).*1).
Proof. exact ids_distinct. Qed.

(** A response given for request [u] is a reply to [u] itself and goes to its
    requester. *)
Theorem C10_matched : forall asup leader ops st ev,
  guarded (rstep asup leader) (rop_ok asup) rinit ops -> (allocs ops < W64)%N ->
  run (rstep asup leader) rinit ops = Ok (st, ev) ->
  forall u r o a, In (EResp u r o a) ev -> r = u /\
    exists rm, r_sent st !! u = Some rm /\ rm_origin rm = o /\ rm_source rm = a.
Proof. exact matched. Qed.

Theorem C10_timeout_matched : forall asup leader ops st ev,
  guarded (rstep asup leader) (rop_ok asup) rinit ops -> (allocs ops < W64)%N ->
  run (rstep asup leader) rinit ops = Ok (st, ev) ->
  forall u o a, In (ETimeout u o a) ev ->
    exists rm, r_sent st !! u = Some rm /\ rm_origin rm = o /\ rm_source rm = a.
Proof. exact timed_out. Qed.

(** C11 *)
Theorem C11_nothing_left : forall asup leader ops st ev,
  guarded (rstep asup leader) (rop_ok asup) rinit ops -> (allocs ops < W64)%N ->
  run (rstep asup leader) rinit ops = Ok (st, ev) ->
  forall a, a ∈ r_fin st ->
  (forall id, (id, a) ∉ r_armed st) /\ (forall s id c, r_map st !! (s, id) = Some c -> q_source c <> a /\ s <> a).
Proof. exact finished_nothing. Qed.

Theorem C11_quiet : forall asup leader ops1 ops2 st1 ev1 st2 ev2 a,
  guarded (rstep asup leader) (rop_ok asup) rinit (ops1 ++ ops2) -> (allocs (ops1 ++ ops2) < W64)%N ->
  run (rstep asup leader) rinit ops1 = Ok (st1, ev1) -> run (rstep asup leader) st1 ops2 = Ok (st2, ev2) ->
  a ∈ r_fin st1 -> Forall (fun x => source_of x <> Some a) ev2.
Proof. exact quiet_after_finish. Qed.

Theorem C11_others : forall asup leader ops st ev a id st' e,
  guarded (rstep asup leader) (rop_ok asup) rinit ops -> (allocs ops < W64)%N ->
  run (rstep asup leader) rinit ops = Ok (st, ev) ->
  rstep asup leader st (OFinish a id) = Ok (st', e) ->
  (forall s i c, r_map st !! (s, i) = Some c -> q_source c <> a -> s <> a ->
    r_map st' !! (s, i) = Some c /\ (i, s) ∈ r_armed st') /\
  (forall b i, b <> a -> r_timers st !! (b, i) = Some TUser ->
    r_timers st' !! (b, i) = Some TUser /\ (i, b) ∈ r_armed st') /\
  (forall u o x, ~ In (ETimeout u o x) e) /\ (forall u r o x, ~ In (EResp u r o x) e).
Proof. exact finish_others. Qed.

(** The cancellation loops end. *)
Theorem C11_finish_possible : forall asup leader ops st ev a,
  guarded (rstep asup leader) (rop_ok asup) rinit ops -> (allocs ops < W64)%N ->
  run (rstep asup leader) rinit ops = Ok (st, ev) ->
  exists ids st' e, run (rstep asup leader) st (OFinish a <$> ids) = Ok (st', e) /\ a ∈ r_fin st'.
Proof. exact finish_possible. Qed.

(** C12: with builders sent one after the other, all requests of ([a], [ty])
    made between two removals of the mapping share one address. *)
Theorem C12_shared_partial : forall asup leader ops0 st0 ev0 ops st ev a ty u1 u2 r1 r2,
  run (rstep asup leader) rinit ops0 = Ok (st0, ev0) -> r_built st0 = ∅ ->
  guarded (rstep asup leader) seq_ok st0 ops -> ~ In (OUnmap a ty) ops ->
  run (rstep asup leader) st0 ops = Ok (st, ev) ->
  r_sent st !! u1 = Some r1 -> r_sent st !! u2 = Some r2 ->
  r_sent st0 !! u1 = None -> r_sent st0 !! u2 = None ->
  rm_source r1 = a -> rm_type r1 = ty -> rm_source r2 = a -> rm_type r2 = ty ->
  rm_imag r1 = rm_imag r2 /\ r_amap st !! (a, ty) = Some (rm_imag r1).
Proof. exact shared. Qed.

(** Different actors or types never share an address. *)
Theorem C12_not_shared : forall asup leader ops st ev u1 u2 r1 r2,
  run (rstep asup leader) rinit ops = Ok (st, ev) ->
  r_sent st !! u1 = Some r1 -> r_sent st !! u2 = Some r2 -> rm_imag r1 = rm_imag r2 ->
  rm_source r1 = rm_source r2 /\ rm_type r1 = rm_type r2.
Proof. exact not_shared. Qed.

Theorem C12_handler : forall asup leader ops st ev a ty imag,
  run (rstep asup leader) rinit ops = Ok (st, ev) ->
  r_amap st !! (a, ty) = Some imag -> imag ∈ r_subs st.
Proof. exact mapped_has_handler. Qed.

(** Without a mapping the next request makes a new address. *)
Theorem C12_remap : forall asup leader ops st ev a origin ty st' e,
  run (rstep asup leader) rinit ops = Ok (st, ev) ->
  r_amap st !! (a, ty) = None -> rstep asup leader st (OBuild a origin ty) = Ok (st', e) ->
  exists id b, r_built st' !! id = Some b /\ b_actor b = a /\ b_type b = ty /\ b_install b = true /\
    forall u rm, r_sent st !! u = Some rm -> rm_imag rm <> b_imag b.
Proof. exact remap_fresh. Qed.

(** Non-vacuity. *)
Definition rop_okb (asup : N -> N) (st : rstate) (o : rop) : bool :=
  let alive a := negb (bool_decide (a ∈ r_fin st)) && negb (bool_decide (asup a ∈ r_fin st)) in
  match o with
  | OBuild a _ _ => alive a
  | OSendReq id => match r_built st !! id with Some b => alive (b_actor b) | None => true end
  | OStart a => alive a
  | OCancel a id => match r_timers st !! (a, id) with Some _ => true | None => false end
  | _ => true
  end.
Lemma rop_okb_sound asup st o : rop_okb asup st o = true -> rop_ok asup st o.
Proof.
  assert (HA : forall a, negb (bool_decide (a ∈ r_fin st)) && negb (bool_decide (asup a ∈ r_fin st)) = true -> alive asup st a).
  { intros a H. apply andb_prop in H as [H1 H2]. apply negb_true_iff, bool_decide_eq_false in H1. apply negb_true_iff, bool_decide_eq_false in H2. by split. }
  destruct o; simpl; try done; try apply HA.
  - destruct (r_built st !! id); [apply HA|done].
  - destruct (r_timers st !! (a, id)); [by eexists|done].
Qed.

(** Actor 5 and supervisor 1 live under supervisor 0 (the leader); actor 6 under
    supervisor 1. *)
Definition ex_sup (a : N) : N := if N.eqb a 6 then 1%N else if N.eqb a 1 then 1%N else 0%N.

(** C12 without the discipline fails: two builders made before the first is sent
    get two addresses, and the second one survives the removal of the mapping. *)
Theorem C12_overlap_refuted : exists ops st ev r1 r2,
  guarded (rstep ex_sup 0) (rop_ok ex_sup) rinit ops /\
  run (rstep ex_sup 0) rinit ops = Ok (st, ev) /\
  r_sent st !! 0%N = Some r1 /\ r_sent st !! 1%N = Some r2 /\
  rm_source r1 = rm_source r2 /\ rm_type r1 = rm_type r2 /\ rm_imag r1 <> rm_imag r2 /\
  r_amap st !! (5%N, 7%N) = None /\ rm_imag r2 ∈ r_subs st.
Proof.
  exists [OBuild 5 5 7; OBuild 5 5 7; OSendReq 1; OSendReq 2; OUnmap 5 7].
  eexists _, _, _, _. split; [apply (guardedb_sound _ _ _ (rop_okb_sound ex_sup)); by vm_compute|].
  split; [by vm_compute|]. repeat (split; [by vm_compute|]). by apply (bool_decide_unpack _); vm_compute.
Qed.

Definition ex_ops : list rop :=
  [OBuild 5 50 7; OSendReq 1; OBuild 6 60 7; OSendReq 2; OBuild 5 50 7; OSendReq 3; OStart 5; OBuild 6 60 8; OSendReq 5;
   OArrive 0; OArrive 0; OFire 2 1; OArrive 1; OFinish 5 4; OFinish 5 3; OFinish 5 0; OArrive 2].
Example C08_example : exists st,
  guarded (rstep ex_sup 0) (rop_ok ex_sup) rinit ex_ops /\ (allocs ex_ops < W64)%N /\
  run (rstep ex_sup 0) rinit ex_ops = Ok (st,
    [EReq 0; EReq 1; EReq 2; EReq 3; EResp 0 0 50 5; ECancel 0; ETimeout 1 60 6; EUser 5 4 true; ECancel 2]) /\
  (5%N ∈ r_fin st) /\ outstanding st 3 1 5 (Curry 60 3 6).
Proof.
  eexists. split; [apply (guardedb_sound _ _ _ (rop_okb_sound ex_sup)); by vm_compute|].
  split; [by vm_compute|]. split; [by vm_compute|]. split; [by apply (bool_decide_unpack _); vm_compute|]. split; by vm_compute.
Qed.
Example C12_example : exists st0 ev0 st ev r1 r2,
  run (rstep ex_sup 0) rinit [OBuild 5 50 7; OSendReq 1; OUnmap 5 7] = Ok (st0, ev0) /\ r_built st0 = ∅ /\
  run (rstep ex_sup 0) st0 [OBuild 5 50 7; OSendReq 2; OBuild 6 50 7; OSendReq 3; OBuild 5 50 7; OSendReq 4] = Ok (st, ev) /\
  r_sent st !! 1%N = Some r1 /\ r_sent st !! 3%N = Some r2 /\ rm_imag r1 = 1%N /\ rm_imag r2 = 1%N.
Proof.
  eexists _, _, _, _, _, _. split; [by vm_compute|]. split; [by apply map_to_list_empty_iff; vm_compute|].
  repeat (split; [by vm_compute|]). by vm_compute.
Qed.

Print Assumptions C08_at_most_one.
Print Assumptions C08_late_dropped.
Print Assumptions C09_trichotomy.
Print Assumptions C09_timeout.
Print Assumptions C09_response.
Print Assumptions C09_channel.
Print Assumptions C09_safe.
Print Assumptions C10_distinct.
Print Assumptions C10_matched.
Print Assumptions C10_timeout_matched.
Print Assumptions C11_nothing_left.
Print Assumptions C11_quiet.
Print Assumptions C11_others.
Print Assumptions C11_finish_possible.
Print Assumptions C12_shared_partial.
Print Assumptions C12_not_shared.
Print Assumptions C12_handler.
Print Assumptions C12_remap.
Print Assumptions C12_overlap_refuted.
