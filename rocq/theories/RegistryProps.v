(** Properties C17, C18, C19: the registry actor. *)
From stdpp Require Import base gmap list strings.
From Verif Require Import Base RegistryModel RegistrySpec RegistryProofs.
Local Open Scope string_scope.

(** C17: for every history of messages the registry never crashes, its outputs
    are those of the map specification, and its bindings are the specified
    ones. *)
Theorem C17_registry_refines_map : forall ops,
  exists s e, run rstep rinit ops = Ok (s, e) /\
    reg_trace (fun _ => None) [] ops (binding ops) (promises s) e /\
    forall n, registered s !! n = binding ops n.
Proof. exact registry_refines_map. Qed.

Theorem C17_discovery_finds_current_binding : forall ops s e d,
  run rstep rinit ops = Ok (s, e) ->
  rstep s (Discover d) =
    Ok (s, [match binding ops (dr_name d) with Some a => DiscFound d a | None => DiscUnknown d end]).
Proof. exact registry_discovery. Qed.

Theorem C17_duplicate_registration_rejected : forall ops s e r a,
  run rstep rinit ops = Ok (s, e) -> binding ops (rr_name r) = Some a ->
  rstep s (Reg r) = Ok (s, [RegAlreadyRegistered r]).
Proof. exact registry_dup. Qed.

(** C18 *)
Theorem C18_dereg_removes_exactly_own_names : forall ops s e a s' e' n,
  run rstep rinit ops = Ok (s, e) -> rstep s (Dereg a) = Ok (s', e') ->
  e' = [] /\ promises s' = promises s /\
  registered s' !! n = (if decide (registered s !! n = Some a) then None else registered s !! n).
Proof. exact registry_dereg_exact. Qed.

Theorem C18_dereg_service_removes_exactly_one : forall ops s e n,
  run rstep rinit ops = Ok (s, e) ->
  exists s', rstep s (DeregService n) = Ok (s', []) /\ promises s' = promises s /\
    registered s' = delete n (registered s).
Proof. exact registry_dereg_service_exact. Qed.

(** C19: every promise made is answered once or still pending once, and no
    promise is pending for a bound name. *)
Theorem C19_promise_answered_exactly_once : forall ops d s e,
  run rstep rinit ops = Ok (s, e) ->
  count (is_promise d) ops = count (fun p => bool_decide (p = d)) (promises s) + count (is_answer d) e.
Proof. exact registry_promise_ledger. Qed.

Theorem C19_no_promise_pending_for_bound_name : forall ops s e p,
  run rstep rinit ops = Ok (s, e) -> p ∈ promises s -> binding ops (dr_name p) = None.
Proof. exact registry_no_stale_promise. Qed.

(** Non-vacuity: a history with a re-registration, two promises for one name, a
    cancellation and a revocation. *)
Local Open Scope N_scope.
Definition demo_hist : list rop :=
  [ Promise (DiscReq 1 10 11 "db"); Promise (DiscReq 2 10 11 "db"); Promise (DiscReq 3 10 11 "log");
    Reg (RegReq 4 20 "web" 30); Reg (RegReq 5 20 "db" 30); Reg (RegReq 6 21 "db" 31);
    Cancel 3 10; Promise (DiscReq 7 12 13 "log"); DeregService "web" ].

Example demo_hist_runs :
  exists s, run rstep rinit demo_hist =
    Ok (s, [ RegOk (RegReq 4 20 "web" 30); RegOk (RegReq 5 20 "db" 30);
             PromFound (DiscReq 1 10 11 "db") 30; PromFound (DiscReq 2 10 11 "db") 30;
             RegAlreadyRegistered (RegReq 6 21 "db" 31); PromCancelled (DiscReq 3 10 11 "log") ])
  /\ promises s = [DiscReq 7 12 13 "log"] /\ binding demo_hist "db" = Some 30%N
  /\ binding demo_hist "web" = None.
Proof. eexists. split; [vm_compute; reflexivity|]. repeat split; vm_compute; reflexivity. Qed.

Print Assumptions C17_registry_refines_map.
Print Assumptions C17_discovery_finds_current_binding.
Print Assumptions C17_duplicate_registration_rejected.
Print Assumptions C18_dereg_removes_exactly_own_names.
Print Assumptions C18_dereg_service_removes_exactly_one.
Print Assumptions C19_promise_answered_exactly_once.
Print Assumptions C19_no_promise_pending_for_bound_name.
