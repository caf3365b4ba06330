(** C38: misconfigured actors are never created; one root supervisor. *)
From stdpp Require Import base list.
From Coq Require Import NArith.
From Verif Require Import Base ConfigModel ConfigSpec ConfigProofs.
Open Scope N_scope.

(** [validate] accepts exactly the complete and consistent configurations, in
    whatever order and combination the setters were called. *)
Theorem C38_validate : forall k l, validate k (configure k l) = well_configured k l.
Proof. exact validate_spec. Qed.

(** Whatever the install action is: the constructor runs iff the configuration
    is good; otherwise the error is reported and nothing happens. *)
Theorem C38_created_iff : forall (S : Type) k l (install : S -> config -> S * list event * bool) s s' e alive,
  finish k (configure k l) install s = (s', e, alive) ->
  (if well_configured k l then exists e', e = ECreated (b_config (configure k l)) :: e' else
     s' = s /\ e = [EMisconfigured] /\ alive = false).
Proof. exact @created_iff. Qed.

(** The created actor has the timeouts given last. *)
Theorem C38_values : forall k l,
  let c := b_config (configure k l) in
  c_init c = last_value v_init l /\ c_shutdown c = last_value v_shutdown l /\
  (well_configured k l = true -> is_Some (c_init c) /\ is_Some (c_shutdown c)).
Proof. exact created_values. Qed.

Theorem C38_child : forall k l n n' e alive,
  finish k (configure k l) install_child n = (n', e, alive) ->
  alive = well_configured k l /\ n' = n + (if well_configured k l then 1 else 0) /\
  (In EMisconfigured e <-> well_configured k l = false) /\
  (forall c, In (ECreated c) e -> well_configured k l = true /\ c = b_config (configure k l)).
Proof. exact child_created. Qed.

(** One system context: exactly one supervisor is installed if any attempt was
    good, none otherwise; later ones are refused. *)
Theorem C38_root_once : forall ops has ev, run croot false ops = Ok (has, ev) ->
  has = existsb (fun o => well_configured o.1 o.2) ops /\ installs ev = if has then 1%nat else 0%nat.
Proof. exact root_once. Qed.
Theorem C38_root_second : forall ops ev k l e has',
  run croot false ops = Ok (true, ev) -> croot true (k, l) = Ok (has', e) ->
  has' = true /\ (if well_configured k l then In ESupervisorDefined e else e = [EMisconfigured]) /\
  forall c, ~ In (EInstalled c) e.
Proof. exact root_second. Qed.

(** Non-vacuity. *)
Example C38_example :
  map (fun o => well_configured o.1 o.2)
    [(KActor, [SInit 5; SShutdown 7]); (KActor, [SInit 5; SInit 6]); (KActor, [SRegistry (Some 1); SCreateRegistry true; STimeout 1]);
     (KSupervisor, [SRegistry (Some 1); SCreateRegistry true; STimeout 1]);
     (KSupervisor, [SRegistry (Some 1); SCreateRegistry true; STimeout 1; SRegistry None]);
     (KAsio, [STimeout 3]); (KAsio, [SField2; STimeout 3]); (KEv, [SField2; STimeout 3]); (KEv, [SField2; STimeout 3; SField3])]
  = [true; false; true; false; true; false; true; false; true].
Proof. reflexivity. Qed.
Example C38_example_root :
  run croot false [(KSupervisor, [SInit 1]); (KSupervisor, [STimeout 1]); (KAsio, [STimeout 2; SField2])] =
  Ok (true, [EMisconfigured; ECreated (Config (Some 1) (Some 1) None false); EInstalled (Config (Some 1) (Some 1) None false);
             ECreated (Config (Some 2) (Some 2) None false); ESupervisorDefined]).
Proof. reflexivity. Qed.

Print Assumptions C38_validate.
Print Assumptions C38_created_iff.
Print Assumptions C38_values.
Print Assumptions C38_child.
Print Assumptions C38_root_once.
Print Assumptions C38_root_second.
