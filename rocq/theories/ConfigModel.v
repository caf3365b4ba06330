(** Model of the actor and supervisor config builders and of root supervisor
    creation.

    Code: include/rotor/actor_config.h 62-215 (masks 110-116, timeout 142-146,
    init_timeout 149-153, shutdown_timeout 156-160, validate 197),
    include/rotor/supervisor_config.h 24-142 (create_registry 84-87,
    registry_address 96-99, validate 134-140),
    include/rotor/asio/supervisor_config_asio.h 51-62,
    include/rotor/ev/supervisor_config_ev.h 38-60,
    include/rotor/wx/supervisor_config_wx.h 45-57,
    include/rotor/supervisor.h 351-365 (create_supervisor), 622-634 (finish).

    Simplifications: durations and addresses are numbers; the setters which only
    store a value nobody checks (policy, queue size, ...) are one setter
    [SOther]; [on_error] is an event, and creation goes on if it returns. *)
From Coq Require Import NArith List Bool.
From Verif Require Import Base.
Import ListNotations.
Open Scope N_scope.

Definition INIT_TIMEOUT : N := N.shiftl 1 0.
Definition SHUTDOWN_TIMEOUT : N := N.shiftl 1 1.
Definition FIELD2 : N := N.shiftl 1 2.     (* STRAND (asio), LOOP (ev), EVT_LOOP (wx) *)
Definition FIELD3 : N := N.shiftl 1 3.     (* LOOP_OWNERSHIP (ev) *)

(** What is built. *)
Inductive kind := KActor | KSupervisor | KAsio | KEv | KWx.
Definition is_sup (k : kind) : bool := match k with KActor => false | _ => true end.
Definition requirements_mask (k : kind) : N :=
  match k with
  | KActor | KSupervisor => N.lor INIT_TIMEOUT SHUTDOWN_TIMEOUT
  | KAsio | KWx => N.lor (N.lor INIT_TIMEOUT SHUTDOWN_TIMEOUT) FIELD2
  | KEv => N.lor (N.lor (N.lor INIT_TIMEOUT SHUTDOWN_TIMEOUT) FIELD2) FIELD3
  end.

Record config := Config {
  c_init : option N;                 (* None: default constructed *)
  c_shutdown : option N;
  c_registry : option N;             (* null or an address *)
  c_create_registry : bool
}.
Record builder := Builder { b_config : config; b_mask : N }.

Inductive setter :=
| STimeout (t : N)
| SInit (t : N)
| SShutdown (t : N)
| SRegistry (a : option N)
| SCreateRegistry (v : bool)
| SField2
| SField3
| SOther.

(** mask & ~bit *)
Definition clear (mask bit : N) : N := N.ldiff mask bit.

Definition apply (b : builder) (s : setter) : builder :=
  let c := b_config b in
  match s with
  | STimeout t =>
      Builder (Config (Some t) (Some t) (c_registry c) (c_create_registry c)) (clear (clear (b_mask b) INIT_TIMEOUT) SHUTDOWN_TIMEOUT)
  | SInit t => Builder (Config (Some t) (c_shutdown c) (c_registry c) (c_create_registry c)) (clear (b_mask b) INIT_TIMEOUT)
  | SShutdown t => Builder (Config (c_init c) (Some t) (c_registry c) (c_create_registry c)) (clear (b_mask b) SHUTDOWN_TIMEOUT)
  | SRegistry a => Builder (Config (c_init c) (c_shutdown c) a (c_create_registry c)) (b_mask b)
  | SCreateRegistry v => Builder (Config (c_init c) (c_shutdown c) (c_registry c) v) (b_mask b)
  | SField2 => Builder c (clear (b_mask b) FIELD2)
  | SField3 => Builder c (clear (b_mask b) FIELD3)
  | SOther => b
  end.

Definition new_builder (k : kind) : builder := Builder (Config None None None false) (requirements_mask k).

(** actor_config.h:197 and supervisor_config.h:134-140. *)
Definition validate (k : kind) (b : builder) : bool :=
  let r := if N.eqb (b_mask b) 0 then true else false in
  if is_sup k then
    if r then negb ((match c_registry (b_config b) with Some _ => true | None => false end) && c_create_registry (b_config b))
    else r
  else r.

Definition configure (k : kind) (l : list setter) : builder := fold_left apply l (new_builder k).

(** supervisor.h:622-634. *)
Inductive event :=
| EMisconfigured                     (* on_error(actor_misconfigured) *)
| ESupervisorDefined                 (* on_error(supervisor_defined) *)
| ECreated (c : config)              (* the constructor runs with this config *)
| EInstalled (c : config).           (* root: do_initialize; child: create_child *)

(** [install]: the install action; it may reset the actor pointer. *)
Definition finish {S} (k : kind) (b : builder) (install : S -> config -> S * list event * bool) (s : S) : S * list event * bool :=
  if validate k b then
    let '(s', e, alive) := install s (b_config b) in (s', ECreated (b_config b) :: e, alive)
  else (s, [EMisconfigured], false).

(** supervisor.h:196-200: child of a supervisor; state: number of children. *)
Definition install_child (n : N) (c : config) : N * list event * bool := (n + 1, [EInstalled c], true).
(** supervisor.h:354-363; state: whether the context has a supervisor. *)
Definition install_root (has : bool) (c : config) : bool * list event * bool :=
  if has then (has, [ESupervisorDefined], false) else (true, [EInstalled c], true).

(** Creation attempts on one system context. *)
Definition croot (has : bool) (o : kind * list setter) : res (bool * list event) :=
  let '(h, e, _) := finish (fst o) (configure (fst o) (snd o)) install_root has in Ok (h, e).
