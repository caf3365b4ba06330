(** Model of the error codes and of [extended_error_t].

    Code: src/rotor/error_code.cpp 14-61, include/rotor/error_code.h 22-46,
    src/rotor/extended_error.cpp 13-42, include/rotor/extended_error.h 40-75.

    Simplifications: the intrusive pointer to the next error is an [option]; the
    chain is finite because [next] is only set by the constructor, from an error
    which exists already.  A request is represented by the text which the
    stringifier would print for it; std::stringstream is string concatenation. *)
From Coq Require Import ZArith String List.
Import ListNotations.
Local Open Scope string_scope.

(** [std::error_category]: the two of the library, or a foreign one given by the
    function which makes its messages. *)
Inductive category := CatError | CatShutdown | CatOther (text : Z -> string).
Record ecode := ECode { ec_value : Z; ec_cat : category }.

(** error_code.h:22-35 *)
Inductive error_code :=
| success | cancelled | request_timeout | supervisor_defined | already_registered
| actor_misconfigured | actor_not_linkable | already_linked | failure_escalation
| registration_failed | discovery_failed | unknown_service.
(** error_code.h:38-45 *)
Inductive shutdown_code :=
| normal | supervisor_shutdown | child_down | child_init_failed | init_failed | unlink_requested.

Definition error_value (c : error_code) : Z :=
  match c with
  | success => 0 | cancelled => 1 | request_timeout => 2 | supervisor_defined => 3
  | already_registered => 4 | actor_misconfigured => 5 | actor_not_linkable => 6
  | already_linked => 7 | failure_escalation => 8 | registration_failed => 9
  | discovery_failed => 10 | unknown_service => 11
  end.
Definition shutdown_value (c : shutdown_code) : Z :=
  match c with
  | normal => 0 | supervisor_shutdown => 1 | child_down => 2
  | child_init_failed => 3 | init_failed => 4 | unlink_requested => 5
  end.

(** [static_cast<error_code_t>(c)] seen through the switch: which label matches. *)
Definition all_error_codes : list error_code :=
  [success; cancelled; request_timeout; supervisor_defined; already_registered; actor_misconfigured;
   actor_not_linkable; already_linked; failure_escalation; registration_failed; discovery_failed; unknown_service].
Definition all_shutdown_codes : list shutdown_code :=
  [normal; supervisor_shutdown; child_down; child_init_failed; init_failed; unlink_requested].
Definition as_error_code (z : Z) : option error_code :=
  find (fun c => Z.eqb (error_value c) z) all_error_codes.
Definition as_shutdown_code (z : Z) : option shutdown_code :=
  find (fun c => Z.eqb (shutdown_value c) z) all_shutdown_codes.

(** error_code.cpp:14-42 *)
Definition error_text (z : Z) : string :=
  match as_error_code z with
  | Some success => "success"
  | Some cancelled => "request has been cancelled"
  | Some request_timeout => "request timeout"
  | Some supervisor_defined => "supervisor is already defined"
  | Some already_registered => "service name is already registered"
  | Some actor_misconfigured => "actor is misconfigured"
  | Some actor_not_linkable => "actor is not linkeable"
  | Some already_linked => "already linked"
  | Some failure_escalation => "failure escalation"
  | Some unknown_service => "the requested service name is not registered"
  | Some discovery_failed => "discovery has been failed"
  | Some registration_failed => "registration has been failed"
  | None => "unknown"
  end.
(** error_code.cpp:44-61 *)
Definition shutdown_text (z : Z) : string :=
  match as_shutdown_code z with
  | Some normal => "normal shutdown"
  | Some supervisor_shutdown => "actor shutdown has been requested by supervisor"
  | Some child_init_failed => "supervisor shutdown due to child init failure"
  | Some child_down => "supervisor shutdown due to child shutdown policy"
  | Some init_failed => "actor shutdown due to init failure"
  | Some unlink_requested => "actor shutdown due to unlink request"
  | None => "unknown shutdown reason"
  end.
(** std::error_code::message *)
Definition ec_text (e : ecode) : string :=
  match ec_cat e with
  | CatError => error_text (ec_value e)
  | CatShutdown => shutdown_text (ec_value e)
  | CatOther f => f (ec_value e)
  end.
(** std::error_code::operator bool *)
Definition ec_true (e : ecode) : bool := negb (Z.eqb (ec_value e) 0).

(** error_code.h:76-84: make_error_code *)
Definition mk_error (c : error_code) : ecode := ECode (error_value c) CatError.
Definition mk_shutdown (c : shutdown_code) : ecode := ECode (shutdown_value c) CatShutdown.

(** extended_error.h:40-56 *)
Inductive err := Err (context : string) (ec : ecode) (next : option err) (request : option string).
Definition e_context (e : err) := let 'Err c _ _ _ := e in c.
Definition e_ec (e : err) := let 'Err _ c _ _ := e in c.
Definition e_next (e : err) := let 'Err _ _ n _ := e in n.
Definition e_request (e : err) := let 'Err _ _ _ r := e in r.

(** extended_error.cpp:39-42 *)
Definition make_error (context : string) (ec : ecode) (next : option err) (request : option string) : err :=
  Err context ec next request.

(** extended_error.cpp:13-25; [str]: whether a stringifier is given (a call
    without argument has none). *)
Fixpoint message (str : bool) (e : err) : string :=
  match e with
  | Err context ec next request =>
      context ++ " " ++ ec_text ec ++
      (match request with
       | Some r => if str then " [" ++ r ++ "]" else ""
       | None => ""
       end) ++
      (match next with
       | Some n => " <- " ++ message false n
       | None => ""
       end)
  end.

(** extended_error.cpp:27-37; the loop [while (n->next) n = n->next]. *)
Fixpoint walk (n : err) : err :=
  match n with
  | Err _ _ (Some n') _ => walk n'
  | Err _ _ None _ => n
  end.
Definition root (e : err) : err :=
  match e_next e with
  | None => e
  | Some n => walk n
  end.
