(** C41: errors. *)
From Coq Require Import ZArith String List.
From Verif Require Import ErrorsModel ErrorsSpec ErrorsProofs.
Import ListNotations.
Local Open Scope string_scope.

Theorem C41_root : forall e d, last (chain e) d = root e.
Proof. exact root_last. Qed.
Theorem C41_root_last : forall e, e_next (root e) = None.
Proof. exact root_no_next. Qed.
(** Wrapping keeps the root. *)
Theorem C41_root_wraps : forall o e, wraps o e -> root o = root e.
Proof. exact root_wraps. Qed.

(** Rendering without a stringifier: every element in order, separated by arrows. *)
Theorem C41_message : forall e, message false e = describe e.
Proof. exact message_plain. Qed.
(** With a stringifier the request of the outermost error is added (and only
    that one: nested calls get no stringifier). *)
Theorem C41_message_request : forall c ec n r,
  message true (Err c ec n r) =
  element (Err c ec n r) ++ (match r with Some t => " [" ++ t ++ "]" | None => "" end) ++
  (match n with Some e => " <- " ++ describe e | None => "" end).
Proof. exact message_str. Qed.
Theorem C41_elements : forall str e x, In x (chain e) -> substring_of (element x) (message str e).
Proof. exact message_element. Qed.

(** All documented codes have pairwise different, non-empty texts, none of them
    the text of an unknown code. *)
Theorem C41_texts_distinct : NoDup texts.
Proof. exact texts_distinct. Qed.
Theorem C41_texts_known : forall t, In t texts -> t <> "" /\ t <> "unknown" /\ t <> "unknown shutdown reason".
Proof. exact texts_known. Qed.
Theorem C41_texts_error : forall c, In (ec_text (mk_error c)) texts.
Proof. exact (fun c => in_or_app _ _ _ (or_introl (in_map (fun c => ec_text (mk_error c)) _ _ (all_errors c)))). Qed.
Theorem C41_texts_shutdown : forall c, In (ec_text (mk_shutdown c)) texts.
Proof. exact (fun c => in_or_app _ _ _ (or_intror (in_map (fun c => ec_text (mk_shutdown c)) _ _ (all_shutdowns c)))). Qed.
Theorem C41_error_text_inj : forall c1 c2, ec_text (mk_error c1) = ec_text (mk_error c2) -> c1 = c2.
Proof. exact error_text_inj. Qed.
Theorem C41_shutdown_text_inj : forall c1 c2, ec_text (mk_shutdown c1) = ec_text (mk_shutdown c2) -> c1 = c2.
Proof. exact shutdown_text_inj. Qed.
(** Integers outside the enumerations. *)
Theorem C41_unknown_error : forall z, (z < 0 \/ 11 < z)%Z -> error_text z = "unknown".
Proof. exact error_unknown. Qed.
Theorem C41_unknown_shutdown : forall z, (z < 0 \/ 5 < z)%Z -> shutdown_text z = "unknown shutdown reason".
Proof. exact shutdown_unknown. Qed.
(** Only "success" and "normal" are false as std::error_code. *)
Theorem C41_error_zero : forall c, ec_true (mk_error c) = false <-> c = success.
Proof. exact error_zero. Qed.
Theorem C41_shutdown_zero : forall c, ec_true (mk_shutdown c) = false <-> c = normal.
Proof. exact shutdown_zero. Qed.

(** Non-vacuity. *)
Definition ex_err : err :=
  make_error "sup" (mk_shutdown child_down)
    (Some (make_error "actor" (mk_error failure_escalation)
       (Some (make_error "client" (mk_error request_timeout) None (Some "ping"))) None)) (Some "pong").
Example C41_example :
  message true ex_err =
    "sup supervisor shutdown due to child shutdown policy [pong] <- actor failure escalation <- client request timeout" /\
  e_context (root ex_err) = "client" /\ length (chain ex_err) = 3.
Proof. repeat split. Qed.
Example C41_example_unknown : error_text 12 = "unknown" /\ shutdown_text (-1) = "unknown shutdown reason".
Proof. split; reflexivity. Qed.

Print Assumptions C41_root.
Print Assumptions C41_root_last.
Print Assumptions C41_root_wraps.
Print Assumptions C41_message.
Print Assumptions C41_message_request.
Print Assumptions C41_elements.
Print Assumptions C41_texts_distinct.
Print Assumptions C41_texts_known.
Print Assumptions C41_texts_error.
Print Assumptions C41_texts_shutdown.
Print Assumptions C41_error_text_inj.
Print Assumptions C41_shutdown_text_inj.
Print Assumptions C41_unknown_error.
Print Assumptions C41_unknown_shutdown.
Print Assumptions C41_error_zero.
Print Assumptions C41_shutdown_zero.
