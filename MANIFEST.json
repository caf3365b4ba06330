{
 "claims": [
  {
   "property": "C01",
   "status": "proved",
   "theorems": [
    "C01_fifo"
   ],
   "note": ""
  },
  {
   "property": "C02",
   "status": "proved",
   "theorems": [
    "C02_dispatch",
    "C02_recipients",
    "C02_once",
    "C02_typed",
    "C02_protocol_safe"
   ],
   "note": ""
  },
  {
   "property": "C03",
   "status": "proved",
   "theorems": [
    "C03_conservation",
    "C03_unique",
    "C03_all_delivered",
    "C03_once",
    "C03_only_sent"
   ],
   "note": ""
  },
  {
   "property": "C04",
   "status": "proved",
   "theorems": [
    "C04_hops",
    "C04_once",
    "C04_after",
    "C04_routed_iff"
   ],
   "note": ""
  },
  {
   "property": "C05",
   "status": "proved",
   "theorems": [
    "C05_silent",
    "C05_others_unaffected"
   ],
   "note": ""
  },
  {
   "property": "C06",
   "status": "partial",
   "theorems": [
    "C06_decision",
    "C06_partial",
    "C06_kept",
    "C06_refuted"
   ],
   "note": "A forwarded call is decided at the moment of the call (C06_decision); in every run it only reaches a handler of an actor which is alive and has not begun to deactivate its plugins, for a subscription made before (C06_partial); as long as the user does not call unsubscribe(), for a subscription still in force (C06_kept). After unsubscribe() it does not hold: lifetime keeps the point of a plugin's subscription, so the handler is called again (C06_refuted). unsubscribe() at another address than the actor's works at supervisors only (C67), so the counterexample needs a supervisor as the actor."
  },
  {
   "property": "C07",
   "status": "proved",
   "theorems": [
    "C07_response_order"
   ],
   "note": ""
  },
  {
   "property": "C08",
   "status": "proved",
   "theorems": [
    "C08_at_most_one",
    "C08_late_dropped"
   ],
   "note": ""
  },
  {
   "property": "C09",
   "status": "proved",
   "theorems": [
    "C09_trichotomy",
    "C09_timeout",
    "C09_response",
    "C09_channel",
    "C09_safe"
   ],
   "note": ""
  },
  {
   "property": "C10",
   "status": "proved",
   "theorems": [
    "C10_distinct",
    "C10_matched",
    "C10_timeout_matched"
   ],
   "note": ""
  },
  {
   "property": "C11",
   "status": "proved",
   "theorems": [
    "C11_nothing_left",
    "C11_quiet",
    "C11_others",
    "C11_finish_possible"
   ],
   "note": ""
  },
  {
   "property": "C12",
   "status": "partial",
   "theorems": [
    "C12_shared_partial",
    "C12_not_shared",
    "C12_handler",
    "C12_remap",
    "C12_overlap_refuted"
   ],
   "note": "proved when a request is sent before the next builder of the same actor and type is made; C12_overlap_refuted shows that two builders alive at once subscribe the handler twice, so the unrestricted property fails in the code"
  },
  {
   "property": "C13",
   "status": "proved",
   "theorems": [
    "C13_timer_never_fires_early",
    "C13_timers_fire_in_deadline_order",
    "C13_present",
    "C13_clock",
    "C13_wall_refuted"
   ],
   "note": "loop clock = the clock value cached by the last update_time; hypotheses of the first two theorems: no I/O interception, no cancellation of a timer from inside its own callback (C13_present and C13_clock need neither); C13_wall_refuted: the interval is not kept on the wall clock"
  },
  {
   "property": "C14",
   "status": "proved",
   "theorems": [
    "C14_timers_never_crash",
    "C14_timer_called_back_once",
    "C14_no_overdue_timer_when_idle",
    "C14_known",
    "C14_distinct",
    "C14_once_while_intercepting_refuted",
    "C14_restart_while_intercepting_recurses",
    "C14_self_cancel_refuted"
   ],
   "note": "proved for disciplined use; three theorems show the limits: re-entrant firing while intercepting I/O handlers, and self-cancellation"
  },
  {
   "property": "C15",
   "status": "proved",
   "theorems": [
    "C15_no_lost_wakeup",
    "C15_mutual_exclusion",
    "C15_progress",
    "C15_order",
    "C15_child_stuck",
    "C15_child_refuted"
   ],
   "note": "proved for a loop which owns all its supervisors' queues; C15_child_refuted: an enqueue made through a child supervisor with its own enqueue path is not woken up"
  },
  {
   "property": "C16",
   "status": "proved",
   "theorems": [
    "C16_not_stuck",
    "C16_progress",
    "C16_order",
    "C16_two_contexts_refuted"
   ],
   "note": "one system context; C16_two_contexts_refuted shows that the shared static queue breaks with two"
  },
  {
   "property": "C17",
   "status": "proved",
   "theorems": [
    "C17_registry_refines_map",
    "C17_discovery_finds_current_binding",
    "C17_duplicate_registration_rejected"
   ],
   "note": ""
  },
  {
   "property": "C18",
   "status": "proved",
   "theorems": [
    "C18_dereg_removes_exactly_own_names",
    "C18_dereg_service_removes_exactly_one"
   ],
   "note": ""
  },
  {
   "property": "C19",
   "status": "proved",
   "theorems": [
    "C19_promise_answered_exactly_once",
    "C19_no_promise_pending_for_bound_name"
   ],
   "note": ""
  },
  {
   "property": "C20",
   "status": "proved",
   "theorems": [
    "C20_instances",
    "C20_attempts"
   ],
   "note": ""
  },
  {
   "property": "C21",
   "status": "proved",
   "theorems": [
    "C21_only_allowed",
    "C21_allowed_scheduled"
   ],
   "note": ""
  },
  {
   "property": "C22",
   "status": "partial",
   "theorems": [
    "C22_spaced",
    "C22_attempts_spaced",
    "C22_stale_refuted"
   ],
   "note": "proved when the loop computes deadlines from the current time; C22_stale_refuted: with the cached clock of the thread backend a factory retry may come too early"
  },
  {
   "property": "C23",
   "status": "partial",
   "theorems": [
    "C23_attempts_partial",
    "C23_refuted"
   ],
   "note": "false of the code (C23_refuted: on_spawn never looks at the supervisor's state); C23_attempts_partial bounds the late attempts by the spawn messages already under way"
  },
  {
   "property": "C24",
   "status": "proved",
   "theorems": [
    "C24_edges",
    "C24_monotone",
    "C24_final",
    "C24_start_ignored"
   ],
   "note": "edges and monotonicity hold for actors which are asked to shut down at most once (C30_once shows the supervisor does that); an Example shows what a second request would do"
  },
  {
   "property": "C25",
   "status": "proved",
   "theorems": [
    "C25_once",
    "C25_answers",
    "C25_order",
    "C25_skip",
    "C25_all",
    "C25_state",
    "C25_completes"
   ],
   "note": "the behaviour of the plugins is arbitrary, including nested polling loops; a plugin which switches its reaction on after its turn is not asked (Example C25_too_late)"
  },
  {
   "property": "C26",
   "status": "proved",
   "theorems": [
    "C26_once",
    "C26_answers",
    "C26_order",
    "C26_skip",
    "C26_all",
    "C26_state",
    "C26_completes"
   ],
   "note": "C26_once needs at most one shutdown request (C30_once); C26_answers holds without it"
  },
  {
   "property": "C27",
   "status": "proved",
   "theorems": [
    "C27_first",
    "C27_taken",
    "C27_root"
   ],
   "note": "C27_root covers the wrapping done by child_manager.cpp:402-404 at any depth"
  },
  {
   "property": "C28",
   "status": "proved",
   "theorems": [
    "C28_escalate",
    "C28_autoshutdown",
    "C28_only"
   ],
   "note": ""
  },
  {
   "property": "C29",
   "status": "proved",
   "theorems": [
    "C29_counters",
    "C29_init_vote",
    "C29_shutdown_vote",
    "C29_init",
    "C29_shutdown",
    "C29_resumes",
    "C29_init_refuted"
   ],
   "note": "votes proved under the usage rules of ActorSpec; C29_init_refuted shows why: a resource acquired in the configuration of the starter plugin comes after the resources plugin has voted"
  },
  {
   "property": "C30",
   "status": "proved",
   "theorems": [
    "C30_once"
   ],
   "note": ""
  },
  {
   "property": "C31",
   "status": "proved",
   "theorems": [
    "C31_no_children",
    "C31_no_respawn",
    "C31_vote_asks",
    "C31_vote_timers",
    "C31_start_asks",
    "C31_start_timers",
    "C31_hang_refuted"
   ],
   "note": "stated property proved; C31_hang_refuted: a spawn message answered during shutdown leaves a child nobody asks, so the shutdown never ends"
  },
  {
   "property": "C32",
   "status": "proved",
   "theorems": [
    "C32_vote",
    "C32_sync_not_before",
    "C32_sync_all",
    "C32_continues",
    "C32_race_refuted",
    "C32_late_refuted"
   ],
   "note": "stated property proved; C32_late_refuted: a child made after the start is never started with synchronize_start; C32_race_refuted: a child on another thread answers before its state changes and the parent never continues"
  },
  {
   "property": "C33",
   "status": "partial",
   "theorems": [
    "C33_response_partial",
    "C33_refuted"
   ],
   "note": "false of the code (C33_refuted: remove_child shuts the supervisor down when the failed child is gone); C33_response_partial: the failed answer itself only shuts down that child"
  },
  {
   "property": "C34",
   "status": "proved",
   "theorems": [
    "C34_waits",
    "C34_asked",
    "C34_vote",
    "C34_once",
    "C34_resumes",
    "C34_pending_refuted"
   ],
   "note": "each client asked at most once, only while operational, and waited for. C34_pending_refuted marks the limit: a client still waiting for the start of the server is neither asked nor answered, and the server waits for it with no request under way"
  },
  {
   "property": "C35",
   "status": "proved",
   "theorems": [
    "C35_answers",
    "C35_total",
    "C35_once",
    "C35_start"
   ],
   "note": "Each link request is answered exactly once; the client is assumed to send distinct requests."
  },
  {
   "property": "C36",
   "status": "partial",
   "theorems": [
    "C36_init",
    "C36_reg_failed",
    "C36_disc_failed",
    "C36_link_failed",
    "C36_asked",
    "C36_failed_refuted",
    "C36_late_refuted"
   ],
   "note": "proved for actors which register, discover and link before the registry plugin votes; C36_failed_refuted: after a failed registration another response can complete the same init request a second time; C36_late_refuted: a name registered after the vote of the plugin is not waited for; C36_asked: links, registrations and discoveries are those user code asked for, with their flags"
  },
  {
   "property": "C37",
   "status": "partial",
   "theorems": [
    "C37_vote",
    "C37_known_partial",
    "C37_only",
    "C37_refuted"
   ],
   "note": "proved for names whose registration response arrived; C37_refuted: a name whose registration was sent but not yet confirmed when shutdown starts is never revoked, so the unrestricted property fails in the code"
  },
  {
   "property": "C38",
   "status": "proved",
   "theorems": [
    "C38_validate",
    "C38_created_iff",
    "C38_values",
    "C38_child",
    "C38_root_once",
    "C38_root_second"
   ],
   "note": ""
  },
  {
   "property": "C39",
   "status": "proved",
   "theorems": [
    "C39_same_recipients",
    "C39_idempotent"
   ],
   "note": ""
  },
  {
   "property": "C40",
   "status": "proved",
   "theorems": [
    "C40_one_timer",
    "C40_first_seen",
    "C40_triggered_once",
    "C40_poll"
   ],
   "note": ""
  },
  {
   "property": "C41",
   "status": "proved",
   "theorems": [
    "C41_root",
    "C41_root_last",
    "C41_root_wraps",
    "C41_message",
    "C41_message_request",
    "C41_elements",
    "C41_texts_distinct",
    "C41_texts_known",
    "C41_texts_error",
    "C41_texts_shutdown",
    "C41_error_text_inj",
    "C41_shutdown_text_inj",
    "C41_unknown_error",
    "C41_unknown_shutdown",
    "C41_error_zero",
    "C41_shutdown_zero"
   ],
   "note": ""
  },
  {
   "property": "C42",
   "status": "partial",
   "theorems": [
    "C42_prudent_partial",
    "C42_registered_after_shutdown_refuted",
    "C42_registered_after_failure_refuted",
    "C42_task_linked_after_shutdown_refuted",
    "C42_cancelled_refuted",
    "C42_notified_after_timeout_refuted",
    "C42_shutdown_after_timeout_refuted",
    "C42_timeout_in_shutdown_refuted",
    "C42_found_twice_refuted",
    "C42_released_after_failure_refuted",
    "C42_subscribed_after_failure_refuted",
    "C42_not_held_refuted",
    "C42_linked_twice_refuted",
    "C42_linked_early_refuted",
    "C42_registry_linked_refuted",
    "C42_registered_late_refuted",
    "C42_linked_again_refuted",
    "C42_linked_after_shutdown_refuted",
    "C42_unlinked_before_answer_refuted"
   ],
   "note": "Proved for every prudent use (rules of ActorSafeSpec.v: responses of the registry and link responses arrive while the actor initializes, no link timeout around the shutdown, a server is linked once, \u2026). The unrestricted property is refuted: a run with exactly one imprudent step fails an assertion (or uses an erased task) for each of the rules."
  },
  {
   "property": "C43",
   "status": "proved",
   "theorems": [
    "C43_no_failure",
    "C43_empty",
    "C43_foreign",
    "C43_order",
    "C43_direct_refuted"
   ],
   "note": "Under the stated usage (one handler type per address, other contexts through the starter plugin, one shutdown). Without it an assertion fails (C43_direct_refuted). The other context is assumed not to shut down."
  },
  {
   "property": "C44",
   "status": "partial",
   "theorems": [
    "C44_progress",
    "C44_completes",
    "C44_again_refuted"
   ],
   "note": "Progress and an explicit bound on the number of deliveries, under the rules of use of the model. Not true for every history: subscribing a handler again before its unsubscription is confirmed makes the shutdown hang (C44_again_refuted)."
  },
  {
   "property": "C45",
   "status": "proved",
   "theorems": [
    "C45_requested",
    "C45_kept",
    "C45_names",
    "C45_pending",
    "C45_again_refuted",
    "C45_same_type_refuted"
   ],
   "note": "Under the stated usage; C45_again_refuted and C45_same_type_refuted show what happens without it."
  },
  {
   "property": "C46",
   "status": "partial",
   "theorems": [
    "C46_progress_partial",
    "C46_stale_alias_refuted",
    "C46_tracked_late_refuted"
   ],
   "note": "Proved for prudent and patient use (rules of ActorSafeSpec.v and ActorLiveSpec.v). Without them it is refuted: two names found at one address, the second after the link for the first was answered, leave the initialization waiting with nothing pending (C46_stale_alias_refuted); so does a subscription tracked by a message handler (C46_tracked_late_refuted)."
  },
  {
   "property": "C47",
   "status": "proved",
   "theorems": [
    "C47_not_stuck",
    "C47_progress",
    "C47_order"
   ],
   "note": ""
  },
  {
   "property": "C48",
   "status": "partial",
   "theorems": [
    "C48_not_stuck_partial",
    "C48_progress_partial",
    "C48_order",
    "C48_refuted"
   ],
   "note": "Proved when messages are enqueued to supervisors whose async watcher is active; C48_order holds without it. Refuted otherwise: a message of another thread for an address made by a child supervisor that has shut down stays in the leader's inbound queue with the loop idle (C48_refuted)."
  },
  {
   "property": "C49",
   "status": "proved",
   "theorems": [
    "C49_safe",
    "C49_once",
    "C49_never_again",
    "C49_waits",
    "C49_fires",
    "C49_self_cancel_refuted",
    "C49_unknown_timer_refuted"
   ],
   "note": "For all four backends, under the stated rule; C49_self_cancel_refuted and C49_unknown_timer_refuted show what happens without it."
  },
  {
   "property": "C50",
   "status": "proved",
   "theorems": [
    "C50_references",
    "C50_self_cancel_refuted"
   ],
   "note": "Under the rule of C49; C50_self_cancel_refuted shows the double release without it."
  },
  {
   "property": "C51",
   "status": "partial",
   "theorems": [
    "C51_processed_partial",
    "C51_order",
    "C51_fltk_refuted"
   ],
   "note": "Proved for asio, ev and wx (the order for all). Refuted for fltk: on_timeout does not process the queue (the call is commented out), so the messages wait until something else does (C51_fltk_refuted)."
  },
  {
   "property": "C52",
   "status": "proved",
   "theorems": [
    "C52_safe",
    "C52_agrees",
    "C52_trigger_refuted",
    "C52_timeout_refuted",
    "C52_overtake_refuted"
   ],
   "note": "Full model of a supervisor with its children and queues (FamilyModel); the three rules (`orderly`) are each shown to be needed by a reachable crash: C52_trigger_refuted, C52_timeout_refuted, C52_overtake_refuted."
  },
  {
   "property": "C53",
   "status": "proved",
   "theorems": [
    "C53_asked",
    "C53_removed",
    "C53_listed",
    "C53_waits",
    "C53_order",
    "C53_timeout_refuted"
   ],
   "note": "Under the rules of C52. C53_timeout_refuted: a child which does not answer in time is off the list while it runs."
  },
  {
   "property": "C54",
   "status": "proved",
   "theorems": [
    "C54_init",
    "C54_self",
    "C54_trigger",
    "C54_do_shutdown"
   ],
   "note": "Under the rules of C52 (`orderly`). Progress stated at settled states: no message under way and the supervisor still subscribed."
  },
  {
   "property": "C55",
   "status": "proved",
   "theorems": [
    "C55_safe",
    "C55_exact",
    "C55_subscribed",
    "C55_subscribe_refuted",
    "C55_forget_refuted"
   ],
   "note": "Under the stated rule (`calm`). C55_subscribe_refuted and C55_forget_refuted: without it the range-for over the vector of handlers is undefined behaviour. The teardown of the lifetime plugin, which forgets its own subscription while it is called through it, keeps the rule (C55_last)."
  },
  {
   "property": "C56",
   "status": "proved",
   "theorems": [
    "C56_safe",
    "C56_mirror",
    "C56_order",
    "C56_subtree",
    "C56_asked",
    "C56_escalates",
    "C56_down",
    "C56_init",
    "C56_late_refuted"
   ],
   "note": "Under the rules of C52 at every node and `timely` (no child created after the agreement): C56_late_refuted shows a child which survives its supervisor without it."
  },
  {
   "property": "C57",
   "status": "partial",
   "theorems": [
    "C57_safe_partial",
    "C57_agree",
    "C57_same",
    "C57_all_down",
    "C57_server_down",
    "C57_ends",
    "C57_ring_refuted",
    "C57_row_refuted",
    "C57_waiting_refuted",
    "C57_self_refuted",
    "C57_timeout_refuted",
    "C57_relink_refuted",
    "C57_answer_refuted"
   ],
   "note": "C57_safe_partial: without the rules (link timeouts, late answers, links to oneself) it does not hold, see C57_relink_refuted, C57_answer_refuted, C57_timeout_refuted, C57_self_refuted. The other theorems are about all nets reached under the rules. Circles, clients with clients and clients of a server which never started block the end: C57_ring_refuted, C57_row_refuted, C57_waiting_refuted."
  },
  {
   "property": "C58",
   "status": "partial",
   "theorems": [
    "C58_runs",
    "C58_leader",
    "C58_default",
    "C58_found",
    "C58_found_default",
    "C58_turn",
    "C58_turn_system",
    "C58_tag_partial",
    "C58_tag_refuted",
    "C58_lost_refuted",
    "C58_mixed_refuted"
   ],
   "note": "C58_tag_refuted: an actor below a child supervisor of the same locality cannot tag a subscription (assertion in update). C58_lost_refuted, C58_mixed_refuted: two supervisors of one locality with different leaders lose messages. The exact conditions are proved."
  },
  {
   "property": "C59",
   "status": "partial",
   "theorems": [
    "C59_net",
    "C59_safe_partial",
    "C59_owner",
    "C59_exclusive",
    "C59_found",
    "C59_known",
    "C59_nothing_left",
    "C59_under_way",
    "C59_answered",
    "C59_withdrawn",
    "C59_stale_refuted",
    "C59_late_refuted",
    "C59_cancel_refuted"
   ],
   "note": "Proved for all runs which do not end in a failed assertion; C59_safe_partial shows that no assertion fails under the rules of C57 (partial: these rules are assumptions; C42 and C57 show what happens without them). Refuted: a name stays registered for an actor which is gone when the answer came too late (C59_stale_refuted) or after the request timed out (C59_late_refuted), so that a discovery finds a dead actor; cancelling a promise which is fulfilled already is answered by nobody (C59_cancel_refuted)."
  },
  {
   "property": "C60",
   "status": "partial",
   "theorems": [
    "C60_counts",
    "C60_held",
    "C60_freed",
    "C60_safe_partial",
    "C60_variables",
    "C60_kept",
    "C60_nothing_left",
    "C60_ends",
    "C60_sole",
    "C60_route_partial",
    "C60_route_refuted",
    "C60_dangling_refuted",
    "C60_destructor_refuted",
    "C60_loop_refuted",
    "C60_redirect_refuted"
   ],
   "note": "Proved for all interleavings of the functions listed in MemModel.v. C60_safe_partial assumes that what is reached by plain references (supervisor of an address or of an actor) is alive; C60_route_partial assumes that no thread comes between the test of the counter and the release. Refuted: a routed message can be lost (C60_route_refuted), a message to a supervisor which is gone writes into freed memory (C60_dangling_refuted), the destructor of a supervisor can enqueue to itself (C60_destructor_refuted), a message can keep the supervisor in whose queue it is (C60_loop_refuted), redirect writes to a message others have (C60_redirect_refuted)."
  },
  {
   "property": "C61",
   "status": "proved",
   "theorems": [
    "C61_safe",
    "C61_parts",
    "C61_agree",
    "C61_asked",
    "C61_removed",
    "C61_order",
    "C61_ends",
    "C61_votes",
    "C61_ring_refuted"
   ],
   "note": "The supervisor of Family*.v and the actors of Net*.v as one system: the states of the children are no longer free, each is an actor with its plugins. Rule of the system besides those of C54 and C57: an actor answers the init request once (answers_once), because otherwise C36_failed_refuted. C61_ring_refuted: with a ring of links the supervisor never ends."
  },
  {
   "property": "C62",
   "status": "proved",
   "theorems": [
    "C62_safe",
    "C62_parts",
    "C62_places",
    "C62_who",
    "C62_agree",
    "C62_asked",
    "C62_removed",
    "C62_order",
    "C62_ends",
    "C62_progress",
    "C62_ring_refuted"
   ],
   "note": "The tree of C56 and the net of C57 as one system; C61 is the case of one supervisor. C62_cascade: only a lower supervisor is told to end, and the client of its actor under the root ends with it, while the root goes on. C62_ring_refuted: a ring of links across supervisors keeps the whole tree from ending."
  },
  {
   "property": "C63",
   "status": "proved",
   "theorems": [
    "C63_links",
    "C63_client",
    "C63_server",
    "C63_pair",
    "C63_net",
    "C63_stops"
   ],
   "note": "About ActorModel.v and NetModel.v as they are, without rules of use. C63_exact: one link takes exactly four messages, so the bound is exact."
  },
  {
   "property": "C64",
   "status": "proved",
   "theorems": [
    "C64_moves",
    "C64_limited",
    "C64_stops",
    "C64_endless"
   ],
   "note": "About FamilyModel.v as it is, without rules of use. C64_endless shows that births have to be counted: a spawner without pause and limit keeps do_process from returning."
  },
  {
   "property": "C65",
   "status": "proved",
   "theorems": [
    "C65_moves",
    "C65_sups",
    "C65_limited",
    "C65_stops"
   ],
   "note": "About TreeModel.v (C56). C65_sups and the part of C65_limited about supervisors assume the rules of use of C56 (tidy), the rest none."
  },
  {
   "property": "C66",
   "status": "partial",
   "theorems": [
    "C66_alive",
    "C66_freed",
    "C66_exact",
    "C66_table",
    "C66_async_refuted",
    "C66_forward_refuted",
    "C66_dangling_refuted"
   ],
   "note": "About LoopCallModel.v. Proved (C66_alive, C66_freed) for callbacks which keep to a stated demand, under the rule that an actor with an operation under way holds a resource; the demand is exact (C66_exact) and two callbacks of the code break it (C66_async_refuted, C66_forward_refuted); C66_dangling_refuted shows that the rule of resources is needed."
  },
  {
   "property": "C67",
   "status": "partial",
   "theorems": [
    "C67_plain_refuted",
    "C67_found",
    "C67_own",
    "C67_safe",
    "C67_count",
    "C67_signature_refuted",
    "C67_twice_refuted"
   ],
   "note": "About UnsubModel.v. Proved for supervisors and for unsubscription by handler object (C67_found, C67_own, C67_safe, C67_count). Not true for unsubscription by method at any other actor, which always fails an assertion (C67_plain_refuted, for all runs), for methods of one signature (C67_signature_refuted) and for a second request before the confirmation (C67_twice_refuted)."
  },
  {
   "property": "C68",
   "status": "partial",
   "theorems": [
    "C68_safe",
    "C68_chained",
    "C68_tracked",
    "C68_removed",
    "C68_clean",
    "C68_once",
    "C68_balance",
    "C68_on",
    "C68_drains",
    "C68_end",
    "C68_stale_refuted",
    "C68_two_refuted"
   ],
   "note": "About ReplyMapModel.v. Proved for requests sent in turn: no two builders of one actor with one type of response both waiting to be sent for the first time (C68_safe, C68_tracked, C68_removed, C68_clean, C68_once, C68_balance, C68_on, C68_drains, C68_end); building and sending in one go is always in turn (C68_chained). Not true otherwise: the handler of the second is not in the map and stays after the end of the child (C68_stale_refuted), and the shutdown of the supervisor then terminates the program by an exception in a noexcept function (C68_two_refuted)."
  },
  {
   "property": "C69",
   "status": "partial",
   "theorems": [
    "C69_calls",
    "C69_ends",
    "C69_ends_strict",
    "C69_elsewhere",
    "C69_alone",
    "C69_erase",
    "C69_erase_last",
    "C69_subscribe_refuted",
    "C69_alone_strict_refuted",
    "C69_called_after_refuted",
    "C69_skipped_refuted"
   ],
   "note": "Companion of C55 (which says when deliveries are safe, for any growth of vectors): here with the doubling of real vectors and the slots beyond the size, so that the condition is exact and the calls after an erasure are known. About IterModel.v. Proved: the exact condition under which a delivery whose handlers subscribe ends, and who is called then (C69_calls, C69_ends, C69_ends_strict); no harm by subscriptions elsewhere (C69_elsewhere) or by a single handler (C69_alone); the exact calls when one call forgets a handler (C69_erase), all right for the last call (C69_erase_last). Not true in general: with two handlers of which the first makes a third subscribe to the same address and type the loop reads freed memory (C69_subscribe_refuted); a single one which does so leaves an invalid iterator which is compared (C69_alone_strict_refuted); a handler forgotten meanwhile is called (C69_called_after_refuted), or the next skipped and the last called twice (C69_skipped_refuted)."
  },
  {
   "property": "C70",
   "status": "partial",
   "theorems": [
    "C70_agree",
    "C70_safe",
    "C70_reaches",
    "C70_same_name",
    "C70_anonymous_refuted",
    "C70_early_refuted",
    "C70_stale_refuted",
    "C70_null_refuted",
    "C70_reload_refuted",
    "C70_reuse_refuted"
   ],
   "note": "About TypesModel.v. Proved under the conditions of the quantifier (C70_agree, C70_safe, C70_reaches); with two types of one name a handler takes a message for another type, always (C70_same_name). Not true outside: types of one name in unnamed namespaces (C70_anonymous_refuted), messages or handlers made before static initialisation are lost or taken for others (C70_early_refuted, C70_stale_refuted, C70_null_refuted), a library loaded again elsewhere makes the map read a text which is gone (C70_reload_refuted), and another library loaded in its place gets a pointer in use (C70_reuse_refuted)."
  },
  {
   "property": "C71",
   "status": "proved",
   "theorems": [
    "C71_chains",
    "C71_kind",
    "C71_end",
    "C71_nested",
    "C71_braces",
    "C71_quotes",
    "C71_quotes_refuted",
    "C71_levels",
    "C71_dump",
    "C71_more",
    "C71_same",
    "C71_prints",
    "C71_first"
   ],
   "note": "About DumpModel.v (C71_chains, C71_kind, C71_end, C71_nested, C71_braces, C71_levels, C71_dump, C71_more, C71_same, C71_prints, C71_first). Besides: quotes come in pairs (C71_quotes) except in the text of a registration request, where the closing one is missing (C71_quotes_refuted)."
  },
  {
   "property": "C72",
   "status": "proved",
   "theorems": [
    "C72_actor",
    "C72_moves",
    "C72_sups",
    "C72_cascades",
    "C72_limited",
    "C72_stops"
   ],
   "note": "About WorldModel.v (C72_actor, C72_moves, C72_sups, C72_cascades, C72_limited, C72_stops); C63 and C65 put together. The answers of the registry count as actions from outside."
  },
  {
   "property": "C73",
   "status": "partial",
   "theorems": [
    "C73_ends",
    "C73_lost",
    "C73_exact",
    "C73_punctual",
    "C73_told",
    "C73_driven",
    "C73_stuck_refuted",
    "C73_told_refuted"
   ],
   "note": "About FamilyModel.v, orderly runs (C52). Full for supervisors without a lost spawner (C73_ends, C73_exact, C73_driven, C73_punctual); the code violates the rest (C73_stuck_refuted: a restart timer which fires during the shutdown; C73_told_refuted: a factory which fails during the shutdown)."
  },
  {
   "property": "C74",
   "status": "partial",
   "theorems": [
    "C74_ends",
    "C74_lost",
    "C74_exact",
    "C74_punctual",
    "C74_late",
    "C74_vote",
    "C74_stuck_refuted"
   ],
   "note": "About TreeModel.v, tidy runs (C56). Full for trees without a lost spawner (C74_ends, C74_exact, C74_punctual); the code violates the rest (C74_stuck_refuted: one timer at the lowest supervisor keeps the root from ending for ever)."
  },
  {
   "property": "C75",
   "status": "proved",
   "theorems": [
    "C75_told",
    "C75_last",
    "C75_objects",
    "C75_tree"
   ],
   "note": "About FamilyModel.v and TreeModel.v, orderly (C52) and tidy (C56) runs. Told means actor->init_continue() is called; that the remaining plugins then agree is C25 and C36, not here."
  },
  {
   "property": "C76",
   "status": "partial",
   "theorems": [
    "C76_removed",
    "C76_self",
    "C76_failed_partial",
    "C76_continue_refuted",
    "C76_silent_refuted"
   ],
   "note": "About ChildMgrModel.v. The documented meaning of both policies is violated: shutdown_failed (shutdown a failed child and continue initialization) ends the supervisor when the failed child leaves (C76_continue_refuted, C33_refuted; a test of the project expects this, so the text is wrong), and shutdown_self forgets a child which ends before the init request of the supervisor arrives (C76_silent_refuted). C76_failed_partial speaks only of the moment of the answer."
  },
  {
   "property": "C77",
   "status": "partial",
   "theorems": [
    "C77_steady",
    "C77_seconds",
    "C77_seconds_long",
    "C77_limit",
    "C77_wx_partial",
    "C77_wx_early_refuted",
    "C77_wx_long_refuted",
    "C77_even",
    "C77_whole",
    "C77_shift",
    "C77_delay",
    "C77_summer_refuted"
   ],
   "note": "About IntervalModel.v. wx truncates to milliseconds, so it fires early (C77_wx_early_refuted; C77_wx_partial is what holds), and intervals from 24.8 days on become negative (C77_wx_long_refuted). The local clock of a spawner jumps with daylight saving time (C77_summer_refuted). Doubles are modelled as integers times powers of two, rounded to 53 bits, without limits of the exponent."
  },
  {
   "property": "C78",
   "status": "proved",
   "theorems": [
    "C78_starts",
    "C78_peace",
    "C78_open",
    "C78_request"
   ],
   "note": "About FamilyModel.v. The way is shown to exist from every such state, and to stay open under every choice of steps (C78_open); that the messages run out is C64. What happens when somebody ends is C75 and C76."
  },
  {
   "property": "C79",
   "status": "proved",
   "theorems": [
    "C79_starts",
    "C79_ready",
    "C79_peace",
    "C79_open"
   ],
   "note": "About TreeModel.v. The way is shown to exist from every such state, and to stay open (C79_open). That child supervisors are told to start by their parents is not part of the claim: the operation TStarted of the model is free."
  },
  {
   "property": "C80",
   "status": "partial",
   "theorems": [
    "C80_safe",
    "C80_once",
    "C80_same",
    "C80_root",
    "C80_exact",
    "C80_user_refuted",
    "C80_roots_refuted",
    "C80_gone_refuted"
   ],
   "note": "Proved for uses which create the root first (C80_safe, C80_once, C80_same); in any use the crashing steps are named exactly (C80_exact); refuted in general (C80_user_refuted, C80_roots_refuted, C80_gone_refuted). Reads and writes of pointers are taken as atomic and sequentially consistent; by the standard of C++ an unguarded race is undefined anyhow."
  },
  {
   "property": "C81",
   "status": "partial",
   "theorems": [
    "C81_told",
    "C81_self",
    "C81_top",
    "C81_root",
    "C81_free_refuted"
   ],
   "note": "About TreeModel.v with the rule [told]: an actor below the root starts only after its supervisor has sent the trigger. Proved for synchronized start on the whole way (C81_top, C81_root); without it refuted by a run (C81_free_refuted), as the code intends."
  },
  {
   "property": "C82",
   "status": "partial",
   "theorems": [
    "C82_all",
    "C82_free_all",
    "C82_init",
    "C82_once",
    "C82_free",
    "C82_late",
    "C82_created_late_refuted",
    "C82_respawned_late_refuted",
    "C82_silent",
    "C82_told_early_refuted"
   ],
   "note": "About TreeModel.v with the rule [told] for starts. The positive part needs that no supervisor with synchronized start has started (C82_all, C82_init, C82_once, C82_free); without synchronized start it always holds (C82_free_all). Without that premise it is false: C82_late proves that late children are never started, C82_created_late_refuted and C82_respawned_late_refuted give runs in which nothing is under way and an actor waits for ever."
  },
  {
   "property": "C83",
   "status": "proved",
   "theorems": [
    "C83_once",
    "C83_family",
    "C83_tree",
    "C83_free",
    "C83_sync"
   ],
   "note": "C83_once is about ChildMgrModel.v without any rule; C83_free and C83_sync are about FamilyModel.v, the latter with the rule that a supervisor is initialized only when its child manager agrees. Actors created later are excluded by the statement, see C82_told_early_refuted."
  }
 ]
}