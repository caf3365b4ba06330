{"id": "C01", "title": "Per-sender FIFO message order", "statement": "If code running in one execution context (locality) sends message m1 and later m2, both to addresses served by one (possibly other) locality, then m1 is handed to the subscribers of its address before m2 is handed to the subscribers of its address; messages of other senders may be interleaved, but never reorder the two.", "quantifier": "every number of localities and addresses, every interleaving of sends, inbound transfers and dispatch steps, every message history", "why_tests_cant": "A unit test fixes one schedule; the guarantee is about every interleaving of senders, inbound-queue drains and dispatch loops.", "anchors": ["include/rotor/supervisor.h:put", "include/rotor/supervisor.h:delivery_plugin_t::process", "src/rotor/thread/supervisor_thread.cpp:enqueue", "docs/Design.md (per-sender-FIFO)"]}
{"id": "C02", "title": "A message reaches exactly the current subscribers", "statement": "When a message for an address of the local context is dispatched, it is handed exactly once to every handler that is subscribed to (address, message type) at that moment, in subscription order inside each group (handlers of other contexts first, as forwarded calls; own handlers next), and to nobody else; with no subscriber it is silently dropped and nothing else changes.", "quantifier": "every history of subscribe / unsubscribe operations, every address, message type and set of handlers", "why_tests_cant": "The subscriber set is the result of an arbitrary history of (un)subscriptions; tests try a few handlers.", "anchors": ["src/rotor/subscription.cpp:materialize", "src/rotor/subscription.cpp:forget", "src/rotor/subscription.cpp:get_recipients", "src/rotor/plugin/delivery.cpp:local_delivery_t::delivery"]}
{"id": "C03", "title": "No message is lost or duplicated by the messaging core", "statement": "Every message put into a queue or enqueued to another context is, at any later moment, either still pending in exactly one queue or has been dispatched exactly once (forwarded to the owner context, handed to subscribers or dropped for lack of them).", "quantifier": "every history of sends, external enqueues, transfers and dispatch steps over any number of contexts", "why_tests_cant": "Conservation over unbounded interleavings cannot be enumerated by tests.", "anchors": ["include/rotor/supervisor.h:delivery_plugin_t::process", "include/rotor/supervisor.h:put", "src/rotor/thread/system_context_thread.cpp:check"]}
{"id": "C04", "title": "Routed messages reach the second address once, after the first", "statement": "A message sent with route(addr, next_addr) is first dispatched to addr; when all local recipients have processed it and nobody keeps it, it is dispatched to next_addr exactly once, with no further hop; if a recipient still keeps the message at that moment (for instance inside a call forwarded to another context), this dispatcher does not route it on.", "quantifier": "every message, every set of local and foreign subscribers, every queue content", "why_tests_cant": "The post-delivery hop depends on who holds the message at the end of dispatch; tests check two configurations.", "anchors": ["include/rotor/supervisor.h:delivery_plugin_t::process", "include/rotor/message.h:make_routed_message", "src/rotor/actor_base.cpp:redirect"]}
{"id": "C05", "title": "Unsubscribed handlers receive nothing", "statement": "After an unsubscription has been committed, no later dispatched message is handed to that handler for that address (unless it was subscribed again), and the other subscriptions of the address are unaffected.", "quantifier": "every history of subscriptions and unsubscriptions, every later message", "why_tests_cant": "The claim is about every later message after every history.", "anchors": ["src/rotor/subscription.cpp:forget", "src/rotor/supervisor.cpp:commit_unsubscription", "src/rotor/plugin/lifetime.cpp:handle_unsubscription"]}
{"id": "C06", "title": "Messages from other contexts are only delivered to living, subscribed actors", "statement": "A call forwarded from another context invokes the handler only if its actor is alive in the receiving supervisor, not shut down and still subscribed with that handler to the original address at the moment of the call; otherwise the message is dropped without effect.", "quantifier": "every forwarded call, every state of the receiving supervisor", "why_tests_cant": "The race between a forwarded call and the target's shutdown/unsubscription has unboundedly many interleavings.", "anchors": ["src/rotor/plugin/foreigners_support.cpp:on_call"]}
{"id": "C07", "title": "Responses keep their place in the message order", "statement": "If a server sends m1, a response r, and m2 to the same client context, the client sees m1, r, m2 in that order, although the response travels through an intermediate supervisor-owned address.", "quantifier": "every interleaving of ordinary messages, responses and other traffic", "why_tests_cant": "The re-queueing of responses happens at run time and depends on everything else in the queue.", "anchors": ["include/rotor/supervisor.h:request_builder_t::install_handler", "src/rotor/supervisor.cpp:uplift_last_message"]}
{"id": "C08", "title": "At most one response per request", "statement": "For every request, its requester is handed at most one final outcome message (response, error response, or timeout), however many replies are sent; replies after the first outcome are dropped silently.", "quantifier": "every history of requests, replies (including duplicates and late ones), timer expirations and cancellations", "why_tests_cant": "Duplicated or late replies race with the timer in arbitrarily many ways.", "anchors": ["include/rotor/supervisor.h:request_builder_t::install_handler", "src/rotor/supervisor.cpp:on_request_trigger", "src/rotor/supervisor.cpp:discard_request"]}
{"id": "C09", "title": "A request is never left without an outcome", "statement": "At every moment a sent request is in exactly one of three situations: outstanding with a running timeout timer, finished with exactly one outcome message sent to its reply address, or cancelled; so when its timer fires while outstanding, the requester is sent a timeout error carrying the original request.", "quantifier": "every history of requests, replies, timer events and cancellations", "why_tests_cant": "Liveness bookkeeping over all histories is not reachable by example runs.", "anchors": ["include/rotor/supervisor.h:request_builder_t::send", "src/rotor/supervisor.cpp:on_request_trigger", "include/rotor/request.hpp:make_error_response"]}
{"id": "C10", "title": "Outstanding requests have distinct identifiers", "statement": "Identifiers of simultaneously outstanding requests and timers started through one context are pairwise distinct as long as fewer than 2^64 identifiers have been handed out; in particular a response can never be matched with another request.", "quantifier": "every history of at most 2^64-1 identifier allocations, any number of supervisors in the context", "why_tests_cant": "No test can allocate 2^64 identifiers or try all interleavings of supervisors sharing one counter.", "anchors": ["include/rotor/supervisor.h:next_request_id", "include/rotor/supervisor.h:request_builder_t::send"]}
{"id": "C11", "title": "Requests of a finished actor produce no messages", "statement": "When an actor finishes shutdown, all its timers and outstanding requests are cancelled: none of them fires later or produces a message, and the requests and timers of other actors are left as they were.", "quantifier": "every set of timers and outstanding requests at shutdown", "why_tests_cant": "The set of pending timers/requests at shutdown is unbounded.", "anchors": ["src/rotor/actor_base.cpp:shutdown_finish", "src/rotor/supervisor.cpp:on_request_trigger", "src/rotor/actor_base.cpp:on_timer_trigger"]}
{"id": "C12", "title": "One reply channel per actor and response type", "statement": "All requests an actor makes for one response type share one intermediate reply address; different actors or different response types never share one; after the mapping is removed a new one can be created.", "quantifier": "every history of requests and removals", "why_tests_cant": "Sharing must hold for every combination of actors and types over every history.", "anchors": ["src/rotor/address_mapping.cpp:set", "src/rotor/address_mapping.cpp:get_mapped_address", "src/rotor/address_mapping.cpp:remove"]}
{"id": "C13", "title": "Thread backend: timers fire in deadline order, not early", "statement": "With the std::thread backend a timer never fires before its interval has elapsed on the loop clock; expired timers fire in the order of deadlines, equal deadlines in the order they were started. A timer which is started in a blocking handler counts from the moment of the call; any other counts from the last clock reading of the loop, which may lie before the call, so its interval since the call can be cut short. The loop clock is never ahead of the wall clock.", "quantifier": "every history of start / cancel / clock advance, any number of timers", "why_tests_cant": "Ordering over arbitrary sets of deadlines and clock readings.", "anchors": ["src/rotor/thread/system_context_thread.cpp:update_time", "src/rotor/thread/system_context_thread.cpp:start_timer"]}
{"id": "C14", "title": "Thread backend: a timer ends exactly once", "statement": "Every started timer gets exactly one callback: either expired or cancelled, never both and never twice, and when the clock passes all deadlines every timer has had its callback. Whatever the use, while the run goes on each node of the list has a handler which its owner still holds, and no timer has two nodes.", "quantifier": "every history of start / cancel / clock advance where callbacks may start and cancel other timers", "why_tests_cant": "Re-entrancy of callbacks creates unboundedly many nestings.", "anchors": ["src/rotor/thread/system_context_thread.cpp:update_time", "src/rotor/thread/system_context_thread.cpp:cancel_timer", "src/rotor/actor_base.cpp:on_timer_trigger"]}
{"id": "C15", "title": "Thread backend: no lost wake-up", "statement": "The event loop never sleeps indefinitely on a message that has been completely enqueued by another thread: whenever the loop is asleep, the inbound queue is non-empty and no enqueuer is still between its push and its notification, a wake-up is already pending.", "quantifier": "every interleaving of any number of enqueuing threads with the loop", "why_tests_cant": "A lost wake-up shows only in specific interleavings of push, lock, notify, check and wait.", "anchors": ["src/rotor/thread/system_context_thread.cpp:run", "src/rotor/thread/supervisor_thread.cpp:enqueue"]}
{"id": "C16", "title": "FLTK backend: no lost wake-up", "statement": "With one FLTK system context, whenever no enqueue call is in progress and the FLTK callback is neither scheduled nor running, the inbound queue is empty: no message can get stuck.", "quantifier": "every interleaving of any number of enqueuing threads with the callback", "why_tests_cant": "The push / counter protocol is only wrong, if at all, in rare interleavings.", "anchors": ["src/rotor/fltk/system_context_fltk.cpp:enqueue", "src/rotor/fltk/system_context_fltk.cpp:_callback"]}
{"id": "C17", "title": "Registry names are unique and behave like a map", "statement": "A name is bound to at most one address; registering an already registered name fails with already_registered and leaves the binding untouched; a discovery answers with exactly the address of the last successful, not yet revoked registration, or unknown_service.", "quantifier": "every history of registrations, deregistrations, discoveries, promises and cancellations", "why_tests_cant": "Map behaviour is a statement about all histories.", "anchors": ["src/rotor/registry.cpp:on_reg", "src/rotor/registry.cpp:on_discovery", "src/rotor/registry.cpp:on_dereg_service", "src/rotor/registry.cpp:on_dereg"]}
{"id": "C18", "title": "Deregistering an address removes exactly its names", "statement": "Deregistration of a service address removes all and only the names currently bound to that address; deregistration of one name removes exactly that name; unknown names and addresses are ignored.", "quantifier": "every registry history, every address and name", "why_tests_cant": "The reverse index must agree with the bindings after every history.", "anchors": ["src/rotor/registry.cpp:on_dereg", "src/rotor/registry.cpp:on_dereg_service"]}
{"id": "C19", "title": "Discovery promises are answered exactly once and never forgotten", "statement": "Each discovery promise is answered exactly once: immediately if the name is registered, otherwise when the name becomes registered (with the address just registered) or with a cancellation error when its requester cancels it; no promise stays pending for a registered name.", "quantifier": "every registry history, every number of pending promises", "why_tests_cant": "Unbounded pending lists and interleavings of register/cancel.", "anchors": ["src/rotor/registry.cpp:on_promise", "src/rotor/registry.cpp:on_cancel", "src/rotor/registry.cpp:on_reg"]}
{"id": "C20", "title": "Spawner: bounded number of instances", "statement": "With max_attempts = n > 0 a spawner starts at most n actor instances over its whole life; with restart policy `never` at most one.", "quantifier": "every policy, limit, history of child terminations, factory failures and timers", "why_tests_cant": "Tests use limits of one or two; the bound is claimed for every limit and history.", "anchors": ["src/rotor/detail/child_info.cpp:spawn_attempt", "src/rotor/detail/child_info.cpp:next_spawn", "src/rotor/plugin/child_manager.cpp:on_spawn"]}
{"id": "C21", "title": "Spawner: restart policy is respected", "statement": "A new instance is started after a termination only if the policy allows it: always - always; never - never; fail_only - only after an abnormal termination; normal_only - only after a normal one; ask_actor - only if the terminated actor asked for it; once refused, a spawner never restarts again.", "quantifier": "every policy, attempt counter, limit, escalation setting and termination kind", "why_tests_cant": "Full decision table times all histories.", "anchors": ["src/rotor/detail/child_info.cpp:next_spawn", "include/rotor/policy.h", "src/rotor/plugin/child_manager.cpp:remove_child"]}
{"id": "C22", "title": "Spawner: restarts are spaced by the restart period", "statement": "Two consecutive instances of one spawner are started at least restart_period apart, measured between instantiations.", "quantifier": "every history of terminations, factory failures and timer events on a monotone clock", "why_tests_cant": "Time gaps over all histories.", "anchors": ["src/rotor/detail/child_info.cpp:next_spawn", "src/rotor/plugin/child_manager.cpp:remove_child", "src/rotor/plugin/child_manager.cpp:on_spawn_timer"]}
{"id": "C23", "title": "Spawner: no new instances while the supervisor shuts down", "statement": "A spawner never creates a new actor instance when its supervisor is shutting down or shut down.", "quantifier": "every interleaving of spawn requests, terminations, timers and supervisor shutdown", "why_tests_cant": "Depends on the order of messages already queued when the shutdown starts.", "anchors": ["include/rotor/spawner.h (class comment)", "src/rotor/plugin/child_manager.cpp:on_spawn", "src/rotor/plugin/child_manager.cpp:on_spawn_timer", "src/rotor/plugin/child_manager.cpp:remove_child"]}
{"id": "C24", "title": "Actor life cycle is monotone", "statement": "The state of an actor only moves forward along NEW, INITIALIZING, INITIALIZED, OPERATIONAL, SHUTTING_DOWN, SHUT_DOWN (skipping allowed only towards shutdown); it never returns to an earlier state, and a start signal is ignored unless the actor is INITIALIZED.", "quantifier": "every history of system messages, plugin votes and user actions", "why_tests_cant": "All orders of init, link, subscription, resource and shutdown events.", "anchors": ["src/rotor/actor_base.cpp:init_continue", "src/rotor/actor_base.cpp:init_finish", "src/rotor/actor_base.cpp:shutdown_start", "src/rotor/actor_base.cpp:shutdown_finish", "src/rotor/plugin/starter.cpp:on_start", "include/rotor/state.h"]}
{"id": "C25", "title": "Initialization is confirmed only when every plugin agreed", "statement": "An actor confirms initialization exactly once, and only after every plugin asked for a vote has agreed; plugins are asked in declaration order and a plugin is not asked before all earlier ones agreed.", "quantifier": "every list of plugins and every behaviour of their votes over time", "why_tests_cant": "The vote sequences are unbounded and user extensible.", "anchors": ["src/rotor/actor_base.cpp:init_continue", "src/rotor/plugin/init_shutdown.cpp:on_init"]}
{"id": "C26", "title": "Shutdown is confirmed only when every plugin agreed, in reverse order", "statement": "An actor reaches SHUT_DOWN and confirms the shutdown request at most once, only after every plugin asked for a vote has agreed; plugins are asked in reverse declaration order and a plugin is not asked before all later ones agreed.", "quantifier": "every list of plugins and every behaviour of their votes over time", "why_tests_cant": "The vote sequences are unbounded and user extensible.", "anchors": ["src/rotor/actor_base.cpp:shutdown_continue", "src/rotor/actor_base.cpp:shutdown_finish"]}
{"id": "C27", "title": "Shutdown reason: first wins and the cause chain is preserved", "statement": "Once an actor has a shutdown reason it is never replaced; a reason forwarded by a supervisor to its children keeps the original cause as the root of the error chain.", "quantifier": "every sequence of shutdown triggers and requests, chains of any length", "why_tests_cant": "Unbounded chains and sequences.", "anchors": ["src/rotor/actor_base.cpp:assign_shutdown_reason", "src/rotor/extended_error.cpp:root", "src/rotor/plugin/child_manager.cpp:request_shutdown"]}
{"id": "C28", "title": "Failure escalation and autoshutdown decisions", "statement": "When an actor without a spawner starts shutting down, it asks its supervisor to shut down iff autoshutdown_supervisor is set, or escalate_failure is set and the root cause of its shutdown is a real error (non-zero code); an actor with a spawner never does so by itself.", "quantifier": "every combination of flags and every shutdown reason chain", "why_tests_cant": "All flag combinations times arbitrary reason chains.", "anchors": ["src/rotor/actor_base.cpp:shutdown_start"]}
{"id": "C29", "title": "Held resources block initialization and shutdown", "statement": "While an actor holds at least one resource (more acquires than releases for some id) its initialization vote and its shutdown vote are refused; releasing the last one resumes the suspended phase; the counters equal acquires minus releases per id.", "quantifier": "every sequence of acquire/release over any resource ids", "why_tests_cant": "Counter arithmetic (including 32-bit wrap) and interleavings with the phases.", "anchors": ["src/rotor/plugin/resources.cpp"]}
{"id": "C30", "title": "Each child is asked to shut down at most once", "statement": "A supervisor sends at most one shutdown request to each child instance, however many shutdown triggers arrive (from the child, from the supervisor itself or from its parent).", "quantifier": "every history of triggers, confirmations, spawns and removals for any number of children", "why_tests_cant": "Triggers from several sources interleave arbitrarily.", "anchors": ["src/rotor/plugin/child_manager.cpp:request_shutdown", "src/rotor/plugin/child_manager.cpp:on_shutdown_trigger", "src/rotor/plugin/child_manager.cpp:handle_shutdown"]}
{"id": "C31", "title": "A supervisor outlives its children", "statement": "A supervisor's child-manager vote for shutdown succeeds only when no child actor and no pending respawn remains; when the shutdown begins every living child has been sent a shutdown request and every pending respawn timer is cancelled.", "quantifier": "every history of child creation, spawning, failure and shutdown, any number of children", "why_tests_cant": "Unbounded sets of children and interleavings.", "anchors": ["src/rotor/plugin/child_manager.cpp:handle_shutdown", "src/rotor/plugin/child_manager.cpp:active_actors", "src/rotor/plugin/child_manager.cpp:remove_child"]}
{"id": "C32", "title": "A supervisor is initialized only after its children; synchronized start", "statement": "A supervisor's child-manager vote for initialization succeeds only when no child is still initializing; with synchronize_start no child is started before the supervisor itself starts, and then every child is.", "quantifier": "every history of child init responses, failures and creations", "why_tests_cant": "Unbounded children and response orders.", "anchors": ["src/rotor/plugin/child_manager.cpp:handle_init", "src/rotor/plugin/child_manager.cpp:on_init", "src/rotor/plugin/child_manager.cpp:handle_start"]}
{"id": "C33", "title": "Policy shutdown_failed keeps the supervisor alive", "statement": "With supervisor policy shutdown_failed, the failure of a child during the supervisor's initialization shuts down only that child and the supervisor continues its initialization (include/rotor/policy.h).", "quantifier": "every set of children and order of failures", "why_tests_cant": "All interleavings of several children failing and succeeding.", "anchors": ["include/rotor/policy.h", "src/rotor/plugin/child_manager.cpp:remove_child", "src/rotor/plugin/child_manager.cpp:on_init"]}
{"id": "C34", "title": "A server outlives its linked clients", "statement": "An actor with linked clients does not finish shutdown until every client has confirmed unlinking or announced it; on shutdown each operational client is asked to unlink exactly once.", "quantifier": "every history of link/unlink messages, any number of clients", "why_tests_cant": "Unbounded clients and message orders.", "anchors": ["src/rotor/plugin/link_server.cpp", "src/rotor/plugin/link_client.cpp", "docs/Design.md (link_client)"]}
{"id": "C35", "title": "Link requests get exactly one well-defined answer", "statement": "A link request is refused with actor_not_linkable if the server is shutting down, refused with already_linked if that client is already linked or pending, answered positively at once if the server is operational or the client does not insist on that, and otherwise answered positively when the server starts.", "quantifier": "every server state and history of clients", "why_tests_cant": "All states times all histories.", "anchors": ["src/rotor/plugin/link_server.cpp:on_link_request", "src/rotor/plugin/link_server.cpp:handle_start"]}
{"id": "C36", "title": "Client initialization waits for its links and names", "statement": "A client actor does not complete initialization while any link it requested, any name registration or any name discovery is unanswered; a failed link or registration fails the initialization.", "quantifier": "every set of links and names and every order of answers", "why_tests_cant": "Unbounded sets and orders.", "anchors": ["src/rotor/plugin/link_client.cpp:handle_init", "src/rotor/plugin/registry.cpp:handle_init", "src/rotor/plugin/registry.cpp:on_registration"]}
{"id": "C37", "title": "Names registered by an actor are revoked on its shutdown", "statement": "When an actor that registered names shuts down, every name whose registration took effect in the registry is deregistered by it.", "quantifier": "every interleaving of registration responses and shutdown", "why_tests_cant": "The race between a pending registration response and shutdown.", "anchors": ["src/rotor/plugin/registry.cpp:handle_shutdown", "src/rotor/plugin/registry.cpp:on_registration"]}
{"id": "C38", "title": "Misconfigured actors are never created", "statement": "The config builder creates an actor iff both timeouts were given (in any order, by any combination of setters) and, for supervisors, not both an external registry address and create_registry were requested; otherwise actor_misconfigured is reported and nothing is created. A system context accepts exactly one root supervisor.", "quantifier": "every sequence of setter calls", "why_tests_cant": "All sequences of builder calls.", "anchors": ["include/rotor/actor_config.h", "include/rotor/supervisor_config.h", "include/rotor/supervisor.h:create_supervisor"]}
{"id": "C39", "title": "I/O tagging does not change who receives a message", "statement": "Marking a subscription with tag_io changes neither the set nor the order of recipients nor the message they get; marking twice has the effect of marking once.", "quantifier": "every subscription history and tagging sequence", "why_tests_cant": "All histories of subscriptions and taggings.", "anchors": ["src/rotor/subscription_point.cpp:tag", "src/rotor/subscription.cpp:update", "src/rotor/handler.cpp"]}
{"id": "C40", "title": "Shutdown flag is honoured", "statement": "With a shutdown flag configured, a started supervisor keeps exactly one poll timer armed until the flag is seen set, and triggers its shutdown exactly once at the first poll that sees the flag.", "quantifier": "every sequence of flag values at the polls", "why_tests_cant": "Unbounded number of polls.", "anchors": ["src/rotor/supervisor.cpp:on_start", "src/rotor/supervisor.cpp:on_shutdown_check_timer"]}
{"id": "C41", "title": "Errors: root cause and rendering", "statement": "root() returns the last element of the cause chain, message() renders every element of the chain in order, and every documented error code has its own non-empty text.", "quantifier": "chains of any length", "why_tests_cant": "Unbounded chains.", "anchors": ["src/rotor/extended_error.cpp", "src/rotor/error_code.cpp"]}
{"id": "C42", "title": "Messages of peers and user actions break no assertion of the plugins", "statement": "Whatever the order in which link, unlink, registration and discovery responses, timeouts, unlink requests and notifications arrive, and whatever message handlers do, no assertion of link_server, link_client, registry, resources and actor_base fails and no erased map entry is used. (This fails for the orders listed as refuted theorems; it is proved under the rules of use of ActorSafeSpec.v, each of which is needed.)", "quantifier": "every configuration, every sequence of messages, timeouts and user actions", "why_tests_cant": "The failing orders need a response which is late by one event, e.g. after the start of the shutdown; the holding orders are unboundedly many.", "anchors": ["src/rotor/plugin/registry.cpp:on_registration", "src/rotor/plugin/registry.cpp:on_discovery", "src/rotor/plugin/link_client.cpp:on_link_response", "src/rotor/plugin/link_client.cpp:forget_link", "src/rotor/plugin/link_server.cpp:on_unlink_notify", "src/rotor/plugin/resources.cpp:release", "src/rotor/actor_base.cpp:init_continue", "src/rotor/supervisor.cpp:discard_request"]}
{"id": "C43", "title": "Teardown leaves no subscription behind", "statement": "When an actor reaches SHUT_DOWN, every subscription it or one of its plugins ever made has been taken back (in its own locality and, once that context has worked off its queue, in the other one), no message about its subscriptions is under way, every plugin was deactivated exactly once before, and no assertion fails on the way.", "quantifier": "any number of plugins and own subscriptions, every history of subscriptions, unsubscriptions, shutdown requests, deliveries and actions of the other context", "why_tests_cant": "The unsubscription confirmations of all plugins interleave with user unsubscriptions and foreign traffic in unboundedly many ways.", "anchors": ["src/rotor/plugin/lifetime.cpp", "src/rotor/plugin/plugin_base.cpp", "src/rotor/actor_base.cpp:deactivate_plugins", "src/rotor/actor_base.cpp:shutdown_finish", "src/rotor/plugin/foreigners_support.cpp"]}
{"id": "C44", "title": "Teardown completes", "statement": "Once all plugins agreed to the shutdown, a message which carries the teardown forward is always under way, and delivering messages brings the actor to SHUT_DOWN.", "quantifier": "every state reachable by any history", "why_tests_cant": "A lost wake-up would need one particular order of confirmations among unboundedly many.", "anchors": ["src/rotor/plugin/lifetime.cpp:unsubscribe", "src/rotor/plugin/plugin_base.cpp:forget_subscription", "src/rotor/actor_base.cpp:shutdown_continue"]}
{"id": "C45", "title": "Unsubscription takes back exactly what was named", "statement": "unsubscribe(handler, address) takes back the subscription in force of that handler at that address and no other; nothing is forgotten unless it was asked to be, and nothing is forgotten twice.", "quantifier": "every history of subscriptions and unsubscriptions, before and during shutdown", "why_tests_cant": "Handlers are compared by type only and the lists are searched from the end: whether the right entry is hit depends on the whole history.", "anchors": ["include/rotor/supervisor.h:unsubscribe", "src/rotor/plugin/lifetime.cpp:unsubscribe", "src/rotor/subscription_point.cpp:find", "include/rotor/handler.h"]}
{"id": "C46", "title": "Initialization makes progress", "statement": "While the init request of an actor is held and no failure was reported, the actor waits for something that will be answered: a pending link, registration or discovery request, a held resource, or an unconfirmed subscription. The initialization never waits with nothing under way.", "quantifier": "every configuration of the plugins and every history of answers, timeouts, peers and handler calls", "why_tests_cant": "A lost wake-up shows only in one order of answers; with several names, links and resources the orders are unboundedly many.", "anchors": ["src/rotor/actor_base.cpp:init_continue", "src/rotor/plugin/link_client.cpp:handle_init", "src/rotor/plugin/registry.cpp:post_discovery", "src/rotor/plugin/resources.cpp:handle_init", "src/rotor/plugin/starter.cpp:handle_init"]}
{"id": "C47", "title": "asio: no lost wake-up", "statement": "A message pushed by any thread into the inbound queue of a locality is dispatched by its strand, once, in push order; when the strand is idle and no thread is inside enqueue, nothing is left.", "quantifier": "every interleaving of any number of sending threads, timers and forwarded callbacks with the strand", "why_tests_cant": "The window between the push and the deferred do_process, and the polling loop, are hit only by particular interleavings.", "anchors": ["src/rotor/asio/supervisor_asio.cpp:enqueue", "src/rotor/asio/supervisor_asio.cpp:do_process"]}
{"id": "C48", "title": "ev: no lost wake-up", "statement": "A message pushed by any thread into the inbound queue of a locality of libev supervisors is dispatched once, in push order; when the loop is idle and no thread is inside enqueue, nothing is left.", "quantifier": "every interleaving of any number of sending threads, supervisors of the locality, timers and shutdowns with the loop", "why_tests_cant": "One inbound queue is shared by several supervisors with a watcher each; losing a wake-up needs a watcher stopped between a push and the next one.", "anchors": ["src/rotor/ev/supervisor_ev.cpp:enqueue", "src/rotor/ev/supervisor_ev.cpp:on_async", "src/rotor/ev/supervisor_ev.cpp:shutdown_finish"]}
{"id": "C49", "title": "asio, ev, wx, fltk timers end exactly once", "statement": "With each of the four event-loop backends a started timer gets at most one callback, fired or cancelled; a cancelled timer never fires, even if its completion is already queued; one without callback is still waited for and can fire; and no assertion fails or entry is erased twice, provided that a timer is not cancelled inside its own callback.", "quantifier": "every interleaving of expirations, strand tasks, and nested starts and cancellations inside callbacks and handlers", "why_tests_cant": "The race of an expiration with a cancellation, and nested callbacks, depend on the event loop and the user code.", "anchors": ["src/rotor/asio/supervisor_asio.cpp:do_start_timer", "src/rotor/ev/supervisor_ev.cpp:timer_cb", "src/rotor/wx/supervisor_wx.cpp:Notify", "src/rotor/fltk/supervisor_fltk.cpp:on_timeout", "src/rotor/actor_base.cpp:on_timer_trigger"]}
{"id": "C50", "title": "Timers keep the supervisor referenced in balance", "statement": "The references to a supervisor which the ev and fltk backends take by hand are, at every moment, one for each known timer plus one while a fired timer is being completed; so they are all given back.", "quantifier": "every interleaving of expirations, nested starts and cancellations", "why_tests_cant": "A lost or double release shows only much later, as a leak or a use after free.", "anchors": ["src/rotor/ev/supervisor_ev.cpp:do_start_timer", "src/rotor/ev/supervisor_ev.cpp:do_cancel_timer", "src/rotor/fltk/supervisor_fltk.cpp:on_timeout"]}
{"id": "C51", "title": "What a timer callback sends is processed", "statement": "Messages sent by a timer callback, and by the handlers of these, are dispatched in order before the event loop becomes idle again.", "quantifier": "every backend, every behaviour of callbacks and handlers", "why_tests_cant": "The tests of a backend run the loop by hand and process the queue between its iterations.", "anchors": ["src/rotor/asio/supervisor_asio.cpp:do_start_timer", "src/rotor/ev/supervisor_ev.cpp:timer_cb", "src/rotor/wx/supervisor_wx.cpp:Notify", "src/rotor/fltk/supervisor_fltk.cpp:on_timeout"]}
{"id": "C52", "title": "The child manager survives its own messages", "statement": "A supervisor whose child manager exchanges messages with its children through the queues never fails an assertion, throws out of a noexcept handler or touches a null actor, provided that children answer a shutdown request before its timeout, an init timeout does not overtake queued messages, and no second shutdown trigger of the supervisor is queued when its plugin is deactivated; each of the three provisos is needed. The child manager waits for exactly the creation and spawn messages of the queue.", "quantifier": "every order of deliveries, every number of local and foreign children, spawners and policies, every behaviour of the children, with or without a parent", "why_tests_cant": "The failures need a trigger, a timeout or an answer to meet a certain queue; a test fixes one interleaving.", "anchors": ["src/rotor/plugin/child_manager.cpp:on_shutdown_trigger", "src/rotor/plugin/child_manager.cpp:on_init", "src/rotor/plugin/child_manager.cpp:remove_child", "src/rotor/supervisor.cpp:on_request_trigger", "include/rotor/supervisor.h:process"]}
{"id": "C53", "title": "Children end before their supervisor, and settle", "statement": "In an orderly family: when no message is under way, a child is shutting down or down exactly if it was asked to, and it is off the supervisor's list exactly if it is down; an asked child which is on the list is waited for with an armed timeout (or its subscriptions are being removed); and when the child manager agrees to the supervisor's shutdown, every child ever made is down.", "quantifier": "every order of deliveries, every number of local and foreign children, every behaviour of the children", "why_tests_cant": "Agreement between the supervisor's list and the real states of asynchronous children is a global fact about all interleavings.", "anchors": ["src/rotor/plugin/child_manager.cpp:handle_shutdown", "src/rotor/plugin/child_manager.cpp:on_shutdown_confirm", "src/rotor/plugin/child_manager.cpp:request_shutdown", "src/rotor/plugin/init_shutdown.cpp:on_shutdown", "src/rotor/actor_base.cpp:shutdown_finish"]}
{"id": "C54", "title": "Nothing asked of a supervisor is lost", "statement": "In an orderly family, when no message is under way: every child which was not asked to shut down was asked to initialize, and it either reported success, or a failure ended the initialization of the supervisor or the supervisor itself, or its request is still open with the timer armed; a child which called do_shutdown while it was not shutting down was asked to shut down; a root supervisor which called do_shutdown, or which decided to end because of a child, is shutting down or down.", "quantifier": "every order of deliveries, every number of local and foreign children, spawners and policies, every behaviour of the children", "why_tests_cant": "A lost request shows only in the interleaving which loses it, and then as silence: a test waits for a message and cannot tell late from never.", "anchors": ["src/rotor/plugin/child_manager.cpp:on_create", "src/rotor/plugin/child_manager.cpp:on_init", "src/rotor/plugin/child_manager.cpp:on_shutdown_trigger", "src/rotor/plugin/child_manager.cpp:cancel_init", "src/rotor/supervisor.cpp:do_shutdown", "src/rotor/actor_base.cpp:do_shutdown"]}
{"id": "C55", "title": "Handlers may change subscriptions during a delivery", "statement": "While a message is delivered, its handlers may make and forget subscriptions. If only the last handler of the message does so for the same address and message type, the delivery loop reads no released storage and calls no released handler, and each finished delivery has called exactly the handlers subscribed at its start, once each, in order of subscription, and has forwarded the message to exactly the foreign ones. Without that rule the loop reads released or shifted storage.", "quantifier": "every sequence of subscriptions, unsubscriptions and deliveries, any growth policy of the vectors", "why_tests_cant": "The damage depends on the capacity of a vector at the moment a handler subscribes; most runs read stale but intact memory and look right.", "anchors": ["src/rotor/plugin/delivery.cpp:local_delivery_t::delivery", "src/rotor/subscription.cpp:materialize", "src/rotor/subscription.cpp:forget", "src/rotor/supervisor.cpp:subscribe"]}
{"id": "C56", "title": "A tree of supervisors ends from the leaves and starts from the leaves", "statement": "In a tree of supervisors of any depth, where every supervisor obeys the rules of C52 and creates no child after its child manager has agreed to the shutdown: no supervisor violates an assertion of its child manager; the state of a child supervisor is the state its parent sees; when a supervisor agrees to shut down, every actor and every supervisor below it, at any depth, has shut down; when no message is under way at the parent, a child supervisor is shutting down exactly if it was asked, it was asked if it decided to end because of a child, and every child created before a shutdown vote of its supervisor is shutting down; a supervisor becomes initialized only when all its children, supervisors or not, are initialized or past that.", "quantifier": "every tree, every interleaving of the steps of its supervisors, every policy of every supervisor, local and foreign children", "why_tests_cant": "The order of the end of a tree depends on the interleaving of several event loops; tests run trees of two or three supervisors, mostly in one thread.", "anchors": ["src/rotor/plugin/child_manager.cpp:handle_shutdown", "src/rotor/plugin/child_manager.cpp:handle_init", "src/rotor/plugin/child_manager.cpp:on_init", "src/rotor/plugin/init_shutdown.cpp:on_shutdown", "src/rotor/supervisor.cpp:do_shutdown", "src/rotor/actor_base.cpp:shutdown_finish"]}
{"id": "C57", "title": "Actors which link to each other agree about their links, and the links let them end", "statement": "For any set of actors which exchange their link messages (link requests and answers, unlink requests and answers, unlink notifications) over channels with any delay, under the rules of C42 for what an actor does by itself, with no link asked for during the shutdown, no timeout of link and unlink requests, no link to oneself and no answer to a link request while an actor which holds its init request shuts down: no assertion of any actor fails; an actor which was told that it is linked to a server is an accepted client of that server, and none of both is shut down; when no message is under way, client and server agree about every link; when all actors are asked to shut down, those which are not yet down own nothing and have given their names back (or had no discovery to cancel), and the links never form a circle, then as soon as no message is under way nobody is linked and every actor ends with its last subscription; if in addition no link request is open, there is a bound on the number of messages which are still delivered, none of them makes an assertion fail, and after the last of them the links are gone; a server which was operational and is asked to shut down loses all its clients, if these have never had clients themselves, and ends the same way.", "quantifier": "any number of actors, any configured links (with and without operational_only), any interleaving of user code, requests of the supervisors, timeouts of other requests, and deliveries, with any delay per pair of actors", "why_tests_cant": "The tests link two or three actors in one event loop, where the messages have one order; agreement and deadlock freedom depend on all orders between actors of different loops, and on the shape of the graph of links.", "anchors": ["src/rotor/plugin/link_client.cpp:link", "src/rotor/plugin/link_client.cpp:on_link_response", "src/rotor/plugin/link_client.cpp:try_forget_links", "src/rotor/plugin/link_client.cpp:handle_shutdown", "src/rotor/plugin/link_server.cpp:on_link_request", "src/rotor/plugin/link_server.cpp:on_unlink_notify", "src/rotor/plugin/link_server.cpp:on_unlink_response", "src/rotor/plugin/link_server.cpp:notify_shutdown"]}
{"id": "C58", "title": "One leader per locality: subscriptions, queue and dispatcher belong together", "statement": "The leader of a supervisor is the topmost ancestor reached through supervisors of the same locality, and it leads itself; with the make_address of supervisor_t the root leads the whole tree. If every supervisor which leaves the locality of its parent opens a new one (always so with the default make_address), then every locality has one leader, every subscription on an address is in the map of the leader of that address, every message is dispatched by the leader of its address or handed over to it, one dispatch serves every subscription exactly once (a call at home, a message to the leader of the handler abroad), a subscription from abroad arrives in the map, and no message is lost. Tagging a subscription violates no assertion exactly if the supervisor of the actor leads its locality or the address is foreign.", "quantifier": "every forest of supervisors of any depth, default or strand localities, every interleaving of subscriptions, sends and turns of the dispatchers", "why_tests_cant": "The tests use one or two supervisors per locality; the agreement of queue, map and dispatcher depends on the shape of the forest and on where each strand is used.", "anchors": ["src/rotor/plugin/locality.cpp:activate", "src/rotor/supervisor.cpp:make_address", "src/rotor/asio/supervisor_asio.cpp:make_address", "src/rotor/plugin/delivery.cpp:activate", "include/rotor/supervisor.h:process", "src/rotor/supervisor.cpp:subscribe", "src/rotor/subscription_point.cpp:tag", "src/rotor/plugin/foreigners_support.cpp:on_subscription_external"]}
{"id": "C59", "title": "Names: registry and clients agree, and every request is answered", "statement": "The registry and the actors which use it are composed with the queues between them. An actor which was told that a name is registered, and has not given it back, is the one the registry maps the name to; so no two actors hold a name. What a discovery returns has asked for that name. A name the registry maps to an actor is held by it, or on its way back, or the answer is under way, or the answer came too late. While the registry works, every open registration or discovery is in its queue, or answered and under way, or a promise the registry keeps for a name which nobody has; a promise which was given up is gone from the registry and answered. The actors behave as in C57.", "quantifier": "every number of actors, every configuration, every injective naming, every interleaving of actor steps, link messages, registry messages and answers, including timeouts and shutdown at any moment", "why_tests_cant": "The tests run registry and clients in one queue, where an answer never meets a client which is gone; the agreement depends on every order of answers, timeouts and shutdowns.", "anchors": ["src/rotor/registry.cpp:on_reg", "src/rotor/registry.cpp:on_promise", "src/rotor/registry.cpp:on_cancel", "src/rotor/registry.cpp:on_dereg_service", "src/rotor/plugin/registry.cpp:on_registration", "src/rotor/plugin/registry.cpp:on_link", "src/rotor/plugin/registry.cpp:handle_shutdown", "src/rotor/plugin/registry.cpp:do_cancel", "src/rotor/supervisor.cpp:on_request_trigger", "include/rotor/request.hpp:request_builder_t"]}
{"id": "C60", "title": "Reference counts: nothing is freed while it is pointed to, nothing is left behind", "statement": "For messages, handlers, subscription infos and actors: at every moment, inside functions and destructors too, the counter equals the number of counted pointers; what a pointer leads to is not being destroyed; every object is freed at most once, and its queues and members are empty by then. Functions leave no pointer behind in local variables or as plain pointers which nobody releases. The contents of messages and the lists of children never form a loop, so when queues, maps and users hold nothing, everything has been freed. The work of functions and destructors is bounded. A message gets its next address only while nobody else has it.", "quantifier": "any number of threads, contexts, supervisors, actors and messages; every interleaving of single pointer operations; functions called in any order", "why_tests_cant": "A test sees one interleaving; a lost or doubled release shows only under a memory checker, and only on the schedule which leads to it.", "anchors": ["include/rotor/arc.hpp:arc_base_t", "include/rotor/message.h:make_message", "include/rotor/supervisor.h:process", "include/rotor/supervisor.h:put", "include/rotor/supervisor.h:make_response", "src/rotor/messages.cpp:~handler_call_t", "src/rotor/supervisor.cpp:~supervisor_t", "src/rotor/supervisor.cpp:subscribe", "src/rotor/supervisor.cpp:on_request_trigger", "src/rotor/supervisor.cpp:uplift_last_message", "src/rotor/system_context.cpp:~system_context_t", "src/rotor/handler.cpp:handler_base_t", "src/rotor/plugin/delivery.cpp:delivery", "src/rotor/plugin/child_manager.cpp:create_child", "src/rotor/actor_base.cpp:redirect", "src/rotor/thread/supervisor_thread.cpp:enqueue"]}
{"id": "C61", "title": "A supervisor whose children are actors linked to each other", "statement": "What the supervisor takes for the state of a child is the state of the actor. When its queues are empty, exactly the actors it has asked to end are ending, and exactly those which have ended are off its list. It agrees to its own end only when every actor is shut down and unlinked. If it has begun to end, creates nothing more, nothing is under way, no actor owns a resource and the links form no ring, then everything is shut down and it agrees. No assertion fails on the way.", "quantifier": "any number of actors created at any time; any configuration of links; any order of messages of the supervisor, messages between the actors and calls of the users; all four policies", "why_tests_cant": "The end of a supervisor depends on the order in which link, unlink, shutdown and init messages of all its children are processed; a test fixes one order and one graph of links.", "anchors": ["include/rotor/actor_base.h:actor_base_t", "src/rotor/actor_base.cpp:init_continue", "src/rotor/actor_base.cpp:init_finish", "src/rotor/actor_base.cpp:shutdown_continue", "src/rotor/actor_base.cpp:shutdown_finish", "src/rotor/plugin/init_shutdown.cpp:handle_shutdown", "src/rotor/plugin/link_client.cpp:handle_shutdown", "src/rotor/plugin/link_server.cpp:handle_shutdown", "src/rotor/plugin/child_manager.cpp:on_init", "src/rotor/plugin/child_manager.cpp:on_shutdown_confirm", "src/rotor/plugin/child_manager.cpp:handle_shutdown", "src/rotor/plugin/child_manager.cpp:remove_child"]}
{"id": "C62", "title": "A tree of supervisors whose actors link to each other across supervisors", "statement": "Every child is in one place: a supervisor of the tree or an actor of the net. What a supervisor takes for the state of an actor is its state. When a supervisor agrees to end, every actor below it, however deep, is shut down, unlinked and off the list of its own supervisor. If the root ends, each ending supervisor has asked its children, nothing is under way, no actor owns a resource and the links, also those between actors of different supervisors, form no ring, then all actors are shut down, and some supervisor which has not yet agreed to end agrees when asked again. No assertion fails on the way.", "quantifier": "trees of any shape and depth grown at any time; any configuration of links between any actors; any order of the messages of the supervisors, of the actors and of the calls of users; a policy for each supervisor", "why_tests_cant": "The end of one supervisor may wait for an actor of another one, which ends in turn because of the unlink request; which order is right depends on the tree and on the links, and a test fixes both.", "anchors": ["include/rotor/supervisor.h:supervisor_t", "include/rotor/actor_base.h:actor_base_t", "src/rotor/supervisor.cpp:shutdown_finish", "src/rotor/plugin/init_shutdown.cpp:handle_shutdown", "src/rotor/plugin/link_client.cpp:on_unlink_request", "src/rotor/plugin/link_server.cpp:handle_shutdown", "src/rotor/plugin/child_manager.cpp:on_init", "src/rotor/plugin/child_manager.cpp:on_shutdown_confirm", "src/rotor/plugin/child_manager.cpp:handle_shutdown", "src/rotor/plugin/child_manager.cpp:request_shutdown"]}
{"id": "C63", "title": "Messages about links run out", "statement": "An actor asks for a link at most once for each action of configure(), for each later action of user code and for each address it discovers. A client sends at most two messages for each link it asked for (request; leave or answer to an unlink request), a server at most two for each link request it received (answer; unlink request). Among any number of actors at most four messages are exchanged for a link, so the number of link messages received is at most four times the number of links asked for, and actors which only take the messages under way come to a stop after at most that many.", "quantifier": "any number of actors, any configuration, any order of deliveries, timeouts, init and shutdown requests, user actions and discoveries; no rules of use are assumed", "why_tests_cant": "A message storm (two plugins which answer each other's messages, a client which asks again when it is refused) shows up only for one order of shutdown and answers; a test sees a finite number of messages anyway and cannot tell that there is a bound for all orders.", "anchors": ["src/rotor/plugin/link_client.cpp:link", "src/rotor/plugin/link_client.cpp:on_link_response", "src/rotor/plugin/link_client.cpp:try_forget_links", "src/rotor/plugin/link_client.cpp:handle_shutdown", "src/rotor/plugin/link_server.cpp:on_link_request", "src/rotor/plugin/link_server.cpp:notify_shutdown", "src/rotor/plugin/link_server.cpp:handle_start", "src/rotor/plugin/registry.cpp:on_discovery", "src/rotor/actor_base.cpp:init_continue"]}
{"id": "C64", "title": "Messages of a supervisor and its children run out", "statement": "Every message which is taken from a queue of a supervisor (its own, those of children with a locality of their own, those on their way back) is paid for: by 40 for the start, by at most 3 for each call from outside (user calls of do_shutdown, spawners, spawn timers, the parent) and by at most 36 for each child which is born. When every spawner has max_attempts or the policy `never`, the number of births is at most the number of create_actor calls plus the sum of the limits, so the number of messages is bounded by the calls of the users alone. From every reachable state, without calls from outside and without births only so many messages can follow. Without a limit the contrary holds: a spawner with restart_policy always and restart_period 0 makes any number of instances by messages alone, in one call of do_process.", "quantifier": "all sequences of calls, deliveries, timeouts, answers, failures, localities, for every policy; a supervisor with or without a parent", "why_tests_cant": "A message loop (a timeout which is re-armed, a trigger which is answered by a trigger, a request repeated at shutdown) needs one particular order of failures; a test which stops by itself says nothing about the other orders, and one which does not stop cannot tell a loop from a long run.", "anchors": ["src/rotor/plugin/child_manager.cpp:remove_child", "src/rotor/plugin/child_manager.cpp:on_spawn", "src/rotor/plugin/child_manager.cpp:on_init", "src/rotor/plugin/child_manager.cpp:request_shutdown", "src/rotor/plugin/child_manager.cpp:on_shutdown_confirm", "src/rotor/detail/child_info.cpp:next_spawn", "src/rotor/supervisor.cpp:on_request_trigger", "src/rotor/plugin/init_shutdown.cpp:on_shutdown"]}
{"id": "C65", "title": "Messages in a tree of supervisors run out", "statement": "In a tree of supervisors every message which is taken anywhere is paid for: by at most 3 for each call from outside at some supervisor, by 28 for each supervisor and by 36 for each child which is born, and 12 once. What a supervisor asks of its child supervisors (init and shutdown requests) and what it tells its parent (its own do_shutdown, a failed init) needs no payment: it is set aside when the cause is handled. Supervisors are at most the children born, plus the root; with limits on all spawners births are bounded by the calls of users. From every reachable tree, without calls from outside, births and new supervisors only so many messages can follow.", "quantifier": "all trees of any depth and width, all sequences of operations at all supervisors, every policy and locality", "why_tests_cant": "An echo between levels (the parent asks the child to stop because the child asked the parent) appears only when failures of different levels are interleaved in particular ways; a finite number of runs that end does not exclude a pair of supervisors which send each other messages for ever.", "anchors": ["src/rotor/supervisor.cpp:do_shutdown", "src/rotor/supervisor.cpp:on_request_trigger", "src/rotor/plugin/child_manager.cpp:request_shutdown", "src/rotor/plugin/child_manager.cpp:on_init", "src/rotor/plugin/child_manager.cpp:handle_init", "src/rotor/plugin/init_shutdown.cpp:on_init", "src/rotor/plugin/init_shutdown.cpp:on_shutdown"]}
{"id": "C66", "title": "A callback of an event loop works on a living supervisor", "statement": "Whatever an event loop (asio, libev, wx, fltk, thread) calls back - a message from another thread, a timer, a completed operation of an actor - works on a supervisor which is not freed, from its first access to its last, although handling messages in the middle of it can make the parent drop its pointer; and the supervisor is freed exactly when neither the parent nor a callback points to it. For each callback and each situation of the supervisor (root, in the locality of its parent, in another locality of the same thread, in another thread) it is stated exactly which callbacks have this property; two do not.", "quantifier": "all numbers and orders of callbacks, all moments of the end of the supervisor and of the parent's dropping the pointer, four situations, twelve callbacks", "why_tests_cant": "The use of freed memory needs that the last message of the supervisor arrives with exactly that callback and that the parent drops the pointer before it returns; it mostly reads a valid-looking value.", "anchors": ["src/rotor/asio/supervisor_asio.cpp:enqueue", "src/rotor/asio/supervisor_asio.cpp:do_start_timer", "include/rotor/asio/forwarder.hpp:operator()", "src/rotor/ev/supervisor_ev.cpp:on_async", "src/rotor/ev/supervisor_ev.cpp:timer_cb", "src/rotor/wx/supervisor_wx.cpp:enqueue", "src/rotor/fltk/supervisor_fltk.cpp:do_start_timer", "src/rotor/plugin/child_manager.cpp:on_shutdown_confirm"]}
{"id": "C67", "title": "unsubscribe() takes back a subscription of the actor which calls it", "statement": "When an actor unsubscribes a method or a handler object which it has subscribed at an address, the request is found and exactly one subscription of this actor at this address with a handler of that signature is asked for (with that method, if no other method of the actor there has its signature); nobody ever takes back a subscription of another actor; every confirmation finds a subscription to remove, and for each actor, signature and address as many subscriptions are removed as were asked for.", "quantifier": "all numbers of actors and supervisors, all sequences of subscriptions, unsubscriptions in each of the three forms and deliveries", "why_tests_cant": "The only test of unsubscription by method does it at a supervisor, where the supervisor and the actor are the same object; at any other actor the same call asks the wrong plugin.", "anchors": ["include/rotor/actor_base.h:unsubscribe", "include/rotor/supervisor.h:unsubscribe_actor", "src/rotor/plugin/lifetime.cpp:unsubscribe", "src/rotor/plugin/lifetime.cpp:handle_unsubscription", "src/rotor/subscription_point.cpp:find", "include/rotor/handler.h:operator=="]}
{"id": "C68", "title": "reply addresses of requests are given back, each once, and a child is forgotten only after all of its own", "statement": "The subscriptions of a supervisor to the imaginary addresses of replies are exactly those which its address mapping knows; when a child has confirmed its shutdown it is removed from the children once, after all its reply subscriptions were taken back; no reply subscription outlives its owner; every reply subscription made is taken back exactly once; the child manager works until the supervisor shuts down; the shutdown of the supervisor takes back what is left, in a bounded number of deliveries, and leaves neither subscriptions nor children nor an active child manager; nothing throws and no inactive plugin is called.", "quantifier": "all numbers of children and types of responses, all interleavings of building and sending requests, shutdown confirmations of children, the shutdown of the supervisor and deliveries", "why_tests_cant": "Every test writes request<...>(...).send(...) in one expression; a builder kept in a variable while another of the same type is built is enough for the supervisor to terminate the program at its shutdown, long after the actor is gone.", "anchors": ["include/rotor/supervisor.h:request_builder_t", "src/rotor/address_mapping.cpp:set", "src/rotor/address_mapping.cpp:remove", "src/rotor/plugin/child_manager.cpp:on_shutdown_confirm", "src/rotor/plugin/child_manager.cpp:handle_unsubscription", "src/rotor/plugin/child_manager.cpp:deactivate", "src/rotor/plugin/lifetime.cpp:unsubscribe"]}
{"id": "C69", "title": "handlers which subscribe while a message is delivered disturb the delivery exactly when the vector has no room", "statement": "When a message is delivered to the handlers of an address, each handler which was subscribed is called once, in order, and handlers subscribed meanwhile are not called but stay; this holds iff what all calls but the last subscribe to the same address and type fits into the capacity of the vector, otherwise freed memory is read; effects on other addresses and types never matter; a call which forgets a handler makes the loop skip one and read the last slot twice, unless it is the last call.", "quantifier": "all subscription histories before the delivery, all numbers of handlers, all subscriptions made by each call (and any one handler forgotten by any one call)", "why_tests_cant": "No test has two handlers of one address and type of which one makes a third subscribe; reading a freed buffer of pointers mostly returns the old pointers, so even that would pass without a sanitizer, and whether it is freed depends on the capacity.", "anchors": ["src/rotor/plugin/delivery.cpp:delivery", "src/rotor/subscription.cpp:materialize", "src/rotor/subscription.cpp:forget", "src/rotor/supervisor.cpp:subscribe", "src/rotor/plugin/lifetime.cpp:on_unsubscription"]}
{"id": "C70", "title": "message types at run time are told apart by their names, across modules", "statement": "The type pointers of two message types, initialised in whatever modules and order, are equal exactly when the texts of their names are; so, if types have different names, a delivered message reaches exactly the handlers of its type, of all modules, in the order of subscription, and is never taken for another type.", "quantifier": "all sequences of loading and unloading modules, static initialisations, messages made, handlers subscribed and deliveries, in which messages and handlers come after the initialisation of their type and no module is unloaded which was the first with one of its names", "why_tests_cant": "Tests are single programs with one module whose variables are initialised before main and whose types all have different names.", "anchors": ["src/rotor/message.cpp:register_type", "include/rotor/message.h:message_type", "include/rotor/handler.h:call", "src/rotor/subscription.cpp:materialize", "src/rotor/subscription.cpp:get_recipients"]}
{"id": "C71", "title": "the delivery which prints messages does what the plain one does, and its texts tell the kinds apart", "statement": "For all queues, handlers and settings, inspected delivery leaves the same queue, makes the same calls and forwards the same messages in the same order as plain delivery; each message of the locality whose level is within the setting is printed once, before its handlers run, or as discarded if it has none (and no second address); the text ends with the address, shows a forwarded message whole and tells its kind however pointers, numbers and names are written; every kind has one branch in either chain; raising the setting never hides a message.", "quantifier": "all messages (nested ones too), all renderings of pointers, numbers and names, all queues, handlers, routes and thresholds", "why_tests_cant": "The printing delivery is chosen when rotor is compiled, and its output is looked at by people; one wrong branch in a chain of 28 comparisons shows in the texts of one kind only.", "anchors": ["src/rotor/misc/default_stringifier.cpp:try_visit", "src/rotor/misc/default_stringifier.cpp:stringify_to", "src/rotor/plugin/delivery.cpp:get_message_level", "src/rotor/plugin/delivery.cpp:dump_message", "include/rotor/supervisor.h:process"]}
{"id": "C72", "title": "the messages of a whole world run out", "statement": "In a tree of supervisors whose actors link to each other, also across supervisors, the number of messages which anybody takes is at most a fixed multiple of what was done from outside, of what user code asked for, and of how many children were born; what supervisors and actors tell each other, and cascades of lost links each of which ends an actor, add nothing. If every spawner has a limit, the bound only depends on what the users did. From every reachable world only so many messages can follow without an action from outside or a birth.", "quantifier": "all trees, policies, placements of actors, user code of configure(), operations and orders of delivery", "why_tests_cant": "A cascade which feeds itself (a lost link ends an actor, which loses links of others, which end, are started again, link again) shows as load or as a program which never ends, and only for some shape of tree and links; no test tries all shapes, or waits forever.", "anchors": ["src/rotor/plugin/link_client.cpp:on_unlink_request", "src/rotor/plugin/child_manager.cpp:handle_shutdown", "src/rotor/actor_base.cpp:do_shutdown", "include/rotor/supervisor.h:do_process"]}
{"id": "C73", "title": "a supervisor which is told to end can end", "statement": "From every state in which a supervisor shuts down it can come to its end by deliveries, by children which finish and by its own votes, without timers, users or the parent, and then every child it ever had has ended before and is off the list -- exactly if no spawner is lost, that is, counted as alive without actor, timer or message. A spawner is lost only by a restart timer which fires during the shutdown, and then no vote succeeds any more. Whenever the number of living entries falls to one, the step which does it calls shutdown_continue, except for a factory which fails and gives up.", "quantifier": "all supervisors, policies, spawner settings, numbers and localities of children, orders of events", "why_tests_cant": "That a way out exists from each of infinitely many reachable states, and that a stuck one stays stuck whatever follows, are statements about all futures; a test sees one.", "anchors": ["src/rotor/plugin/child_manager.cpp:handle_shutdown", "src/rotor/plugin/child_manager.cpp:active_actors", "src/rotor/plugin/child_manager.cpp:on_spawn", "src/rotor/plugin/child_manager.cpp:on_spawn_timer", "src/rotor/plugin/child_manager.cpp:remove_child"]}
{"id": "C74", "title": "a tree of supervisors which is told to end can end", "statement": "From every state in which some supervisor of a tree shuts down, messages which are taken and actors which finish suffice to end it together with all supervisors below it and every actor they ever had, whatever the rest of the tree does -- exactly if at it and below it no supervisor which has not agreed has a lost spawner. A lost spawner holds back all supervisors above it for ever; it is lost only by a restart timer which fires while its supervisor shuts down.", "quantifier": "all trees of supervisors of any depth, policies, spawner settings, numbers of children, orders of events", "why_tests_cant": "A way out from each of infinitely many states of trees of any depth, and the persistence of a hang over all futures, cannot be sampled.", "anchors": ["src/rotor/plugin/child_manager.cpp:handle_shutdown", "src/rotor/plugin/child_manager.cpp:on_spawn_timer", "src/rotor/plugin/child_manager.cpp:on_shutdown_confirm", "src/rotor/plugin/init_shutdown.cpp:handle_shutdown", "src/rotor/supervisor.cpp:shutdown_finish", "src/rotor/actor_base.cpp:shutdown_continue"]}
{"id": "C75", "title": "a starting supervisor is told to go on, and a starting tree never waits for nobody", "statement": "If the child manager has once objected to the initialization of its supervisor, then in every later state in which no message is under way and the supervisor still initializes, it was told to go on after that, or its initialization failed, or it still holds its init request and a child on its list has its own init request in hand or is shutting down. The step in which the last unanswered child answers or leaves is the one which tells. In a tree of supervisors at rest, at or below each one which holds its init request there is one whose child manager agrees, or which failed, or which has an ordinary actor with its init request in hand.", "quantifier": "all orders of events of a supervisor and its children, all policies, all trees of supervisors of any depth", "why_tests_cant": "A lost wake-up shows only in particular interleavings of answers, failures, removals and late creations; a test sees finitely many and cannot tell a hang from a slow start.", "anchors": ["src/rotor/plugin/child_manager.cpp:init_continue", "src/rotor/plugin/child_manager.cpp:on_init", "src/rotor/plugin/child_manager.cpp:remove_child", "src/rotor/plugin/child_manager.cpp:has_initializing", "src/rotor/plugin/child_manager.cpp:create_child"]}
{"id": "C76", "title": "the policy of a supervisor decides what an early end of a child does", "statement": "When an actor leaves the list of a supervisor which initializes: if it was started, nothing happens to the supervisor; if it was not, then with shutdown_failed the supervisor asks for its own end, and with shutdown_self it answers its init request with an error. When a child answers its init request with an error, a shutdown_self supervisor answers its own with an error or, having none, asks for its end; a shutdown_failed one does neither at that moment.", "quantifier": "all histories of the child manager, all policies, all children", "why_tests_cant": "The outcome depends on whether the init request of the supervisor has arrived before the child leaves; tests fix one order.", "anchors": ["src/rotor/plugin/child_manager.cpp:remove_child", "src/rotor/plugin/child_manager.cpp:on_init", "include/rotor/policy.h:supervisor_policy_t"]}
{"id": "C77", "title": "intervals reach the event loops unchanged, and restarts keep their distance on the wall clock", "statement": "A timer started with an interval makes the event loop wait for that interval: exactly with asio and thread; with ev and fltk up to less than a nanosecond for intervals up to 104 days and a part in 2^51 up to 292 years; with wx in whole milliseconds, not more than the interval. A spawner measures its restart period by the local clock: while that runs evenly two attempts are a period apart and a restart comes at most a period after the end of the actor; a clock put forward by x shortens the distance by at most x.", "quantifier": "all intervals, all backends; all clocks, periods and times", "why_tests_cant": "Rounding and overflow show only at particular magnitudes, changes of the clock only at particular times.", "anchors": ["src/rotor/asio/supervisor_asio.cpp:do_start_timer", "src/rotor/ev/supervisor_ev.cpp:do_start_timer", "src/rotor/fltk/supervisor_fltk.cpp:do_start_timer", "src/rotor/wx/supervisor_wx.cpp:do_start_timer", "src/rotor/thread/system_context_thread.cpp:start_timer", "src/rotor/detail/child_info.cpp:next_spawn"]}
{"id": "C78", "title": "a supervisor which initializes can become operational, when nobody ends", "statement": "In every reachable state in which a supervisor initializes, nothing has failed, only messages of a start are under way and no child is shutting down, there is a way to its being operational, made of taking messages, factories which succeed and children which answer: the supervisor answers its init request only when its child manager agrees, nobody is asked to end, removed or reported, and no message is left. No choice among such steps spoils this. The init request of a root supervisor is in its hands or in its queue until it has answered.", "quantifier": "all orders of events of a supervisor and its children, all policies, any number of children and spawners, local or with a locality of their own, with and without a parent, with and without synchronize_start", "why_tests_cant": "A test sees one order of messages of a start; whether some order leads to a state in which the supervisor waits for ever is a statement about all of them.", "anchors": ["src/rotor/plugin/child_manager.cpp:on_init", "src/rotor/plugin/child_manager.cpp:on_create", "src/rotor/plugin/child_manager.cpp:on_spawn", "src/rotor/plugin/child_manager.cpp:handle_init", "src/rotor/plugin/child_manager.cpp:handle_start", "src/rotor/plugin/init_shutdown.cpp:on_init", "src/rotor/plugin/starter.cpp:on_start"]}
{"id": "C79", "title": "a tree of supervisors which initializes can become operational, when nobody ends", "statement": "In every reachable state of a tree of supervisors in which the root initializes, and at no supervisor anything has failed, any message but those of a start is under way or any child is shutting down, there is a way to the root being operational, made of taking messages, factories which succeed, and actors and supervisors which answer their init requests. A supervisor further down which holds its init request can become initialized in the same way. No choice among such steps spoils this, or ends or fails anybody.", "quantifier": "all trees of supervisors, of any depth and width, built at run time; all orders of events, all policies of all supervisors, any number of children and spawners", "why_tests_cant": "A deadlock of a start needs several supervisors which wait for each other through their parents; the orders of their messages are too many to be tried, and the trees have no bound.", "anchors": ["src/rotor/plugin/child_manager.cpp:on_init", "src/rotor/plugin/child_manager.cpp:on_create", "src/rotor/plugin/child_manager.cpp:handle_init", "src/rotor/plugin/child_manager.cpp:handle_start", "src/rotor/plugin/init_shutdown.cpp:on_init", "src/rotor/actor_base.cpp:init_continue", "src/rotor/actor_base.cpp:init_finish"]}
{"id": "C80", "title": "the stringifier of a system context is made once, and no supervisor prints with a destroyed one", "statement": "A system context makes its stringifier when it is first asked for; the delivery plugin of each supervisor keeps a plain pointer to it. If the root supervisor is created while nobody else uses the context, and users ask for the stringifier at such a time or when some supervisor is at work, then, however many threads create child supervisors at once, one stringifier is made, it is never destroyed while the context lives, everybody gets the same, and no message is printed with a destroyed one. In any use, the only thing that can go wrong is a supervisor which prints with a pointer that is no longer the one of its context; this does happen when a user asks in another thread while the root is created, when two roots are created at once, and when a supervisor outlives its context.", "quantifier": "all numbers of threads, all interleavings of the reads and writes of the two members of the context, all trees of supervisors", "why_tests_cant": "The fault needs a switch of threads between a test of a pointer and its assignment, and shows only when a message is dumped later; tests see one interleaving of very many.", "anchors": ["src/rotor/system_context.cpp:get_stringifier", "src/rotor/system_context.cpp:~system_context_t", "include/rotor/supervisor.h:create_supervisor", "src/rotor/plugin/delivery.cpp:activate", "src/rotor/plugin/child_manager.cpp:create_child"]}
{"id": "C81", "title": "a tree of supervisors with synchronized start starts from the root", "statement": "In a tree of supervisors in which actors start only when they take the start trigger of their supervisor: whoever is operational was told to by its supervisor, and if all supervisors from an ancestor down to that of an actor have synchronized start, then the actor is operational only if that ancestor has started. So with synchronized start everywhere nobody in the tree is operational before the root has started. Without it, an actor may be operational while all supervisors above it still initialize.", "quantifier": "all trees of supervisors, of any depth and width, built at run time; all orders of events, all policies, any mixture of synchronized and other supervisors", "why_tests_cant": "The claim is about the order of events of arbitrarily many supervisors, also after restarts and failures; tests look at two levels and one order.", "anchors": ["src/rotor/plugin/child_manager.cpp:on_init", "src/rotor/plugin/child_manager.cpp:handle_start", "src/rotor/plugin/starter.cpp:on_start"]}
{"id": "C82", "title": "a whole tree of supervisors can become operational, except for who comes after the start", "statement": "In a tree of supervisors whose root initializes or has initialized or works, in which nobody ends or has failed and no supervisor with synchronized start has started yet: messages which are taken and actors and supervisors which answer can make everybody in the tree operational, where each starts only when its supervisor has told it to, and a supervisor starts only when none of its actors initializes any more. Without synchronized start this holds at any time. A child gets one init request, and without synchronized start it is told to start as soon as its answer arrives. With synchronized start, who has not been told to start when its supervisor has had its own start is never told and never operational: this hits every actor which is created or spawned again later.", "quantifier": "all trees of supervisors, of any depth and width, built at run time; all histories which lead there, all policies, any mixture of synchronized and other supervisors; the negative part: all continuations", "why_tests_cant": "That a state can be reached from every reachable state, and that another can never be reached, quantifies over all continuations; the only test of synchronized start creates all actors beforehand.", "anchors": ["src/rotor/plugin/child_manager.cpp:on_init", "src/rotor/plugin/child_manager.cpp:handle_start", "src/rotor/plugin/starter.cpp:on_start"]}
{"id": "C83", "title": "the start trigger of an actor comes once, and in time if the actor was there in time", "statement": "A supervisor tells none of its actors to start twice. Without synchronized start an actor is told only upon its own good answer to the init request, so the trigger never finds it initializing. With synchronized start it is told only by the start of the supervisor, and an actor which was created before the supervisor was initialized has answered its init request by then, or has failed and ended; so the trigger, which an initializing actor ignores, is not lost on it.", "quantifier": "all sequences of calls, messages and timers of one supervisor and its actors, and of trees of supervisors, both settings of synchronized start, all policies, with and without a parent", "why_tests_cant": "Whether a trigger finds its actor initialized depends on the interleaving of answers, creations, restarts and the supervisor's own start; a lost trigger shows only as an actor which silently does nothing.", "anchors": ["src/rotor/plugin/child_manager.cpp:on_init", "src/rotor/plugin/child_manager.cpp:handle_start", "src/rotor/plugin/child_manager.cpp:has_initializing", "src/rotor/plugin/starter.cpp:on_start"]}
