# Formal model of cpp-rotor in Coq

`/repo` is the actor framework *rotor* (C++17). This directory contains a Coq
8.16.1 model of its semantic core and proofs of the properties listed in
`properties.jsonl`. `MANIFEST.json` maps each property to the theorems that
state it. `seeded/LOG.jsonl` records the mutation experiments.

## Layout

`rocq/theories/`, logical name `Verif`. One group of files per component:

* `XModel.v`  - the code, function by function, as total computable Gallina
  (`init`, one function per C++ function, `step`). Each definition cites the
  file and lines of `/repo` it models and says where it simplifies.
* `XSpec.v`   - (where useful) the small independent specification.
* `XProofs.v` - invariants and lemmas.
* `XProps.v`  - only `Theorem ... exact lemma`, the non-vacuity `Example`s and
  `Print Assumptions`.

## Modelling conventions

* **User code is the environment.** Handlers and user overrides may call any
  API at any time. A model is driven by a list of operations (API calls,
  "dispatch the next message", event-loop events) and theorems quantify over
  *all* operation lists, so over all handler behaviours and schedules.
* **Asserts and undefined behaviour** are explicit outcomes, distinct from a
  normal result. A theorem about "never asserts" is stated as such.
* **Hash maps** become finite maps (std++ `gmap`) or association lists;
  theorems do not depend on the iteration order of the C++ container unless
  stated.
* **Pointers** become identifiers (`N`/`nat`); object life time (intrusive
  reference counting) is not modelled, except `use_count` for routed messages.
* **Numbers**: time is `Z`; identifiers are `N`; wrap-around is written
  explicitly where it matters (request ids mod 2^64, resource counters
  mod 2^32).
* **noexcept**: exceptions thrown inside `noexcept` functions (for example
  `unordered_map::at`) are an abort outcome.

## Per-property plan

| id | what is modelled | how it is proved |
|----|------------------|------------------|
| C01, C03, C04, C07 | `Kernel`: localities with queue and inbound queue, stamped sends, `process`, `redirect`, `route` with `use_count`, responses forwarded by `uplift_last_message` | invariants on stamps (order), on permutations (conservation) and on hops (routing) over all operation lists |
| C02, C05, C39 | `Subs`: `subscription_t` materialize/forget/update/get_recipients; delivery | refinement to a plain list of live subscriptions, insensitive to the tag; C02_dispatch_* in `Kernel` |
| C06, C43, C44, C45 | `Teardown`: subscription points, lifetime and foreigners plugins, unsubscription protocol, plugin deactivation | invariant on points, subscription map and messages under way; C44 by a decreasing measure |
| C08-C12 | `Requests`: request_map, active_requests, timers, ids mod 2^64, address mapping | inductive invariant over all operation lists; `AddrMapProofs` refines to a finite partial map |
| C13, C14 | `Timers`: `system_context_thread_t` timer list | sortedness invariant; ghost history; re-entrancy modelled; `TimersPresent.v`: loop time is monotone and bounded by the wall clock; `TimersHandlers.v`: nodes have distinct, still known handlers in every run |
| C15 | `ThreadWake`: mutex / condition variable / inbound queue transition system, n producers | inductive invariant |
| C16 | `FltkWake`: counter protocol, n producers | inductive invariant |
| C17-C19 | `Registry` | refinement to name -> address map; reverse index invariant; promise ledger |
| C20-C23, C30-C33 | `ChildMgr`: child manager, child_info, spawner | invariants over children, attempts, policies, clock, trace |
| C24-C28 | `Life`: actor_base_t with an arbitrary list of voting plugins, nested polls | invariants over state machine and vote log |
| C29, C34-C37 | `Actor`: link client, link server, registry client, resources, starter plugins of one actor in one store | trace invariant by small `move`s (`ActorMoves`, `ActorReach`) |
| C38 | `Config` | fold over setter sequence |
| C40 | `Flag` | invariant |
| C41 | `Errors` | induction over the chain |
| C42 | `Actor` model | total-correctness `wp` with a state invariant (`sane`); each rule of use has a counterexample |
| C46 | `Actor` model | invariant "what was asked for is under way" (`alive`, `waits`) |
| C47, C48 | `LoopWake`: inbound queue, strand or async watchers, polling, n producers | inductive invariant; termination of the routine; order by conservation |
| C49-C51 | `LoopTimers`: timers of the four event-loop backends in one model, re-entrant callbacks | inductive invariant with the trace |
| C52, C53 | `Family`: the `ChildMgr` model driven by queues, with n local and foreign children | trace invariant with a `hole` for the message being handled (`FamilyInv`), one lemma per move of a child (`FamilyChild`) |
| C54 | `Family` as above | second trace invariant on top of the first (`FamilyInit`): each open duty has a message, an armed timer or an event (`prog`, `trig`, `selfd`); moves which only add are one relation (`bears`) |
| C55 | `Dispatch`: the delivery loop with the storage of the handler vectors | trace invariant: the loop's plan is the subscriber list at its start |
| C56 | `Tree`: a map of `Family` models, linked by the requests of the parents | invariant linking the record of a child with the child supervisor itself, induction over the path |
| C57 | `Net`: a map of `Actor` models and one channel per pair of actors; events of an actor are the messages it sends | 14 states of a pair (link of the client, record of the server, messages both ways) kept by every step; each actor is either settled or waits for a client; a weight of links and messages decreases with every delivery (`NetEnds.v`) |
| C58 | `Locality`: a forest of supervisors with localities, own maps and queues, turns of the dispatchers | invariant of the forest (path to the leader), invariant of maps and queues, one turn counted exactly |
| C59 | `Names`: the actors of C57, the registry of C17-C19, a queue to and from the registry per actor | invariant over both (who owns a name, where each request is), order in the queue for cancellations; the net and the registry are runs of their own models |
| C60 | `Mem`: heap with counters, places which hold pointers, functions as lists of pointer operations, destructors in steps, threads | invariant over heap, places and destructors (counter = number of pointers); a rank for loops; variables by an abstract run of each body; a measure for the end |
| C61 | `System`: product of `Family` and `Net`; a request of the supervisor is an operation of the actor, what the actor sends is put into the queues of the family | simulation of both parts, and a relation between the life of the actor and the messages of its child cell (`cpl`) |
| C62 | `World`: product of `Tree` and `Net`; each child of a node is a node or an actor, chosen by any function | simulation of both parts, the relation `cpl` of C61 at every node, order by induction over the path, progress from a deepest working node |
| C63 | Actor and Net models; counts over traces | an actor never has more to say than twice what it asked for or was asked (invariant of the moves of ActorMoves.v), conservation of messages per channel, counting by pairs |
| C64 | Family model; a measure of the messages still to come | weights for queued messages, armed request timers, entries not yet asked to stop and children not yet gone; each event of the child manager has a price, each operation an allowance; births bounded through what the spawners have left |
| C65 | Tree model, measure of C64 summed over all nodes | each step of a node sets aside what it causes at its parent (2 for its own shutdown) and at a child supervisor (3 for the init request); every supervisor but the root is a child which was born |
| C66 | Callbacks as sequences of accesses, do_process and pointers given back; one supervisor, its owner and any number of callbacks | invariant: whoever waits or runs without a pointer of its own has a supervisor which is still kept by its parent; exactness by running each other callback alone |
| C67 | Subscriptions of any number of actors, kept in the lifetime plugin of each; the three forms of unsubscribe | invariant: the points of an actor are its own; the confirmations under way are at most the points marked, per actor, signature and address; counting |
| C68 | One supervisor, its children, their request builders; address mapping, lifetime points, queue of confirmations, deactivation of the child manager | invariant: points = map; addresses and handlers unique; a confirmation under way iff UNSUBSCRIBING; an ended child which is still there has a mapped subscription under way; measure for the end |
| C69 | Vectors of handlers with buffers, slots beyond the size and capacities; the loop of a delivery with its buffer, position and end; subscriptions and forgetting by the calls | relation between the vector before and after effects (contents appended; same buffer iff it fits); induction over the loop, both directions |
| C70 | Texts of type names in memory, the map of register_type with kept hash codes, static variables per module and type, type_index of messages, keys of handlers; loading, unloading, initialisation | invariant: the map is one to one between names and loaded texts; variables, messages and handlers have pointers of the map |
| C71 | Texts as lists of tokens, the chains of try_visit and get_message_level, dump_message, process plain and inspected over a queue | first words are not prefixes of each other; simulation of the two deliveries |
| C72 | WorldModel.v with the measures of C63 (links) and C65 (supervisors); runs split into a run of the tree and a run of the net | an actor calls do_shutdown at most once per unlink request taken, so deliveries of the net pay for what the tree gets from the actors |
| C73 | FamilyModel.v; lost spawners (FamilyEndSpec.v) | the measure of C65 falls with every delivery, so a family comes to rest; children which may finish do; a first vote asks everybody, a second succeeds; a lost entry is kept by every move of the child manager |
| C74 | TreeModel.v; lost spawners in a tree (TreeEndSpec.v) | the measure of C65 plus the stages of the supervisors falls: anything under way is delivered; if nothing is, the lowest supervisor which shuts down has a next step (a child finishes, a vote, deactivation, goodbye, end); a lost entry is kept by every step of the tree |
| C75 | FamilyModel.v, TreeModel.v | invariant: an answer under way or taken means the child is past initializing, and the flag of its entry is set once taken; so the step which takes the last unanswered entry finds no child initializing and tells; at rest an unanswered child has its request (C54); induction down the tree through the link of a supervisor to its entry (C56) |
| C76 | ChildMgrModel.v, policies | case analysis of remove_child and on_init under the invariant that an entry is kept under the address of its actor; runs of FamilyModel.v for the refuted texts |
| C77 | IntervalModel.v: conversions of do_start_timer in the five backends, doubles as integer times power of two, wall clock of a spawner | integer arithmetic: error of rounding to nearest, exactness below 2^53, wrap-around of static_cast<int>; case analysis of next_spawn |
| C78 | FamilyModel.v, from any reachable state in which nobody ends | peace is invariant under the steps of a start; the weight of C64 plus 36 for each waiting spawner decreases with each message, and each answer of a child brings one; when nothing is under way C75 gives a child with its init request in hand or the agreement of the child manager |
| C79 | TreeModel.v, from any reachable state in which nobody ends anywhere | C78 at each supervisor: a message which goes down is an init request and none goes up as a failure; the weight of C65 plus 36 for each waiting spawner decreases; when nothing is under way, go down from the root to an actor which can answer or to a supervisor whose child manager agrees |
| C80 | ContextModel.v: threads interleave between test, construction, assignment and return | invariant in two phases: until the stringifier is assigned, at most one thread is busy; afterwards no thread is between test and assignment, and all pointers are the one of the context |
| C81 | TreeModel.v with the rule that starts are told (TreeTopSpec.v) | the operations of each node are recorded: an operational child has taken a start operation, which needs a trigger among the events of its parent; a trigger at a synchronized supervisor comes after its own start; climb to the ancestor |
| C82 | TreeModel.v with the rule that starts are told (TreeAllSpec.v) | first all initialize: the measure of C79 also for supervisors which are no longer waited for; a counting invariant gives each child one init request; then start node by node from the root, the number of initialized ones falls; late children: the state of a supervisor never returns to initialized, and only then a synchronized one sends triggers |
| C83 | ChildMgrModel.v, FamilyModel.v, TreeModel.v (TriggerSpec.v) | numbers wait once in the queue of created actors, then among the outstanding init requests, then as answered, so one answer; a synchronized supervisor sends only in the step from initialized to operational, which does not come back; when it became initialized no child was initializing, and later states only grow; a step of a supervisor with its actors is a step of its child manager, except for timeouts, which close a request and open none |

## Trusted base

* Coq's kernel (coqc 8.16.1) and the standard library; std++ as an ordinary
  library. Each theorem is followed by `Print Assumptions`; results are recorded
  below when they are not "Closed under the global context".
* The correspondence between `/repo` and the `*Model.v` files is by reading.

## What was found in the code

Each is a theorem named `_refuted` (or an `Example`), stated about a reachable run:

* C06, C12, C22, C23, C33, C36, C37: see the notes in `MANIFEST.json`.
* C42: eighteen ways to run into an assertion or an erased object, each by one
  step which the rest of the API allows (late answers of the registry, an unlink
  notification after a timeout, releasing after a failed link, ...).
* C46: two names found at one address can leave the initialization waiting for
  ever (`aliases_map` keeps the address after the task is erased).
* C24: the assertion of `init_shutdown.cpp:55` is a tautology; a second shutdown
  request restarts the shutdown of an actor which is down.
* C16: with two contexts the shared counter protocol loses wake-ups (see the note).
* C48: the async watcher of a child supervisor is stopped by its shutdown; messages
  for addresses it made then wait in the inbound queue until another wake-up.
* C51: with fltk the messages sent by a timer callback wait until something else
  processes the queue.
* C49, C50: a timer cancelled inside its own callback is called back twice, erased
  through a dangling iterator, and (ev, fltk) releases the supervisor twice.
* C52: two calls of `do_shutdown` before the first trigger is delivered end a root
  supervisor without children in `std::terminate`: the second trigger reaches
  `actors_map.at` in a noexcept handler after the supervisor took itself off the
  list. The same happens when a child whose shutdown request timed out asks for its
  shutdown. An init timeout which fires behind the answer and the end of a spawned
  child dereferences a null actor. The late init timeout of a child which is off the
  list shuts down the supervisor itself.
* By reading only: `child_manager.cpp:287-290` calls `do_shutdown` of a foreign child
  supervisor in the thread of its parent, so the queue of the child is written without
  synchronisation.
* C45: handlers are compared by `typeid`, so two handlers of one type at one
  address are one.
* C44: a handler which is subscribed again before its unsubscription is confirmed keeps the
  actor from ever shutting down: the confirmation takes back the new subscription (the last
  one which compares equal), and the old one stays UNSUBSCRIBING, so nobody asks for it any
  more (`C44_again_refuted`).
* C55: a handler which subscribes an actor to the address and type of the message it
  handles grows the vector under the range-for of `local_delivery_t::delivery`.
* C56: a child created after the child manager has agreed to the shutdown (for example
  by a handler of the supervisor) is never asked to shut down, and is alive when its
  supervisor has shut down (`C56_late_refuted`).
* C57: two actors which link to each other never end their shutdown: each keeps the unlink
  request of the other until it has no clients (`C57_ring_refuted`); a link to oneself is
  the smallest such circle (`C57_self_refuted`).
* C57: a client with clients keeps the unlink request of its server, and does not look at it
  again when its clients have left; the server waits until the request times out
  (`C57_row_refuted`, link_client.cpp:102-123, link_server.cpp:66-84).
* C57: `operational_only` clients of a server which shuts down before its start are never
  answered nor asked to leave (`C57_waiting_refuted`, link_server.cpp:123-133).
* C57: a link request which timed out leaves the client in the list of the server, which asks
  it to unlink; the client does not answer (`C57_timeout_refuted`).  If the client links
  again in between, the unlink request overtakes the answer and an assertion fails
  (`C57_relink_refuted`).
* C57: a link answer which reaches an actor that shuts down, holds its init request and has
  clients, fails an assertion (`C57_answer_refuted`).
- `subscription_info_t::tag` (subscription_point.cpp:39-44) updates the map of the
  supervisor of the actor, but subscriptions are stored in the map of its locality
  leader (supervisor.cpp:93).  For an actor below a child supervisor which shares the
  locality of its parent, `tag_io` on its own address violates the assertion in
  subscription.cpp:54 (C58_tag_refuted); C58_tag_partial gives the exact condition.
- std::thread backend: `start_timer` counts from the last clock reading unless a blocking handler
  runs (system_context_thread.cpp:105-107). A handler that works longer than the interval before it
  starts a timer gets the callback in the next `update_time`, with no wait at all
  (`C13_wall_refuted`).
- The locality leader is looked for at the parent only (locality.cpp:31-43), but
  `process` decides by comparing localities.  Two supervisors with the same strand and a
  supervisor with another strand between them (C58_lost_refuted), or two supervisors
  with the default `make_address` below one with a strand (C58_mixed_refuted), have one
  locality and two leaders: a message from one to the other is taken as internal, is not
  found in the map and is dropped silently.
* C59: an actor which shuts down before the answer to its registration arrives leaves the
  name in the registry: names in the state REGISTERING are forgotten, not given back
  (plugin/registry.cpp:154-165), and the answer is dropped (`C59_stale_refuted`). The same
  happens when the registration times out (`C59_late_refuted`). A later discovery finds the
  actor which is gone, and nobody can register the name again.
* C59: a delayed discovery whose promise is fulfilled but whose link is open is cancelled at
  shutdown; the registry does not know the promise any more and does not answer
  (registry.cpp:99-113), so the shutdown waits for the link (`C59_cancel_refuted`).
* C60: a message with `next_route` can be lost. The locality which delivered it and the
  destructor of the call in another locality (messages.cpp:13-20) each ask whether
  `use_count() == 1`; if both ask before either releases its pointer, nobody sends it on
  (`C60_route_refuted`). The actor which waits for the message (make_routed_message) waits
  for ever.
* C60: `~supervisor_t` releases what is in the inbound queue; if a call there has the last
  pointer to a routed message, `~handler_call_t` calls `enqueue` of the same supervisor,
  which is pure virtual by then (`C60_destructor_refuted`). An address refers to its
  supervisor by a plain reference (users are asked to see to it, address.hpp:24-26), so a message to a supervisor which is gone is written
  into freed memory (`C60_dangling_refuted`).
* C60: a message in the inbound queue of a supervisor other than that of the context which
  refers to this supervisor keeps it for ever: only the destructor empties the queue
  (`C60_loop_refuted`). `redirect` changes the address of a message which handlers of
  other localities may be reading (`C60_redirect_refuted`).
* C61: a ring of links (each of two children is a client of the other) keeps the supervisor
  from ending: the children wait for each other to unlink, nothing is under way any more,
  and `child_manager_plugin_t::handle_shutdown` says no, until the unlink requests time out
  (`C61_ring_refuted`).
* C62: the actors of a ring of links may be in different supervisors: then no supervisor of
  the tree ends by itself (`C62_ring_refuted`).
* C64: with `restart_policy_t::always`, `restart_period` 0 and no `max_attempts` a child which
  stops in its own `configure` is respawned by messages alone, so `do_process` does not return
  (`C64_endless`; the default period is 15 s, so this takes an explicit setting).
* C66: the asynchronous watcher of a libev supervisor (`on_async`, supervisor_ev.cpp 119-142)
  runs on a plain pointer and reads `poll_duration` after `do_process`; a child supervisor in
  the locality of its parent whose last message came with this callback has been freed by its
  parent by then (`C66_async_refuted`). The asio forwarder of an actor (forwarder.hpp 126-144)
  keeps the actor only; its supervisor, if its parent works in another thread, may be freed
  while it processes messages (`C66_forward_refuted`), and if the actor holds no resource,
  before the completion arrives (`C66_dangling_refuted`).
* C67: `actor_base_t::unsubscribe(&A::method)` and `unsubscribe(&A::method, address)` ask the
  lifetime plugin of the *supervisor* (supervisor.h 189-193, 502-509), while the subscription is
  in the lifetime plugin of the actor; at every actor which is not a supervisor the assertion in
  lifetime.cpp 77 fails (`C67_plain_refuted`). The form with a handler object is right.
* C68: two request builders of one actor with one type of response, both made before the first
  is sent, install two handlers at two addresses, but `address_mapping_t::set` (address_mapping.cpp
  13-17, `try_emplace`) keeps only the first. The second stays subscribed when the actor is gone
  (`C68_stale_refuted`), and when the supervisor shuts down `address_mapping_t::remove` calls
  `actor_map.at` for the missing owner in a noexcept function: the program is terminated
  (`C68_two_refuted`).
* C69 (see C55 as well): `local_delivery_t::delivery` (delivery.cpp 39-50) walks over the vector of handlers itself, and `supervisor_t::subscribe` appends to that vector at once. With two handlers of one address and type, a first one which makes a third subscribe to the same (it creates an actor whose plugin configuration subscribes to a common bus address) frees the buffer which is being walked over. A user's handler of its own confirmations of unsubscriptions is called once more after it has been forgotten (the lifetime plugin's handler, before it in the vector, forgets it).
* C70: `register_type` (message.cpp) tells types apart by the text of `type_index.name()`. Two payloads of one name in unnamed namespaces of different sources have one text on the usual compilers, so a handler of one gets messages of the other and casts them. The map keeps views of texts: a library whose names were the first must not be unloaded.
* C71: the text of a registration request lacks the quote after the name of the service (default_stringifier.cpp, `on(registration_request_t)`).
* C72: nothing wrong was found: a cascade of lost links stops by itself, because an unlink request is sent once per link, and an actor calls do_shutdown once per unlink request. What is free in the bound is only what user code asks for.
* C73: two ways to hang at shutdown. A spawner whose factory throws while the supervisor already shuts down starts a restart timer (child_manager.cpp 210-253); when the timer fires before the next vote, on_spawn_timer (495-508) sends nothing and leaves the entry active, and active_actors (470-483) counts it for ever: no vote succeeds any more (C73_stuck_refuted). If the factory gives up instead, the entry stops to count, but nobody calls shutdown_continue (C73_told_refuted, as C31_hang_refuted). Apart from these, a supervisor which is told to end can always end.
* C74: one restart timer which fires at the lowest supervisor, after it was asked to end and before its child manager votes (child_manager.cpp 470-481, 493-508), keeps every supervisor above from ending: the spawner stays `active` without actor, timer or message, and `active_actors` never falls to one (C74_stuck_refuted). Without such a timer every tree can end (C74_ends, C74_punctual).
* C75: nothing wrong was found. Without the call of `init_continue` at the end of `remove_child`,
  or with `initialized` ignored by `has_initializing`, a supervisor could wait for ever; the
  mutants show it.
* C76: `supervisor_policy_t::shutdown_failed` is documented as "shutdown a failed child and
  continue initialization" (policy.h 18), but `remove_child` (child_manager.cpp 103-109) ends the
  supervisor when the failed child leaves the list; test 023 expects this. With `shutdown_self`
  a child which ends, not started, before the init request of its supervisor has arrived is
  removed without any reaction (child_manager.cpp 110-116 have no `else`, unlike `on_spawn` and
  `on_init`), and the supervisor becomes operational without it.
* C77: `supervisor_wx_t::do_start_timer` casts the interval to whole milliseconds in an `int`: a timer
  may fire up to a millisecond early, one below a millisecond fires at once, one of 25 days is
  negative. `child_info_t` takes `microsec_clock::local_time()`, so at the beginning of daylight saving
  time a spawner restarts up to an hour early. `next_spawn` returns the elapsed time, not the rest of
  the period; the caller ignores the value and waits for the whole period.
* C78: nothing wrong. After an init error of the supervisor itself its init request is gone, so a start
  which has failed is never taken up again (C78_failed_ex).
* C79: nothing wrong. Supervisors cannot wait for each other in a circle, since a parent does nothing for
  its child but to send the init request when the child was created.
* C80: `system_context_t::get_stringifier` builds its object lazily and without a guard, and the delivery plugins keep plain pointers to it. In normal use this is safe, only because `create_supervisor` activates the delivery plugin of the root before anybody can create a child. If a user asks for the stringifier in another thread while the root is created, or two threads call `create_supervisor` at once (both pass the test of the member `supervisor`), then the second assignment destroys the stringifier to which the first supervisor points. A supervisor which outlives its context prints with a destroyed stringifier too.
* C81: with synchronized start at every supervisor a tree starts from the root, and nobody works before the root does. One supervisor without the option is enough to lose this for everything below it: its actors may work while all supervisors above still initialize.
* C82: **with synchronized start, actors which come after the start of their supervisor never start.** child_manager.cpp 295-302 sends the trigger to an initialized child only if the option is off, and handle_start (441-453), which does it when the option is on, runs once, when the supervisor starts. So an actor created in an operational supervisor, or one which a spawner spawns again, initializes and waits for ever, without an error (C82_late, C82_created_late_refuted, C82_respawned_late_refuted). For its restart policies this means that a synchronized supervisor restarts actors which then do nothing. Who is still initializing when its synchronized supervisor starts, for instance because it was created or spawned again while the supervisor waited for its own trigger, gets the trigger too early: starter.cpp 72-76 ignores it, and there is no second one (C82_silent, C82_told_early_refuted). C82_all shows that this is avoidable: there is always an order in which every supervisor starts only after its actors have initialized (`timely`). The rule [told] of the model does not know of triggers which are ignored, so C82_late speaks only about those which got none. Everybody who is there in time can start (C82_all).
* C83: triggers come once, and for actors which are there before the supervisor is initialized they come in time. handle_start (child_manager.cpp 441-453) walks over all entries of actors_map, also over those of spawners whose last actor has ended: these get a message which nobody reads.

## Not modelled

Memory management and C++ object life time other than counted pointers and the
destructors of C60, memory order of atomics, exception safety of user code,
boost.lockfree queue internals (taken as a linearizable FIFO),
the bodies of asio/ev/wx event loops (only the operations they trigger), and compile-time machinery (plugin lists are data).
