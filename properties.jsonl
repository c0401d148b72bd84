{"id": "C01", "title": "Label parsing denotes exactly the listed values", "statement": "Parsing a label specification (comma separated integers and lo-hi ranges, given as a string or as a list of strings) either fails with a payload error, exactly when some item is not an integer or an ascending integer range, or yields a label whose values are exactly the union of the listed items, stored as ascending ranges that are non-empty, pairwise disjoint and not even adjacent; so the stored form depends only on the denoted set.", "quantifier": "for every label specification text, every number and order of items, every integer value", "why_tests_cant": "the space of texts, item orders, overlaps and adjacencies is unbounded; a handful of examples cannot exclude a dropped or invented value", "anchors": ["opennsa/nsa.py: Label.__init__, Label._parseLabelValues"]}
{"id": "C02", "title": "Label intersection is set intersection", "statement": "Intersecting two labels of the same type yields a label that contains a value if and only if both labels contain it; it fails with the empty-label-set error exactly when no value is common; the result does not depend on argument order; and the can-match test answers true exactly when a common value exists (both absent: match, one absent: no match).", "quantifier": "for every pair of labels with any number of ranges", "why_tests_cant": "the two-pointer walk has unboundedly many relative range layouts; an off-by-one in one branch shows only for particular layouts", "anchors": ["opennsa/nsa.py: Label.intersect, Label.canMatch"]}
{"id": "C03", "title": "Label text form round-trips", "statement": "Writing a label's values as text (as done for database storage, URNs and topology documents) and parsing that text again gives a label equal to the original with the identical ranges.", "quantifier": "for every label obtained by parsing, any number of ranges, any magnitude", "why_tests_cant": "needs decimal printing and parsing to be inverse for all integers and all range lists", "anchors": ["opennsa/nsa.py: Label.labelValue, Label._parseLabelValues, Label.__eq__", "opennsa/database.py: adaptLabel, LabelComposite"]}
{"id": "C04", "title": "Label enumeration is exact", "statement": "Enumerating a label lists each denoted value exactly once, in ascending order, and nothing else; a label reports to be single-valued exactly when it denotes one value, in which case the enumeration is that value.", "quantifier": "for every parsed label", "why_tests_cant": "all sets of ranges have to be covered", "anchors": ["opennsa/nsa.py: Label.enumerateValues, Label.singleValue"]}
{"id": "C05", "title": "A random label value belongs to the label", "statement": "Picking a random value from a label returns a value the label denotes.", "quantifier": "for every parsed label and every outcome of the random generator", "why_tests_cant": "the random outcome is not controllable by a test; an out-of-range pick is rare for wide ranges", "anchors": ["opennsa/nsa.py: Label.randomLabel"]}
{"id": "C06", "title": "Availability check agrees with interval overlap", "statement": "The calendar's availability check succeeds exactly when the requested span is legal (start not after end, start not in the past and not after 2095) and shares no instant with any stored reservation of the same resource, where an absent start means now and an absent end means the year 9999; a conflict is reported as 'STP unavailable', an illegal span as a payload error; and checking never changes the calendar.", "quantifier": "for every calendar content, resource, span (with or without start/end) and current time", "why_tests_cant": "unbounded calendars and all orderings of four instants, including absent ones", "anchors": ["opennsa/backends/common/calendar.py: checkReservation, _resourceOverlap"]}
{"id": "C07", "title": "The calendar never double-books a resource", "statement": "If entries are only added after a successful availability check for the same resource and span at the same moment, then at any later time no two stored reservations of one resource share an instant of the time they occupy (an entry without start occupies the resource from the moment it was booked).", "quantifier": "for every sequence of check-and-book, remove and clock-advance steps of any length", "why_tests_cant": "the guarantee is about all histories, including removals and the moving meaning of an absent start", "anchors": ["opennsa/backends/common/calendar.py: ReservationCalendar"]}
{"id": "C08", "title": "Removing a reservation removes exactly one matching entry", "statement": "Removing a reservation fails with an error and changes nothing if no identical entry (resource, start, end) is stored; otherwise exactly one such entry disappears and all other entries stay, in order; adding then removing an entry restores every availability answer.", "quantifier": "for every calendar content and entry", "why_tests_cant": "unbounded calendars with duplicates", "anchors": ["opennsa/backends/common/calendar.py: addReservation, removeReservation"]}
{"id": "C09", "title": "Connection states only move along the NSI state diagrams", "statement": "Every successful state operation moves exactly one of the three states (reservation, provision, lifecycle) along an edge of the published NSI state diagram (plus the two documented self-loops) and is saved; every operation that is not such an edge is refused with an internal-server error and leaves the stored connection unchanged; hence over any sequence of operations each state's history is a path in its diagram.", "quantifier": "for every starting state and every finite sequence of state operations", "why_tests_cant": "all sequences of operations, of unbounded length", "anchors": ["opennsa/state.py: RESERVE_TRANSITIONS, PROVISION_TRANSITIONS, LIFECYCLE_TRANSITIONS, _switchState, reserveChecking..terminated"]}
{"id": "C10", "title": "Terminated is final and end-of-life is one-way", "statement": "Once a connection's lifecycle is Terminated no sequence of state operations changes the lifecycle again, and once a lifecycle has left Created it never returns to Created.", "quantifier": "for every finite sequence of state operations from every state", "why_tests_cant": "needs all sequences", "anchors": ["opennsa/state.py: LIFECYCLE_TRANSITIONS, passedEndtime, failed, terminating, terminated"]}
{"id": "C11", "title": "State subscribers are all notified after the save", "statement": "After a state change is saved every callback subscribed to that connection is invoked exactly once, in subscription order, even if some of the callbacks raise; callbacks of other connections are not invoked; nothing is invoked when the save fails.", "quantifier": "for every set of subscriptions and every behaviour of the callbacks (raising, unsubscribing themselves or others)", "why_tests_cant": "callback behaviours and subscription lists are unbounded", "anchors": ["opennsa/state.py: subscribe, desubscribe, saveNotify"]}
{"id": "C12", "title": "One pending call per connection, cancelled calls never run", "statement": "At every moment there is at most one pending (neither run nor cancelled) scheduled call per connection; a call runs at most once, not before its time, and never after it was cancelled; scheduling while another call is pending, or for a time more than a second in the past, is refused without touching the pending call; cancelling everything leaves nothing pending.", "quantifier": "for every sequence of schedule, cancel, cancel-all, clock and fire steps", "why_tests_cant": "all interleavings of timers with cancellations", "anchors": ["opennsa/backends/common/scheduler.py: CallScheduler"]}
{"id": "C13", "title": "Routes are genuine, within the cost limit and avoid blacklisted networks", "statement": "A route returned for a destination starts at the requested local network, every hop uses a port with a vector from the hop's network to the next hop's network (the last one to the destination), no network on it after the source is blacklisted, and the sum of the vector costs does not exceed the configured maximum.", "quantifier": "for every set of vectors with non-negative costs, every local network, blacklist and maximum cost", "why_tests_cant": "all graphs", "anchors": ["opennsa/topology/linkvector.py: _dijkstra, path"]}
{"id": "C14", "title": "Routes are cheapest and are found whenever they exist", "statement": "The route returned has the lowest total cost among all hop sequences from the source to the destination that avoid blacklisted networks; and no route is reported exactly when there is no such hop sequence within the maximum cost.", "quantifier": "for every set of vectors with non-negative costs", "why_tests_cant": "optimality quantifies over all alternative paths in all graphs", "anchors": ["opennsa/topology/linkvector.py: _dijkstra, path"]}
{"id": "C15", "title": "Route computation terminates without internal error", "statement": "Recomputing the routes and asking for a route terminate and raise no internal error for every vector table with non-negative costs whose source network is not blacklisted; the only error is asking from a network that is not local.", "quantifier": "for every vector table with non-negative costs", "why_tests_cant": "termination over all graphs cannot be sampled", "anchors": ["opennsa/topology/linkvector.py: _dijkstra, path, vector"]}
{"id": "C16", "title": "Routes always reflect the current vectors", "statement": "After any sequence of adding local networks, updating vectors and deleting vectors, every route answer is the one computed from the vectors currently stored: a deleted port is never used, a newly learned destination is routable immediately.", "quantifier": "for every sequence of table operations", "why_tests_cant": "all histories of updates", "anchors": ["opennsa/topology/linkvector.py: addLocalNetwork, updateVector, deleteVector, _calculateVectors"]}
{"id": "C17", "title": "A re-advertised vector cost takes effect", "statement": "When a port's vector to a destination is advertised again with a different cost, the new cost is the one used for routing from then on.", "quantifier": "for every vector table and every update", "why_tests_cant": "needs the update path with an existing entry for all tables; the log message suggests it works", "anchors": ["opennsa/topology/linkvector.py: updateVector"]}
{"id": "C18", "title": "Port authorization grants exactly on a matching rule", "statement": "A request is authorized for a port exactly when the port carries no rules, or some rule of a header kind (nsa, user, group, token) equals one of the request's security attributes in both type and value, or some host-DN rule equals the host DN of the client certificate; rules of unknown kind never grant anything; and adding attributes to a request never revokes authorization.", "quantifier": "for every rule list, attribute list and certificate", "why_tests_cant": "arbitrary rule/attribute combinations", "anchors": ["opennsa/authz.py: isAuthorized, AuthorizationAttribute.match"]}
{"id": "C19", "title": "The HTTP access gate admits only listed hosts", "statement": "With an allowed-hosts list configured, a SOAP request reaches its decoder only if it came over TLS with a client certificate whose common name is on the list and its SOAP action is registered; every other request is answered with 401 (or 406 for an unknown action) and causes no dispatch; without a list, no plain request is refused on host grounds.", "quantifier": "for every request and every list", "why_tests_cant": "all combinations of transport, certificate and list", "anchors": ["opennsa/protocols/shared/soapresource.py: SOAPResource.render_POST", "opennsa/protocols/shared/requestauthz.py: checkAuthz"]}
{"id": "C20", "title": "Provider registry is stable and shares providers per agent", "statement": "Once a network has a provider, every later lookup returns that same provider whatever else is registered or spawned; spawning for a known network or for a further network of a known agent creates no new provider and the agent's existing one is used; looking up an unknown network is an STP-resolution error; explicit double registration is refused and changes nothing.", "quantifier": "for every sequence of add, spawn and lookup operations", "why_tests_cant": "all histories", "anchors": ["opennsa/provreg.py: ProviderRegistry"]}
{"id": "C21", "title": "NSI errors survive the wire as the same or a more general error", "statement": "Encoding any NSI error raised by this agent as a service exception and decoding it at the other side gives an error whose class is the original one or one of its ancestors, with the original text, agent id, connection id and the same number of variables; decoding never fails for error ids produced by this agent.", "quantifier": "for every NSI error class and contents", "why_tests_cant": "the whole class table has to be covered together with its fallback rule", "anchors": ["opennsa/error.py: NSI_ERROR_CODE_TABLE, lookup", "opennsa/protocols/nsi2/helper.py: createServiceException, createException"]}
{"id": "C22", "title": "Decoding a peer's service exception never fails", "statement": "Whatever error id a peer puts in a service exception, decoding it produces an NSI error rather than an unrelated exception, so the failure reaches the requester as a failure of that operation.", "quantifier": "for every error id", "why_tests_cant": "all strings, in particular unknown categories", "anchors": ["opennsa/error.py: lookup", "opennsa/protocols/nsi2/helper.py: createException"]}
{"id": "C23", "title": "STP identifiers round-trip", "statement": "Formatting an STP as a URN and parsing it back yields an equal STP (network, port, label type and the same label values), for networks and ports free of the reserved characters; malformed identifiers (missing prefix, no port separator, unknown label type, bad label values) are rejected with a payload error.", "quantifier": "for every network name, port name and label", "why_tests_cant": "all names and labels", "anchors": ["opennsa/nsa.py: STP.urn, STP.baseURN", "opennsa/protocols/nsi2/helper.py: createSTP, parseLabel"]}
{"id": "C24", "title": "Port configuration lines mean what they say", "statement": "A port specification line produces exactly one port with the written type, name, remote (with in/out names), label, bandwidth, interface, authorization rules, vectors and transit restriction; blank and comment lines produce nothing; ports come out in file order; and an unknown port type, label type, attribute or a wrong number of fields rejects the whole file.", "quantifier": "for every file of any length and every field content", "why_tests_cant": "unbounded files and field contents", "anchors": ["opennsa/topology/nrm.py: parsePortSpec, _parseRemoteSpec, _parseLabelSpec"]}
{"id": "C25", "title": "Every outgoing request completes at most once, with its own answer", "statement": "The result handed to the caller of an outgoing request (reserve, commit, provision, release, terminate, recursive query) is fired at most once over any sequence of confirmations, failures, invocation errors and timeouts, only by an event carrying the same provider, correlation id and kind of action, and late or unknown answers change nothing.", "quantifier": "for every sequence of calls, callbacks, invocation failures and timer expirations", "why_tests_cant": "all interleavings of answers and timeouts", "anchors": ["opennsa/protocols/nsi2/requester.py: addCall, callbackTimeout, triggerCall"]}
{"id": "C26", "title": "Every outgoing request eventually completes", "statement": "An outgoing request that is still unanswered when its callback timeout expires fails with a callback-timeout error at that moment, whatever was received before.", "quantifier": "for every sequence of callbacks before the expiry", "why_tests_cant": "all callback histories, including answers of the wrong kind", "anchors": ["opennsa/protocols/nsi2/requester.py: addCall, callbackTimeout, triggerCall"]}
{"id": "C27", "title": "At most one reply per request, sent to its requester", "statement": "Over any sequence of requests and confirmations, each confirmation sent out answers a request of the same connection whose reply address, requester, provider and correlation id it carries; a request is answered at most once; confirmations without a waiting request send nothing.", "quantifier": "for every sequence of requests and confirmations for any number of connections", "why_tests_cant": "all interleavings", "anchors": ["opennsa/protocols/nsi2/provider.py: Provider"]}
{"id": "C28", "title": "Replies match the kind of request", "statement": "The header used for a confirmation is that of a request of the same kind: a commit confirmation never uses up or carries the reply address of an abort request and vice versa, and a reservation confirmation is delivered even if it becomes available before the acknowledgement.", "quantifier": "for every sequence of requests and confirmations", "why_tests_cant": "needs specific interleavings of commit/abort and of early confirmations", "anchors": ["opennsa/protocols/nsi2/provider.py: RESERVE_COMMIT_RESPONSE, RESERVE_ABORT_RESPONSE, reserve, setNotify"]}
{"id": "C29", "title": "A refused reservation changes nothing, an accepted one books both ends", "statement": "A backend reservation request is accepted only if both STPs are in the managed network and exist, the duration is long enough, both ports authorize the request, not both ports are transit restricted, the ends differ, label types are connectable and both ports can carry some of the requested labels; on acceptance exactly the two resources of one label choice (taken from the requested labels, equal on both sides unless the device can swap labels) are booked for the requested span and one connection in the initial state is stored; on refusal calendar and connections are unchanged.", "quantifier": "for every backend configuration, calendar, request and connection-manager behaviour", "why_tests_cant": "the decision chain has many interacting inputs; booking must be all-or-nothing on every path", "anchors": ["opennsa/backends/common/genericbackend.py: GenericBackend.reserve, _authorize"]}
{"id": "C30", "title": "A booked label is one the port offers", "statement": "The label value chosen for a reservation belongs to the label range configured on the port.", "quantifier": "for every port label, requested label set and calendar", "why_tests_cant": "depends on the relation of requested and configured ranges and on what is already booked", "anchors": ["opennsa/backends/common/genericbackend.py: GenericBackend.reserve"]}
{"id": "C31", "title": "Resources are held exactly by live reservations", "statement": "When operations on a backend are processed one after the other (each request, timer and device reply completing before the next starts), at all times the calendar contains exactly the bookings of the connections that are held or committed and not yet ended or terminated: nothing leaks, nothing is freed early, whatever requests, timeouts, device failures and clean restarts occur.", "quantifier": "for every sequence of requests, timers, device outcomes and clock advances of any length", "why_tests_cant": "all histories over any number of connections", "anchors": ["opennsa/backends/common/genericbackend.py: reserve, reserveCommit, reserveAbort, provision, release, terminate, _doReserve, _doReserveTimeout, _doReserveRollback, _doActivate, _doTeardown, _doEndtime, _doFreeResource"]}
{"id": "C32", "title": "No two live connections share a resource in time", "statement": "Under the same conditions, no two different connections that are held or committed, and not ended or terminated, occupy the same resource at the same instant.", "quantifier": "for every sequence of backend operations", "why_tests_cant": "a global safety property over all histories", "anchors": ["opennsa/backends/common/genericbackend.py", "opennsa/backends/common/calendar.py"]}
{"id": "C33", "title": "Uncommitted reservations expire, committed ones do not", "statement": "A held reservation that is not committed is rolled back and its resources freed when its two-minute timer (or its end time if earlier) fires, and the requester is told; after a commit the expiry never happens; commit after expiry or abort is refused.", "quantifier": "for every sequence of backend operations and timer firings", "why_tests_cant": "timer/commit orderings over all histories", "anchors": ["opennsa/backends/common/genericbackend.py: _doReserve, _doReserveTimeout, _doReserveRollback, reserveCommit"]}
{"id": "C34", "title": "Data plane is only set up for committed, live, authorized connections", "statement": "A link is only ever set up for a connection whose reservation has been committed and for which a provision request passed authorization before the end time; requests on unknown, unauthorized or terminated connections are refused without any effect.", "quantifier": "for every sequence of requests, timers and device outcomes, including arbitrary interleaving at every suspension point", "why_tests_cant": "all interleavings", "anchors": ["opennsa/backends/common/genericbackend.py: provision, _doActivate, _authorize, _getConnection"]}
{"id": "C35", "title": "Links are torn down at the end of a connection", "statement": "When a connection ends (end time passes, release, or terminate) and the device reported the link up, the device is told to tear it down, and the connection is reported inactive afterwards.", "quantifier": "for every sequence of backend operations", "why_tests_cant": "all histories", "anchors": ["opennsa/backends/common/genericbackend.py: release, terminate, _doEndtime, _doFreeResource, _doTeardown"]}
{"id": "C36", "title": "Concurrent operations on one connection keep its state history legal", "statement": "Even when requests and timers for the same connection overlap (a request arriving while an earlier one waits for the device or the database), the stored lifecycle state never goes back from Terminated, and a terminated connection's link is not left up.", "quantifier": "for every interleaving at suspension points", "why_tests_cant": "requires exact control of interleavings", "anchors": ["opennsa/backends/common/genericbackend.py: provision, _doActivate, terminate"]}
{"id": "C37", "title": "Restart restores exactly the live bookings", "statement": "Restarting the backend from its stored connections rebuilds a calendar holding exactly the bookings of the connections that are still held or committed and not ended, ends those whose end time has passed, and re-arms one timer for each connection that has something left to do.", "quantifier": "for every set of stored connections and every restart time", "why_tests_cant": "all stored states and clock positions", "anchors": ["opennsa/backends/common/genericbackend.py: buildSchedule"]}
{"id": "C38", "title": "Queries reveal only the requester's own connections", "statement": "A query answer contains exactly the stored connections that match the given ids and belong to the asking agent (all agents' connections only for a configured administrator), each reported with its stored states.", "quantifier": "for every set of connections, requester and id filter", "why_tests_cant": "isolation over all data sets", "anchors": ["opennsa/aggregator.py: querySummary", "opennsa/backends/common/genericbackend.py: _query", "opennsa/config.py: is_admin_override"]}
{"id": "C39", "title": "Reservation policy is enforced before anything is created", "statement": "The aggregator rejects a reservation, without creating a connection or contacting any provider, if a connection trace or user attribute is required and missing, or if neither endpoint is local and the agent is not configured as aggregator; and asks no provider for a connection between two labels of one local port unless such connections are allowed; the trace passed downstream is the received trace extended by this agent's own entry.", "quantifier": "for every request and policy set", "why_tests_cant": "policy combinations", "anchors": ["opennsa/aggregator.py: Aggregator.reserve"]}
{"id": "C40", "title": "Path segments join up end to end", "statement": "For a reservation leaving the local networks, the segments requested from providers form a chain: the first starts at the local endpoint, each local segment ends at a port on the computed route, the next segment starts at exactly the STP that port is connected to, and the last segment ends at the remote endpoint; each local segment lies within a single network.", "quantifier": "for every route, port map and pair of endpoints", "why_tests_cant": "all topologies and route lengths", "anchors": ["opennsa/aggregator.py: Aggregator.reserve"]}
{"id": "C41", "title": "The aggregate confirms a reservation exactly when every segment is held", "statement": "The reservation confirmation is sent upwards once, only after every segment provider confirmed, in whatever order the confirmations arrive; confirmations with an unknown correlation id or from a provider other than the one asked are refused and change nothing; after a segment failed no confirmation is sent.", "quantifier": "for every number of segments and every order of confirmations and failures", "why_tests_cant": "all arrival orders for any number of segments", "anchors": ["opennsa/aggregator.py: reserveConfirmed, reserveFailed"]}
{"id": "C42", "title": "Aggregated confirmations wait for all segments", "statement": "Commit, abort, provision, release and terminate confirmations are sent upwards only when every segment has reached the corresponding state, at most once per such operation, whatever the order and repetition of segment confirmations; each message received leads to at most one message upwards, of the kind that answers it.", "quantifier": "for every number of segments and every sequence of segment confirmations", "why_tests_cant": "all orders and duplications", "anchors": ["opennsa/aggregator.py: reserveCommitConfirmed, reserveAbortConfirmed, provisionConfirmed, releaseConfirmed, terminateConfirmed"]}
{"id": "C43", "title": "Aggregated data plane status is conservative", "statement": "The reported status is active only if every segment is active, its version is the largest segment version, it is consistent only if every segment is consistent and all agree on being active, a connection without segments is reported inactive, and the status given in a query agrees with the one last notified.", "quantifier": "for every list of segment states", "why_tests_cant": "all combinations for any number of segments", "anchors": ["opennsa/aggregator.py: dataPlaneStateChange, querySummary"]}
{"id": "C44", "title": "Failures of several providers are all reported", "statement": "If some of the providers asked refuse, the operation fails: with that provider's own error if one failed, otherwise with one error naming every failed provider and its message, and never reports success; if all acknowledge it succeeds. Providers are asked for the operation that was asked for and for no other.", "quantifier": "for every number of providers and every success/failure pattern", "why_tests_cant": "all patterns", "anchors": ["opennsa/aggregator.py: _createAggregateException, reserveCommit, reserveAbort, provision, release, terminate"]}
{"id": "C45", "title": "Only the failed-over segments are cleaned up after a partial reservation", "statement": "If some segment of a reservation is refused while others were accepted, exactly the accepted segments are terminated, each at its own provider and addressed to it, and the connection ends Terminated.", "quantifier": "for every success/failure pattern", "why_tests_cant": "all patterns", "anchors": ["opennsa/aggregator.py: Aggregator.reserve"]}
{"id": "C46", "title": "Recursive query answers once with all children", "statement": "The answer to a recursive query is sent exactly once, when each segment has answered, and contains each segment's result once; duplicate or unknown answers are ignored; answers to different queries are not mixed.", "quantifier": "for every number of segments, concurrent queries and order of answers", "why_tests_cant": "all interleavings of concurrent queries", "anchors": ["opennsa/aggregator.py: queryRecursive, queryRecursiveConfirmed"]}
{"id": "C47", "title": "Discovery polling backs off and stays bounded", "statement": "The interval between discovery polls starts at ten seconds after the first poll, doubles with each poll and never exceeds an hour, nor ever decreases.", "quantifier": "for every number of polls", "why_tests_cant": "unbounded number of polls", "anchors": ["opennsa/discovery/fetcher.py: FetcherService.startService, fetchDocuments"]}
{"id": "C48", "title": "Learned reachability costs one hop more", "statement": "Processing a peer's discovery document gives every port connected to one of the peer's networks vectors with cost one to each of the peer's own networks and advertised cost plus one to every other advertised network, registers a provider for each of the peer's networks using the provider-interface URL if present, and leaves other ports alone.", "quantifier": "for every document and port table", "why_tests_cant": "all documents", "anchors": ["opennsa/discovery/fetcher.py: gotDocument"]}
{"id": "C49", "title": "Conditional GET never hides an update", "statement": "A client that sends the Last-Modified value it received gets 'not modified' only if the representation has not changed since; otherwise it gets the current representation; before the first update it gets an error.", "quantifier": "for every sequence of updates and requests", "why_tests_cant": "histories with updates at arbitrary times", "anchors": ["opennsa/shared/modifiableresource.py: ModifiableResource"]}
{"id": "C50", "title": "Timestamps keep their instant", "statement": "Formatting an internal (UTC) time and parsing it again gives the same time; parsing a timestamp with any zone offset gives the same instant in UTC; a timestamp without zone is refused.", "quantifier": "for every date, time and offset", "why_tests_cant": "all calendar dates and offsets", "anchors": ["opennsa/shared/xmlhelper.py: createXMLTime, parseXMLTimestamp"]}
{"id": "C51", "title": "Security attributes survive the header encoding", "statement": "Encoding a request header and decoding it gives the same security attributes as a multiset, with the order of values within a type kept, and the same requester, provider, correlation id, reply address and trace.", "quantifier": "for every list of attributes", "why_tests_cant": "all lists with repeated types", "anchors": ["opennsa/protocols/nsi2/helper.py: _createHeader, parseRequest"]}
{"id": "C52", "title": "REST commands map to the right operation and status code", "statement": "A REST status command is executed as exactly the operation it names (case-insensitively), unknown commands are refused with 400 and cause no operation, NSI errors give 400 and others 500; creating a connection with auto-provision but without auto-commit is refused; empty, oversized and non-JSON bodies are refused without creating anything.", "quantifier": "for every payload", "why_tests_cant": "all payloads", "anchors": ["opennsa/protocols/rest/resource.py: P2PBaseResource.render_POST, P2PStatusResource.render_POST"]}
{"id": "C53", "title": "Auto-commit commits once held, auto-provision provisions once committed", "statement": "For a connection created over REST with auto-commit, a commit is issued when and only when the reservation becomes held, and a provision is issued only if auto-provision was asked, after the reservation was committed.", "quantifier": "for every sequence of state changes of the connection", "why_tests_cant": "all state histories, including aborted and timed-out reservations", "anchors": ["opennsa/protocols/rest/resource.py: P2PBaseResource.render_POST.stateUpdate"]}
{"id": "C54", "title": "Exported topology re-imports as the same topology", "statement": "Exporting a network's topology document and parsing it gives a network with the same id, name and ports (ids, names, remote ports, labels) and the same pairing of in and out ports.", "quantifier": "for every list of configured ports", "why_tests_cant": "all port lists", "anchors": ["opennsa/topology/nml.py: createNMLNetwork", "opennsa/topology/nmlxml.py: topologyXML, parseNMLTopology, parseNMLPort"]}
{"id": "C55", "title": "Query results round-trip through the protocol encoding", "statement": "Encoding a recursive query result and decoding it gives the same tree of connections: ids, states, schedules, STPs, capacities and the order of children at every level.", "quantifier": "for every tree of any depth and width", "why_tests_cant": "recursive structure of unbounded depth", "anchors": ["opennsa/protocols/nsi2/queryhelper.py"]}
{"id": "C56", "title": "Generated service identifiers do not collide", "statement": "Two connections created through the Canarie plugin never get the same connection id.", "quantifier": "for every sequence of creations", "why_tests_cant": "all counter values, including those shorter than five digits", "anchors": ["opennsa/plugins/canarie.py: createConnectionId", "opennsa/database.py: getBackendConnectionId"]}
{"id": "C57", "title": "Label pruning keeps paths joined and only narrows labels", "statement": "Pruning a path leaves its networks, ports and links in place, gives both ends of each link of a listed network one common label contained in both original labels, and keeps the label on the two sides of each demarcation equal where it touches such a link.", "quantifier": "for every path and every set of listed networks", "why_tests_cant": "all path lengths and positions of listed networks", "anchors": ["opennsa/plugins/pruner.py: pruneLabels"]}
{"id": "C58", "title": "Advertising on one port leaves the other ports' vectors alone", "statement": "Updating the vectors of one port changes neither the destinations nor the costs stored for any other port.", "quantifier": "for every sequence of table operations", "why_tests_cant": "all update orders, including dictionaries shared between ports", "anchors": ["opennsa/topology/linkvector.py: LinkVector.updateVector", "opennsa/discovery/fetcher.py: FetcherService.gotDocument"]}
{"id": "C59", "title": "The REST access gate admits exactly the listed hosts", "statement": "With an allowed-hosts list configured, a REST request is admitted exactly when it came over TLS with a client certificate whose host is on the list; without a list every request is admitted; and a port's host-DN rule grants a REST request whose certificate names that host.", "quantifier": "for every request and every list", "why_tests_cant": "all certificates and lists; the two protocol stacks extract the host name differently", "anchors": ["opennsa/protocols/shared/requestauthz.py: checkAuthz", "opennsa/authz.py: isAuthorized"]}
{"id": "C60", "title": "A reservation request arrives as it was sent", "statement": "Sending a reservation request over the SOAP protocol calls the provider's reserve exactly once with the caller's header (agents, correlation id, trace, attributes; reply address the sender's), ids, description, schedule, STPs, capacity, direction, symmetry and parameters, the revision as its text; a request with an explicit route is refused with a payload error and not executed. Header values, direction and parameter values are non-empty (an empty XML element has no text).", "quantifier": "for every header and request", "why_tests_cant": "all texts, labels, times, parameter lists", "anchors": ["opennsa/protocols/nsi2/requesterclient.py: reserve", "opennsa/protocols/nsi2/providerservice.py: reserve", "opennsa/protocols/nsi2/bindings/nsiconnection.py", "opennsa/protocols/nsi2/bindings/p2pservices.py"]}
{"id": "C61", "title": "A reservation's confirmation arrives as it was sent", "statement": "A reserveConfirmed message delivers connection id, global id, description, schedule, STPs, capacity, direction and symmetry unchanged to the requester, the revision as its text, with the agents and correlation id of the request.", "quantifier": "for every confirmation with existing times and faithful STPs", "why_tests_cant": "all schedules, labels and texts", "anchors": ["opennsa/protocols/nsi2/providerclient.py: reserveConfirmed", "opennsa/protocols/nsi2/requesterservice.py: reserveConfirmed"]}
{"id": "C62", "title": "Simple requests and confirmations reach the method of their own name", "statement": "reserveCommit, reserveAbort, provision, release and terminate call the provider's method of the same name with the same connection id and header, their confirmations the requester's; and no message of whatever content calls a method other than the one its SOAP action names.", "quantifier": "for every message, header and connection id", "why_tests_cant": "all messages, including malformed ones", "anchors": ["opennsa/protocols/nsi2/requesterclient.py: _genericRequest", "opennsa/protocols/nsi2/providerclient.py: _genericConfirm", "opennsa/protocols/nsi2/providerservice.py", "opennsa/protocols/nsi2/requesterservice.py"]}
{"id": "C63", "title": "Failures keep connection, states and error", "statement": "A reserveFailed or reserveCommitFailed message delivers the connection id, the connection states and the error: same or a more general class, same text, agent, connection and variables; an error without agent is attributed to the provider.", "quantifier": "for every NSI error of a proper subclass and all states", "why_tests_cant": "all error classes, texts and variable lists", "anchors": ["opennsa/protocols/nsi2/providerclient.py: _genericFailure", "opennsa/protocols/nsi2/requesterservice.py: _parseGenericFailure"]}
{"id": "C64", "title": "Notifications arrive with their values", "statement": "reserveTimeout, dataPlaneStateChange and errorEvent messages deliver connection id, notification id, time, and their other values to the requester.", "quantifier": "for every notification", "why_tests_cant": "all values; error events with and without an exception", "anchors": ["opennsa/protocols/nsi2/providerclient.py: reserveTimeout, dataPlaneStateChange, errorEvent", "opennsa/protocols/nsi2/requesterservice.py: reserveTimeout, dataPlaneStateChange, errorEvent"]}
{"id": "C65", "title": "Queries ask for exactly the given ids", "statement": "querySummary, querySummarySync and queryRecursive call the provider's query of the same kind with exactly the connection ids and global ids given, in order; none given arrives as none.", "quantifier": "for every lists of non-empty ids", "why_tests_cant": "all lists", "anchors": ["opennsa/protocols/nsi2/requesterclient.py: querySummary, querySummarySync, queryRecursive", "opennsa/protocols/nsi2/providerservice.py: querySummary, querySummarySync, queryRecursive"]}
{"id": "C66", "title": "Query results arrive as they were sent", "statement": "A querySummaryConfirmed message delivers the connections in order, each with ids, description, requester, states, and for every criteria revision, schedule and service definition; a queryRecursiveConfirmed message the trees of connections (at most ten children per criteria, see C55).", "quantifier": "for every list of connections with service definitions", "why_tests_cant": "lists of any length, any number of criteria", "anchors": ["opennsa/protocols/nsi2/queryhelper.py", "opennsa/protocols/nsi2/providerclient.py: querySummaryConfirmed, queryRecursiveConfirmed", "opennsa/protocols/nsi2/requesterservice.py: querySummaryConfirmed, queryRecursiveConfirmed"]}
{"id": "C67", "title": "Every request is handed on exactly once", "statement": "Over any sequence of events the service provider below is called for exactly the requests received, in order, each once, with the caller's header and arguments; a query that has no reply address or correlation id is refused without any effect.", "quantifier": "for every sequence of requests, confirmations and notifications", "why_tests_cant": "all interleavings", "anchors": ["opennsa/protocols/nsi2/provider.py: Provider"]}
{"id": "C68", "title": "Notifications and query results are sent once, to whom they concern", "statement": "Notifications and results of recursive queries are each sent exactly once, to the reply address, requester, provider and correlation id of their header, and not at all without a reply address; the result of a summary query goes to the synchronous query waiting under its correlation id and otherwise to its reply address.", "quantifier": "for every sequence of events", "why_tests_cant": "all interleavings of queries and results", "anchors": ["opennsa/protocols/nsi2/provider.py: reserveTimeout, dataPlaneStateChange, errorEvent, querySummaryConfirmed, queryRecursiveConfirmed"]}
{"id": "C69", "title": "A call to a remote provider ends for the caller as it ended at the provider", "statement": "A request through the protocol calls the provider's method at most once and ends for the caller as the method did: with its value (the connection id of a reservation, the connections of a synchronous query, nothing otherwise), with an NSI error of its class or a base class of it carrying its text, agent, connection and variables, or as InternalServerError with the text of any other exception. A request that cannot be read or is refused calls nothing and ends with an error; so does a connection that is refused, naming the provider. No call ends successfully unless the provider's method did.", "quantifier": "for every request, header, provider behaviour and fate of the connection", "why_tests_cant": "all values and errors; all combinations of request and failure", "anchors": ["opennsa/protocols/nsi2/requesterclient.py", "opennsa/protocols/nsi2/providerservice.py", "opennsa/protocols/shared/soapresource.py: render_POST", "opennsa/protocols/shared/minisoap.py: createSoapFault, parseFault", "opennsa/protocols/shared/httpclient.py: httpRequest"]}
{"id": "C70", "title": "Requests go to the host and port of their URL, and never in the clear for https", "statement": "A request to an http or https URL connects to the URL's host and port (80 or 443 if none is given), uses TLS exactly for https and sends host and port as Host header; an https URL is never requested in the clear, nor without a context; a text that does not begin with http is not requested at all.", "quantifier": "for every URL with a host name or IPv4 address", "why_tests_cant": "all texts", "anchors": ["opennsa/protocols/shared/httpclient.py: httpRequest"]}
{"id": "C71", "title": "A configuration is accepted exactly if it is complete and consistent", "statement": "A configuration file is accepted exactly if domain, database and database user are given, neither a network nor an nrm map is given for the service, all policies are known, a given certificate directory exists, key and certificate are given and exist unless TLS is switched off, no backend name is used again after a backend of a known kind has it, and every number, truth value and section name can be read. Otherwise there is a ConfigurationError, or a ValueError for an unreadable value. The verified configuration says what the file says, with the documented defaults; hosts are restricted only when TLS is on; the backends are the sections of known kinds. Only the first file is ever read, and the administrators are exactly the entries in it.", "quantifier": "for every file, every state of the file system, and every sequence of files read", "why_tests_cant": "all combinations of options", "anchors": ["opennsa/config.py: Config"]}
{"id": "C72", "title": "A service is set up as configured", "statement": "A service starts exactly if it is configured properly: every backend has a name, an nrm map that can be read and a kind that can be made, and the peers have http addresses. Then every backend serves the network named after the domain and the backend, with the ports of its map, and is the provider of that network under the agent's urn, and there is no other network. A port is found under its network and name (the last of that name). Routes are shortest chains of at most five of the configured links; a network at the other end of a port is reached directly.", "quantifier": "for every configuration, all files and every behaviour of the backends' constructors", "why_tests_cant": "any number of backends and ports; all topologies", "anchors": ["opennsa/setup.py: setupBackend, OpenNSAService.setupServiceFactory", "opennsa/topology/nrm.py: parsePortSpec", "opennsa/topology/linkvector.py", "opennsa/provreg.py"]}
{"id": "C73", "title": "What an agent publishes is what its peers read", "statement": "A peer that fetches the published description of an agent reads the agent's urn, the address of its service, exactly its networks and no reachability of other networks. The published peers are exactly the agents with a provider, each once, without the agent itself.", "quantifier": "for every service, registry and reader", "why_tests_cant": "all names, addresses and numbers of networks; empty values", "anchors": ["opennsa/discovery/service.py: DiscoveryService.xml", "opennsa/discovery/bindings/discovery.py", "opennsa/discovery/fetcher.py: gotDocument", "opennsa/setup.py: setupServiceFactory"]}
{"id": "C74", "title": "Descriptions of others add to what is configured and never change it", "statement": "After any sequence of descriptions, a service's vectors are the configured links at cost one and, for every port to a network of a described agent, the costs said by the first description that says one; its own networks stay with their backends; every other network belongs to the agent whose description was the first to list it, and all networks of another agent have one provider, made for that agent and an address from its description. After the description of a neighbour, each of the neighbour's networks is reached through a port to it.", "quantifier": "for every set up service and every sequence of descriptions, usable or not", "why_tests_cant": "all sequences of descriptions, also of agents that claim networks of others", "anchors": ["opennsa/discovery/fetcher.py: gotDocument", "opennsa/provreg.py: spawnProvider", "opennsa/topology/linkvector.py: updateVector", "opennsa/setup.py: setupServiceFactory"]}
{"id": "C75", "title": "Ethernet switches carry the VLANs of the links that are up", "statement": "Take a Juniper EX or a Brocade switch driven by the backend, and any history of links set up and torn down, where links that are up at the same time have no resource in common. Then an interface carries a VLAN exactly if it did before OpenNSA came or is an end of a link that is up with that VLAN. Two interfaces exchange the traffic of a VLAN exactly if they did before or are the two ends of one link that is up. Every link between two ports with one VLAN can be set up and torn down again, and tearing it down disturbs no other link.", "quantifier": "all port maps, link histories, VLANs and starting configurations that leave OpenNSA's VLANs alone", "why_tests_cant": "the tests have no switch; whether a teardown hits another link depends on which links are up at that time", "anchors": ["opennsa/backends/juniperex.py: createConfigureCommands, createDeleteCommands, getResource, getTarget, setupLink, teardownLink", "opennsa/backends/brocade.py: _createSetupCommands, _createTeardownCommands, getResource, getTarget"]}
{"id": "C76", "title": "Pica8 switches forward the traffic of the links that are up", "statement": "Take a Pica8 switch with Open vSwitch driven by the backend, with ports on interfaces of their own, and any history of links set up and torn down, where links that are up at the same time have no resource in common. Then what comes in at a port with a VLAN goes out at another port with a VLAN exactly if a flow from before OpenNSA says so or these are the two ends of a link that is up, in both directions, also when the VLANs differ. An interface lets in exactly the VLANs of the links. Every link between two ports with VLANs can be set up and torn down again.", "quantifier": "all port maps, link histories, VLANs and starting flow tables", "why_tests_cant": "flows replace each other silently in the switch; the tests have no switch", "anchors": ["opennsa/backends/pica8ovs.py: createConfigureCommands, createDeleteCommands, getResource, getTarget, setupLink, teardownLink"]}
{"id": "C77", "title": "Juniper routers connect the two ends of every link that is up, and nothing else", "statement": "Take a Juniper router driven by the backend, with ports on interfaces of their own, and any history of links set up and torn down, where links that are up at the same time have no resource in common. Two logical interfaces are cross-connected exactly if they were before OpenNSA came or are the two Ethernet ends of a link that is up. A logical interface is connected to a path to another router exactly if it is the Ethernet end of a link that is up whose other end is an MPLS label to that router's network. The routers at both sides of a path agree on its names. The ends of a link that is up are set up for its VLANs, no unit is left behind by a link that is down, and every link that could be set up can be torn down, without disturbing others. No link between ends with VLAN labels, MPLS labels or no label is turned down for its labels.", "quantifier": "all port maps, router tables, link histories, labels and starting configurations that leave OpenNSA's names alone", "why_tests_cant": "the tests have no router; names of paths collide only for particular networks, and leftovers depend on the history", "anchors": ["opennsa/backends/junosmx.py: generateActivateCommand, generateDeactivateCommand, getResource, getTarget, canConnect"]}
{"id": "C78", "title": "EX4550 switches connect the two ends of every link that is up, and nothing else", "statement": "Take a Juniper EX4550 switch driven by the backend and any history of links set up and torn down, where links that are up at the same time have no resource in common. Two logical interfaces are cross-connected exactly if they were before OpenNSA came or are the two ends of a link that is up. The ends of a link that is up are set up for its VLANs, no unit is left behind by a link that is down, and every link that is reserved can be set up and torn down.", "quantifier": "all port maps (also with several ports on one interface), link histories, labels and starting configurations that leave OpenNSA's names alone", "why_tests_cant": "the tests have no switch; leftovers depend on the history", "anchors": ["opennsa/backends/junosex.py: generateActivateCommand, generateDeactivateCommand, getResource, getTarget"]}
{"id": "C79", "title": "A device carries exactly the active connections", "statement": "Take a backend with any of the drivers of C75 to C78 (Juniper EX, Brocade, Pica8, Juniper routers, EX4550) and any history of reservations, commits, provisions, releases, terminations, timers and restarts, whatever the device answers. The links on the device are those of the connections the table has as active, each with the ports and labels of the connection: two interfaces exchange traffic exactly if they did before OpenNSA came or are the two ends of an active connection. Links are set up and torn down by turns, and no command for one connection hits what belongs to another.", "quantifier": "all histories of requests, timers and restarts, all device answers, all port maps and starting configurations that leave OpenNSA's names alone", "why_tests_cant": "needs the backend, its timers, the database and the device together; what goes wrong depends on the order of rows at a restart and on failures of the device", "anchors": ["opennsa/backends/common/genericbackend.py: buildSchedule, _doActivate, _doTeardown, _doEndtime, _doFreeResource", "opennsa/backends/juniperex.py", "opennsa/backends/brocade.py", "opennsa/backends/pica8ovs.py", "opennsa/backends/junosmx.py", "opennsa/backends/junosex.py"]}
{"id": "C80", "title": "Commands reach a device in order, and success means that it has taken them", "statement": "Take the conversation over SSH by which commands get to a device (Juniper EX, Juniper routers, EX4550, Brocade, Pica8, Force10). Whatever the device sends, in whatever pieces it arrives, the lines sent are a beginning of: entering configuration mode, the commands in their order, and the commit. Success is reported only after all of them were sent and the device has executed and accepted them. If the device answers every line with its prompt, the conversation ends with success, however the output is cut. What is written for one link does not mix with what is written for another.", "quantifier": "all lists of commands, all device outputs, all ways to cut them, all interleavings of links", "why_tests_cant": "tests have no device; the pieces in which output arrives depend on the network", "anchors": ["opennsa/backends/juniperex.py: SSHChannel, JuniperEXCommandSender", "opennsa/backends/junosmx.py: SSHChannel, JUNOSCommandSender", "opennsa/backends/junosex.py: SSHChannel", "opennsa/backends/brocade.py: SSHChannel", "opennsa/backends/pica8ovs.py: SSHChannel", "opennsa/backends/force10.py: SSHChannel"]}
{"id": "C81", "title": "Reading over REST shows the stored connections, to those admitted", "statement": "A GET on a connection answers 200 with an object that has exactly the documented fields: the identifier, both termination points, the times as the same instants (null if not set), the capacity, the states, and whether all segments are active. The list has one such object for each stored connection, in order. For an unknown connection the answer is 404. A request that is not admitted learns nothing about stored connections. The long poll answers with the states. Posting a shown object asks for the same connection again. Every request is answered.", "quantifier": "for every stored connection and all segments, every request and every list of hosts", "why_tests_cant": "all labels, times and combinations of segments that have or have not reported a data plane version", "anchors": ["opennsa/protocols/rest/resource.py: conn2dict, P2PBaseResource.render_GET, P2PConnectionResource.render_GET, P2PStatusResource.render_GET"]}
{"id": "C82", "title": "Only listed hosts with genuine certificates act on a service, and it talks only to genuine servers", "statement": "Take a service started from a configuration file with TLS and a list of hosts, after any agents have been found. An operation is carried out, an answer taken or a connection shown only for a client whose certificate leads to one of the authorities in the certificate directory and bears a listed name; such a client is served. Own requests to https addresses go only to servers with a certificate for the host from such an authority, and never in the clear, whatever the verify option says. The service starts with TLS exactly if the directory exists, key and certificate belong together and the authorities can be read.", "quantifier": "for every configuration file, certificate directory, client, request, and every verdict of OpenSSL", "why_tests_cant": "needs configuration, TLS, gates and the tree of resources together; the tests have neither certificates nor a client that lies", "anchors": ["opennsa/opennsaTlsContext.py", "opennsa/setup.py: setupTLSContext, CS2RequesterCreator, OpenNSAService.startService", "opennsa/config.py: _load_certificates", "opennsa/protocols/nsi2/__init__.py: setupProvider, setupRequesterPair", "opennsa/protocols/shared/soapresource.py: setupSOAPResource, render_POST", "opennsa/protocols/shared/requestauthz.py", "opennsa/protocols/rest/__init__.py"]}
{"id": "C83", "title": "Links and the circuits of an OESS controller go together", "statement": "Take a backend for an OESS controller, any port map and workgroup, and a controller that already has circuits. However many links are set up and torn down at the same time, and in whatever order answers come, a link that is up has exactly one circuit of the workgroup, with its two interfaces and VLANs. Every other circuit is one that was there before; those stay. A link that is reported down, or not up, has no circuit. A circuit is asked for only after the workgroup was found, and both interfaces and VLANs were found to exist and be available. This holds across restarts.", "quantifier": "all histories of links and answers, all port maps, VLANs, workgroups and circuits there before", "why_tests_cant": "tests have no controller; circuits are looked for among all of the workgroup, so that failures need several links", "anchors": ["opennsa/backends/oess.py: OESSConnectionManager, UrlConnection, oess_get_circuit_id, oess_process_result, oess_confirm_vlan_availability, oess_provisioning, oess_circuit_removal"]}
{"id": "C84", "title": "The command line tool takes options from the command line, then the defaults file, then its own values", "statement": "For every command line and every defaults file, each option has the value given on the command line; if none is given there, that of the last line of the file that sets it; else the built-in one. All options can be set in the file, lines that cannot be read are passed over, and an agent named in the file stands for its identity and service. A command with the options it needs is started. With TLS there is always a certificate context, and certificates are checked unless the user says otherwise, on the command line or in the file.", "quantifier": "all command lines, defaults files, clocks and host names", "why_tests_cant": "each option passes through its own lines of code; combinations of command line and file are too many to try", "anchors": ["onsa: doMain", "opennsa/cli/options.py: parseTimestamp, readDefaults", "opennsa/cli/parser.py"]}
{"id": "C85", "title": "Commands of the command line tool ask for one thing after the other, for the connection they were given", "statement": "An STP typed in the documented form is the one the provider reads. However the provider answers, a command asks for the reservation and then for what it is to do in order, each step only after the one before was confirmed, for the connection the provider named, and with a correlation id of its own. The user is told only what was confirmed, and told of NSI errors, after which nothing more is asked. Waiting for notifications ends with the first error or end of the data plane of the connection. Commands on a connection are refused without a connection id. Texts that cannot be read are usage errors, and nothing is asked.", "quantifier": "all texts, plans, sequences of answers and notifications", "why_tests_cant": "tests have no provider that fails at each step in turn", "anchors": ["opennsa/cli/commands.py", "onsa: doMain", "opennsa/protocols/nsi2/requester.py"]}
{"id": "C86", "title": "Backends answer requests soundly whatever the driver, and the device follows", "statement": "Take the generic backend with any of the drivers and any ports with VLANs. A request for proper VLANs is refused only for reasons of the protocol, never because the driver raises; then no booking stays behind. Otherwise it is accepted, with the id given or a new one, and both ends booked. What was accepted can be set up and torn down, and its two ends are different. After any legal history of requests, timers and restarts whose teardowns work, the device carries the traffic of exactly the active connections, besides what it carried before.", "quantifier": "all port files, requests, calendars and histories, for each driver", "why_tests_cant": "each driver has checks of its own at three moments (resource, target, commands); tests use one dummy driver", "anchors": ["opennsa/backends/common/genericbackend.py: reserve", "opennsa/backends/juniperex.py: JuniperEXConnectionManager", "opennsa/backends/brocade.py: BrocadeConnectionManager", "opennsa/backends/pica8ovs.py: Pica8OVSConnectionManager", "opennsa/backends/junosmx.py: JUNOSMXConnectionManager", "opennsa/backends/junosex.py: JUNOSEXConnectionManager", "opennsa/backends/oess.py: OESSConnectionManager", "opennsa/backends/dud.py: DUDConnectionManager", "opennsa/backends/junipervpls.py: JuniperVPLSConnectionManager", "opennsa/backends/ncsvpn.py: NCSVPNConnectionManager", "opennsa/backends/force10.py: Force10ConnectionManager"]}
{"id": "C87", "title": "Commands go only to the device that was configured", "statement": "Take a backend that talks to its device over SSH, and let its users and the network do what they like, in any order. Nothing leaves on a connection before the device has shown a host key with a configured fingerprint, and nothing after it has shown another key or the connection was lost. What leaves first are the configured credentials, once, and they are those of the configuration; lines leave only after the login has succeeded. The lines written for a request all go to one connection and are a beginning of its conversation. Where there is a lock, nobody writes in between the lines of another.", "quantifier": "all orders of requests, connections, host keys, logins, channels, answers, data and losses; all configurations and all conversations", "why_tests_cant": "tests have no SSH server, and none that lies about its key or goes away at each moment in turn", "anchors": ["opennsa/backends/common/ssh.py", "opennsa/backends/juniperex.py: JuniperEXCommandSender", "opennsa/backends/junosmx.py: JUNOSCommandSender", "opennsa/backends/junosex.py: JunosEx4550CommandSender", "opennsa/backends/brocade.py: BrocadeCommandSender", "opennsa/backends/pica8ovs.py: Pica8OVSCommandSender", "opennsa/backends/force10.py: Force10CommandSender"]}
{"id": "C88", "title": "A request to a device ends, and the next one works", "statement": "Every request to set up or tear down a link ends: with success, and then all of its lines were written, or with a failure if the device cannot be reached, shows a wrong key, refuses the login, the channel or the shell, or goes away. What has ended stays so. If later the device can be reached again, a new request gets a connection that is not known to be gone; if that works and the device answers, the request succeeds. Whoever waits for a lock waits for someone who is at work.", "quantifier": "all orders of requests, connections, host keys, logins, channels, answers, data and losses; all configurations and all conversations", "why_tests_cant": "tests have no SSH server, and none that goes away at each moment in turn", "anchors": ["opennsa/backends/common/ssh.py", "opennsa/backends/juniperex.py: JuniperEXCommandSender", "opennsa/backends/junosmx.py: JUNOSCommandSender", "opennsa/backends/junosex.py: JunosEx4550CommandSender", "opennsa/backends/brocade.py: BrocadeCommandSender", "opennsa/backends/pica8ovs.py: Pica8OVSCommandSender", "opennsa/backends/force10.py: Force10CommandSender"]}
{"id": "C89", "title": "A link is set up only for a connection that its requester reserved, committed and provisioned", "statement": "Take the aggregator and its local backend in one process, and let requesters, remote providers, the device, the clock and the database do what they like in any order. Whenever the backend tells the device to set up a link, the link's two ends are ports and labels of one segment that the aggregator asked the backend for, on behalf of one connection; the segment is the connection asked for or part of a path for it, at the times and with the attributes of the request. That connection was reserved at the aggregator and is stored, and was committed and provisioned there, each time with attributes that both ports accept and by the requester that reserved it.", "quantifier": "all orders of requests, confirmations, answers and timers; all configurations and topologies; late, repeated and lost calls between the two", "why_tests_cant": "needs the aggregator, its caches, the backend, and remote providers that choose their ids; what goes wrong depends on ids two providers have in common", "anchors": ["opennsa/aggregator.py: reserve, reserveCommit, provision, reserveConfirmed, getSubConnection, getSubConnectionsByConnectionKey", "opennsa/backends/common/genericbackend.py: reserve, reserveCommit, provision, _doActivate", "opennsa/setup.py: OpenNSAService.startService, setupBackend"]}
{"id": "C90", "title": "What a requester is told, the local backend has done", "statement": "Take the aggregator and its local backend in one process. When the aggregator tells a requester that a connection is held, the backend has confirmed every segment it was asked for; when it says provisioned or terminated, the backend has confirmed that for each of its segments of the connection; when it says that the data plane is up, the device has reported success for setting up each of them.", "quantifier": "all orders of requests, confirmations, answers and timers; all configurations and topologies; late, repeated and lost calls between the two", "why_tests_cant": "the chain from a device to a requester has a dozen steps in two state machines with caches; tests of one do not run the other", "anchors": ["opennsa/aggregator.py: reserveConfirmed, provisionConfirmed, terminateConfirmed, dataPlaneStateChange", "opennsa/backends/common/genericbackend.py: _doReserve, provision, terminate, _doActivate"]}
{"id": "C91", "title": "The confirmation tells the requester what was reserved", "statement": "What the aggregator sends upwards about a connection goes to the agent whose request created the connection. The confirmation of a reservation repeats the global id, times, capacity, networks and ports of that request. The label told for the source is the one that the provider of the first segment, which starts there, confirmed; the label told for the destination is the one that the provider of the last segment, which ends there, confirmed; both are among the labels asked for.", "quantifier": "all runs with any number of requests, connections and segments; all orders of confirmations; restarts", "why_tests_cant": "the labels depend on the order in which providers answer; a test with one segment, or with answers in the order of the path, is right", "anchors": ["opennsa/aggregator.py: reserve 374-420, reserveConfirmed 918-970"]}
{"id": "C92", "title": "The circuits on a Junos Space server are those of the links that are up", "statement": "Take a network behind a Junos Space server, and set up and tear down links in any order, each with an id and resources of its own. The server then has the circuits it had at the start and exactly one for every link that is up: on the router of the network, under a name made from the link's id, between the interfaces and labels of its two ends, or from its Ethernet end into the path to the router of the network its MPLS end leads to. Two routers whose links lead to each other with the same label agree on the names of the paths, and paths of different links are different. Every link that passes the checks before can be set up, and what was set up can be torn down.", "quantifier": "all port maps, router lists and label values; all histories of set-ups and tear-downs", "why_tests_cant": "the parameters of a request depend on label type, direction and the other network at both ends; a wrong one for one of these removes or joins what belongs to another link", "anchors": ["opennsa/backends/junosspace.py: JUNOSSPACEBackend, JUNOSSPACEConnectionManager, JUNOSSPACECommandGenerator"]}
{"id": "C93", "title": "The device uses the ports and labels the requester was told", "statement": "Take the aggregator and its local backend in one process. Whenever the backend has the device set up or take down a link for a reservation, the link's ends are the ports and labels with which the backend confirmed that reservation, whatever happened in between, restarts included. If the reservation is the segment of a connection at the source, the device uses at the source the port and label that the requester was told; if it is the segment at the destination, the same holds there.", "quantifier": "all orders of requests, confirmations, answers, timers and restarts; all configurations and topologies; late, repeated and lost calls between the two", "why_tests_cant": "a label is chosen, stored, confirmed, copied into the connection and told, and later read again for the device; a test compares two of these at a time, for one order of confirmations", "anchors": ["opennsa/aggregator.py: reserveConfirmed", "opennsa/backends/common/genericbackend.py: reserve, _doReserve, _doActivate, _doTeardown", "opennsa/setup.py: OpenNSAService.startService, setupBackend"]}
{"id": "C94", "title": "A topology holds what was put into it, and ports that face each other are found from each other", "statement": "After any sequence of addNetwork and updateNetwork, getNetwork and getNSA give for an id what was first added or last updated under it, and raise TopologyError if there is nothing; addNetwork of an id that is there raises and changes nothing, updateNetwork never raises. getNetworkPort gives a port of that id from the first network that has one, and raises exactly if none has. findDemarcationPort gives only ports whose two halves are the remotes of the opposite halves of the port asked about; where port ids are not shared between networks, of two ports that face each other each is found from the other.", "quantifier": "all sequences of additions and updates, all networks and ports", "why_tests_cant": "look-ups go through aliases of the halves of ports in both directions, over all networks; tests of this module are skipped", "anchors": ["opennsa/topology/nml.py: Topology.addNetwork, updateNetwork, getNetwork, getNetworkPort, getNSA, findDemarcationPort", "opennsa/topology/nml.py: Network.getPort, findPorts"]}
{"id": "C95", "title": "Topology.findPaths returns usable paths, shortest first", "statement": "If there is a path between two end points of a topology whose ports have a label in common with the ones asked for, findPaths returns; every path it returns leads from the source to the destination through ports that face each other, can be used with every label of its first link, crosses no network twice, and is not before a shorter one; the search ends for every topology.", "quantifier": "all topologies, end points and labels", "why_tests_cant": "the space of topologies is unbounded, loops and labels that differ between ports matter; the tests of this module are skipped", "anchors": ["opennsa/topology/nml.py: Topology.findPaths, _findPathsRecurse", "opennsa/topology/nml.py: Port.canMatchLabel, BidirectionalPort.canMatchLabel", "opennsa/nsa.py: Link.__init__, Label.canMatch"]}
{"id": "C96", "title": "The page of connections shows each of them as it is", "statement": "Whatever connections the database holds, the page answers a request for it, and reading the table of the page gives the headings and one row for each connection, in order, and nothing else: its id, lifecycle state, source and destination with network, port and label, start and end to the second. Different connections look different.", "quantifier": "all lists of stored connections", "why_tests_cant": "the texts in a row come from requesters of other agents, and times may be missing; there is no test of the page", "anchors": ["opennsa/viewresource.py: ConnectionListResource"]}
{"id": "C97", "title": "A conversation with a VPLS router ends in time", "statement": "Sending commands to a router of the VPLS backend ends at the latest three seconds for each line but the commit and twenty seconds for that after it began, whatever the router says and when: with success, and then all lines were sent in order and the router has said that the commit is complete, or with a failure. If the router answers each line in time it ends with success. After the end nothing more is sent.", "quantifier": "all commands, all data from the router cut in any way, all times", "why_tests_cant": "tests have no router, let alone a slow or silent one", "anchors": ["opennsa/backends/junipervpls.py: SSHChannel"]}
{"id": "C98", "title": "Headers are written and read as the NSI documents say", "statement": "A message in the form of the NSI documents is read whoever wrote it, whatever order its header has and whatever else is in it: names, reply address and correlation id as they are there, exactly the security attributes that have a value, the trace in the order of its indices, and the body as it is. What is no envelope, or has no header, several headers or something else in its place is refused. What is written has the elements of the schema in their order, with the security attributes of one type together.", "quantifier": "all element trees and all headers", "why_tests_cant": "round-trip tests between the two halves of one program do not notice names both halves have wrong", "anchors": ["opennsa/protocols/nsi2/helper.py: _createHeader, parseRequest", "opennsa/protocols/nsi2/bindings/nsiframework.py: CommonHeaderType, AttributeType, SessionSecurityAttrType, ConnectionType", "opennsa/protocols/shared/minisoap.py: createSoapPayload, parseSoapPayload"]}
{"id": "C99", "title": "Messages are written and read as the NSI documents say", "statement": "Every message of the connection service that has the form of the NSI documents is understood, whoever wrote it: reservations, the other requests, queries, confirmations, failures, timeouts, data plane changes and error events reach the method of their name with exactly the values in them, whatever the order of their elements and whatever else is in them; times in any zone arrive as the same instant, error codes as the error they mean, booleans as they are. What is written has the action, the elements and the order of the schemas.", "quantifier": "all element trees of the form of the documents, all values sent", "why_tests_cant": "round-trip tests between the two halves of one program do not notice names both halves have wrong, and test messages come from this program", "anchors": ["opennsa/protocols/nsi2/requesterclient.py: RequesterClient", "opennsa/protocols/nsi2/providerclient.py: ProviderClient", "opennsa/protocols/nsi2/providerservice.py: ProviderService", "opennsa/protocols/nsi2/requesterservice.py: RequesterService", "opennsa/protocols/nsi2/bindings/nsiconnection.py", "opennsa/protocols/nsi2/bindings/p2pservices.py"]}
{"id": "C100", "title": "Topology documents say what NML requires and are read so", "statement": "The document of a configured network has the elements and names of the NML schema and says exactly its ports, their labels and aliases, the pairs of them, the switching service and its definition. A document of that form, whoever wrote it, whatever the order of its parts and whatever else is in it, is taken in as the topology it says.", "quantifier": "all port configurations, all element trees of the form of the documents", "why_tests_cant": "round-trip tests between the two halves of one program do not notice names both halves have wrong, and labels and orders are unbounded", "anchors": ["opennsa/topology/nmlxml.py: topologyXML, parseNMLTopology", "opennsa/topology/nml.py: createNMLNetwork"]}
{"id": "C101", "title": "VPLS routers join the two ends of every link that is up, in a VPN of its own", "statement": "After any history of links set up and torn down, a unit of a router takes the traffic of a VLAN exactly if it did at the start or is at an end of a link that is up, and two interfaces are the two sites of one VPLS instance exactly if they were at the start or are the ends of one link that is up; every other statement of the configuration is as it was. Each link that is up has one route distinguisher and one target, in the AS of the router, and no two links share them. A link between known ports with one VLAN can be set up and torn down again.", "quantifier": "all port maps, all starting configurations, all histories of links", "why_tests_cant": "depends on what earlier links left behind and on ids of all links; tests have no router", "anchors": ["opennsa/backends/junipervpls.py: createSetupCommands, createDeleteCommands", "opennsa/backends/junipervpls.py: JuniperVPLSCommandSender.setupLink, teardownLink", "opennsa/backends/junipervpls.py: JuniperVPLSConnectionManager"]}
{"id": "C102", "title": "Answers to queries say what they should, and are read so, whoever wrote them", "statement": "An answer to a query that has the form of the NSI documents reaches the requester as exactly the reservations it says, each with its ids, states, criteria, schedule and service; in a recursive answer with the connections it is made of, to any depth, in the order of their numbers, in whatever order they are written. What is sent as an answer has that form and says the connections that were to be sent.", "quantifier": "all element trees of the form of the documents, all trees of connections", "why_tests_cant": "round-trip tests between the two halves of one program do not notice names both halves have wrong; trees are unbounded in depth and width and answers of other programs order and omit things differently", "anchors": ["opennsa/protocols/nsi2/queryhelper.py: buildQueryResult, buildCriteria, buildQueryRecursiveResultType, buildQuerySummaryResultType", "opennsa/protocols/nsi2/requesterservice.py: RequesterService.querySummaryConfirmed, queryRecursiveConfirmed", "opennsa/protocols/nsi2/bindings/nsiconnection.py"]}
{"id": "C103", "title": "Someone who asks for connections sees them all and can tell them apart", "statement": "The command line client shows an answer to a query as one block of lines per connection: outermost connections first to last, each followed by the connections it is made of, two columns further in, to any depth. A block says id and provider, global id and description where there are any, states and data plane, the path, and for outermost connections schedule, bandwidth, direction and symmetry. Every connection of the answer has its block and there are no others; every line reaches the terminal; answers that look the same have the same connections, providers and states in the same places; only an empty answer is shown as no results.", "quantifier": "all answers, of any depth and width, with any names", "why_tests_cant": "trees of connections are unbounded, and the terminal hides messages by their text, which names in answers could resemble", "anchors": ["opennsa/cli/commands.py: _emitQueryResult, querySummary, queryRecursive", "opennsa/cli/logobserver.py: SimpleObserver.emit"]}
{"id": "C104", "title": "Every connection has an id of its own, under which it stays known", "statement": "The default plugin makes ids of the first two letters of the agent's domain, as capitals, a hyphen and ten hexadecimal digits: different draws give different ids, every id of that form can come up, and ids contain nothing that URLs, traces or lists of ids would have to escape. The aggregator stores a reservation under exactly the id that was made for it, with what was asked for, and tells the requester that id. Whatever ids the plugin gives, no two stored connections have the same one: a reservation given a taken id fails and changes nothing. A stored connection stays stored with its id and requester for good, across restarts.", "quantifier": "all domains, all draws, all states of the aggregator, all runs with any number of restarts", "why_tests_cant": "collisions of random ids hardly ever come up in a test, and what they would do depends on everything stored before", "anchors": ["opennsa/plugin.py: BasePlugin.init, createConnectionId", "opennsa/aggregator.py: Aggregator.reserve", "datafiles/schema.sql: service_connections"]}
{"id": "C105", "title": "Segments of a connection stay what their agents confirmed, and are asked for at these agents", "statement": "Every segment the aggregator has stored is one that its agent confirmed, with that id and these ends. No two have the same id at the same agent: a confirmation with an id its agent has used before fails and stores nothing, while different agents may use the same id. A stored segment stays stored for good, across restarts, as part of the same connection, at the same place in its path, with its id, agent and ends. Requests to commit, abort, provision, release and query a segment are addressed to an agent that has a segment of that id, and carried by what the registry has for a network of that agent.", "quantifier": "all runs of the aggregator with any interleaving of calls, answers and restarts, any prompt or late database", "why_tests_cant": "what a request about a segment says depends on everything stored before it; agents that use the same ids and changes between two database accesses hardly come up in tests", "anchors": ["opennsa/aggregator.py: Aggregator.reserveConfirmed, reserveCommit, reserveAbort, provision, release, queryRecursive, getSubConnection", "opennsa/provreg.py: ProviderRegistry.getProvider", "datafiles/schema.sql: sub_connections"]}
