# Formal model of OpenNSA in Rocq/Coq 8.16.1

The code in `/repo` (NORDUnet OpenNSA, Python/Twisted) is modelled function by
function as total, computable Gallina definitions; the properties of
`properties.jsonl` are proved of the model for all inputs, states and executions.

## Layout

    rocq/theories/
      Base.v, BaseProofs.v  strings, decimal numbers, results, small list tools
      Model*.v              the model: definitions only, each citing /repo lines
      Spec*.v               small independent specifications
      Proofs*.v             lemmas
      Props*.v              the property theorems, one `exact` each, followed by
                            `Print Assumptions`, and concrete cases (Examples)
                            that meet their hypotheses
    MANIFEST.json           property -> status and theorem names
    seeded/LOG.jsonl        wrong programs the theorems were tried against

## Conventions

* Python exceptions are values (`Err e` / `Throw e`). A coroutine
  (`inlineCallbacks`) is a program tree (`prog`) whose nodes are reads, updates
  and *waits*; a wait is every `yield` of a deferred. The programs of the backend
  and of the aggregator have two meanings: run to the end, and interleaved by a
  machine in which anything else may happen at each wait.
* Wall clock instants are integers (`Z`; the unit is stated in each file).
* External parties (device drivers, peers, random generator, identifiers made by
  the database) are explicit inputs, universally quantified in the theorems.
* When the faithful model falsifies a property, a theorem `..._refuted` gives a
  concrete witness, and the strongest true weakening is proved beside it with
  the suffix `_partial`, its comment saying what is missing. The finding is
  listed under "Findings". The status in the manifest is then `partial`.

## Trusted base

* Coq's kernel (8.16.1), including `vm_compute`.
* `Print Assumptions` stands under every property theorem; for every one of them
  it prints "Closed under the global context": no axiom is used, neither of our
  own nor of the standard library. (`coqchk` over all loaded libraries lists
  `Coq.ssr.ssrunder.Under_rel.*`; these are the fields of a module type of the
  standard library, loaded by it and used by no theorem here.)
* The faithfulness of the hand-written model, as delimited below.
* For C98 to C100, C102 and the literals of C73: the forms of messages and documents
  stated in SpecHeader.v, SpecDocument.v, SpecNmlDoc.v and SpecResults.v. The schemas
  of the NSI and NML documents (GFD.212, GFD.206) are not in /repo and there was no
  network; these forms were written from memory of them, with the names and
  namespaces that the code uses, and were not compared with the documents. Where a finding says
  that a schema allows something, that too is from memory. A name that the code and
  these files have wrong alike would not be noticed.

## What is modelled

Line counts are of the Python files. "Full" means every statement other than
logging has a counterpart.

| file of /repo/opennsa | model | extent |
|---|---|---|
| nsa.py (393) | ModelLabel, ModelSTP, ModelHeader, ModelAggregator | `Label`, `STP`, header and trace handling full; the other classes are plain records |
| error.py (255) | ModelErrors | full: classes, table, lookup |
| state.py (195) | ModelState | full |
| authz.py (72), shared/requestinfo.py | ModelAuthz | full |
| provreg.py (87) | ModelProvreg | full |
| database.py (133) | ModelPlugins | connection id generation; rows elsewhere are finite maps with whole-row save |
| aggregator.py (1226) | ModelAggregator | full, see the simplifications at the head of the file |
| backends/common/calendar.py | ModelCalendar | full |
| backends/common/scheduler.py | ModelScheduler | full |
| backends/common/genericbackend.py (770) | ModelBackend, ModelBackendConc, ModelBackendQuery | full, see the simplifications at the heads of the files |
| discovery/fetcher.py (128) | ModelDiscovery | full but for the HTTP fetch and the XML parsing (inputs) |
| topology/linkvector.py (205) | ModelLinkVector | full |
| topology/nrm.py (167) | ModelNRM | full |
| topology/nml.py (376) | ModelNml, ModelTopo | classes, `createNMLNetwork`, the collection of networks and its path finding (used by tests only, which are skipped) |
| topology/nmlxml.py (227) | ModelNml | export and import on element trees |
| plugins/canarie.py, plugins/pruner.py | ModelPlugins | full |
| plugin.py (50) | ModelConnId | ids; the other hooks let everything pass |
| protocols/nsi2/helper.py (199) | ModelHeader, ModelErrors, ModelSTP | full |
| protocols/nsi2/queryhelper.py (175) | ModelQueryHelper | full |
| protocols/nsi2/provider.py (269) | ModelProvider | reply book-keeping |
| protocols/nsi2/requester.py (243) | ModelRequester | request book-keeping and timers |
| protocols/nsi2/bindings/* | ModelXml, ModelHeader, ModelErrors, ModelQueryHelper | the element classes used by the three helpers |
| opennsaTlsContext.py (167) | ModelTls | full, with OpenSSL's verdicts as functions; protocol versions and ciphers are not |
| protocols/rest/resource.py (408) | ModelRest, ModelRestGet | full: creation, commands, watchers and reading; JSON text is not |
| protocols/shared/soapresource.py, requestauthz.py | ModelAuthz | access gate |
| protocols/nsi2/requesterclient.py, providerservice.py, protocols/shared/soapresource.py, minisoap.py, httpclient.py | ModelSoapCall | a call from end to end |
| protocols/shared/httpclient.py | ModelHttpClient | the target of a request |
| setup.py, discovery/service.py, discovery/bindings/discovery.py | ModelSetup | setting up a service, the published description, reading it |
| backends/juniperex.py, brocade.py, force10.py, pica8ovs.py | ModelDrivers | resources, targets and command texts; the devices are described in SpecDrivers |
| backends/junosmx.py, junosex.py | ModelJunos | resources, targets, canConnect and command texts; the devices are described in SpecDrivers and SpecJunos |
| backends/junosspace.py | ModelSpace | routers, canConnect, configlets and parameters up to the request body; the server is described in SpecSpace |
| backends/juniperex.py, junosmx.py, junosex.py, brocade.py, pica8ovs.py, force10.py: SSHChannel and command senders | ModelChannel | conversations with a device; device, network and pieces are described in SpecChannel |
| backends/common/ssh.py and the command senders of juniperex.py, junosmx.py, junosex.py, brocade.py, pica8ovs.py, force10.py | ModelSession | connections, logins, requests and the lock; what the SSH library tells are events in any order |
| backends/oess.py | ModelOess | queries, answers and conversations; the HTTP transport is an answer or an exception; the controller is described in SpecOess |
| onsa, cli/options.py, cli/parser.py, cli/commands.py | ModelCli | options, defaults file, commands; usage.Options, the printing of query results and the listener are left out |
| backends/dud.py, junipervpls.py, ncsvpn.py (managers), and the managers of the drivers above under genericbackend.py reserve | ModelManager | methods may raise; the HTTP side of ncsvpn is left out |
| setup.py: the aggregator with a backend below it (aggregator.py, genericbackend.py) | ModelService | ModelAggregator and ModelBackendConc side by side; calls between them are delivered at any time, any number of times; one backend |
| viewresource.py (90) | ModelPage | full; the rows come from the database |
| backends/junipervpls.py: SSHChannel | ModelVpls | conversations with their timeouts and a clock; opening and losing connections are left out |
| config.py | ModelConfig | verification of a configuration, the singleton, administrators |
| protocols/shared/minisoap.py | ModelHeader | envelope |
| shared/modifiableresource.py | ModelHttpRes | full |
| shared/xmlhelper.py | ModelTime | full, with the civil calendar and the ISO 8601 parser it rests on |

## Per property

### C01 Label parsing denotes exactly the listed values (proved)

*Modelled:* ModelLabel: nsa.py `Label` on strings (int() parsing, split, sort, merge)  
*Proof:* the set a label denotes is a predicate on Z given from the text; induction over the list of ranges through parse, sort and merge  
*Theorems:* `C01_parse_items`, `C01_parse_text`, `C01_normal_form_unique`, `C01_text_labels_wf`

### C02 Label intersection is set intersection (proved)

*Modelled:* ModelLabel: nsa.py `Label` on strings (int() parsing, split, sort, merge)  
*Proof:* the set a label denotes is a predicate on Z given from the text; induction over the list of ranges through parse, sort and merge  
*Theorems:* `C02_intersect`, `C02_intersect_comm`, `C02_can_match`, `C02_can_match_absent`

### C03 Label text form round-trips (proved)

*Modelled:* ModelLabel: nsa.py `Label` on strings (int() parsing, split, sort, merge)  
*Proof:* the set a label denotes is a predicate on Z given from the text; induction over the list of ranges through parse, sort and merge  
*Theorems:* `C03_label_text_roundtrip`, `C03_label_eq`

### C04 Label enumeration is exact (proved)

*Modelled:* ModelLabel: nsa.py `Label` on strings (int() parsing, split, sort, merge)  
*Proof:* the set a label denotes is a predicate on Z given from the text; induction over the list of ranges through parse, sort and merge  
*Theorems:* `C04_enumerate`, `C04_single_value`

### C05 A random label value belongs to the label (partial)

*Modelled:* ModelLabel: nsa.py `Label` on strings (int() parsing, split, sort, merge)  
*Proof:* the set a label denotes is a predicate on Z given from the text; induction over the list of ranges through parse, sort and merge  
*Theorems:* `C05_random_label_refuted`, `C05_random_label_partial`  
*Result:* REFUTED by C05_random_label_refuted: randint(lo, hi+1) is inclusive. Strongest true bound proved.

### C06 Availability check agrees with interval overlap (partial)

*Modelled:* ModelCalendar: calendar.py  
*Proof:* interval overlap over Z instants; invariant over operation sequences; multiset statement for removal  
*Theorems:* `C06_check`, `C06_dates`, `C06_check_refuted`  
*Result:* Proved for forward spans (C06_check). REFUTED in general: degenerate spans end in AssertionError (C06_check_refuted).

### C07 The calendar never double-books a resource (proved)

*Modelled:* ModelCalendar: calendar.py  
*Proof:* interval overlap over Z instants; invariant over operation sequences; multiset statement for removal  
*Theorems:* `C07_no_double_booking`

### C08 Removing a reservation removes exactly one matching entry (proved)

*Modelled:* ModelCalendar: calendar.py  
*Proof:* interval overlap over Z instants; invariant over operation sequences; multiset statement for removal  
*Theorems:* `C08_remove`, `C08_add_remove`

### C09 Connection states only move along the NSI state diagrams (proved)

*Modelled:* ModelState: state.py transitions  
*Proof:* the state diagrams are an inductive edge relation in SpecState; induction over operation lists  
*Theorems:* `C09_operation`, `C09_operation_enabled`, `C09_multi_switch`, `C09_history`

### C10 Terminated is final and end-of-life is one-way (proved)

*Modelled:* ModelState: state.py transitions  
*Proof:* the state diagrams are an inductive edge relation in SpecState; induction over operation lists  
*Theorems:* `C10_lifecycle_final`

### C11 State subscribers are all notified after the save (partial)

*Modelled:* ModelState: subscriptions and notification over the live list  
*Proof:* loop invariant of the index-based iteration  
*Theorems:* `C11_notify_partial`, `C11_notify_refuted`  
*Result:* Proved when callbacks leave this connection's subscriptions alone; REFUTED for a self-unsubscribing callback.

### C12 One pending call per connection, cancelled calls never run (proved)

*Modelled:* ModelScheduler: scheduler.py and the delayed-call queue  
*Proof:* invariant over all runs of schedule, cancel and fire  
*Theorems:* `C12_one_pending`, `C12_fired`, `C12_refused`, `C12_accepted`, `C12_cancel_all`

### C13 Routes are genuine, within the cost limit and avoid blacklisted networks (proved)

*Modelled:* ModelLinkVector: linkvector.py, Dijkstra on association tables, vectors per port on a heap of dictionary objects  
*Proof:* path predicate in SpecLinkVector; loop invariant of Dijkstra; the fuel (number of nodes) is shown sufficient; operations as a run  
*Theorems:* `C13_routes_genuine`

### C14 Routes are cheapest and are found whenever they exist (proved)

*Modelled:* ModelLinkVector: linkvector.py, Dijkstra on association tables, vectors per port on a heap of dictionary objects  
*Proof:* path predicate in SpecLinkVector; loop invariant of Dijkstra; the fuel (number of nodes) is shown sufficient; operations as a run  
*Theorems:* `C14_cheapest`, `C14_no_route_iff`

### C15 Route computation terminates without internal error (proved)

*Modelled:* ModelLinkVector: linkvector.py, Dijkstra on association tables, vectors per port on a heap of dictionary objects  
*Proof:* path predicate in SpecLinkVector; loop invariant of Dijkstra; the fuel (number of nodes) is shown sufficient; operations as a run  
*Theorems:* `C15_path_terminates`, `C15_updates_succeed`

### C16 Routes always reflect the current vectors (proved)

*Modelled:* ModelLinkVector: linkvector.py, Dijkstra on association tables, vectors per port on a heap of dictionary objects  
*Proof:* path predicate in SpecLinkVector; loop invariant of Dijkstra; the fuel (number of nodes) is shown sufficient; operations as a run  
*Theorems:* `C16_routes_current`, `C16_deleted_port_unused`, `C16_learned_routable`

### C17 A re-advertised vector cost takes effect (partial)

*Modelled:* ModelLinkVector: linkvector.py, Dijkstra on association tables, vectors per port on a heap of dictionary objects  
*Proof:* path predicate in SpecLinkVector; loop invariant of Dijkstra; the fuel (number of nodes) is shown sufficient; operations as a run  
*Theorems:* `C17_readvertised_cost_refuted`, `C17_new_destination_partial`  
*Result:* REFUTED by C17_readvertised_cost_refuted: updateVector logs the new cost but never stores it. Proved: new destinations take effect.

### C18 Port authorization grants exactly on a matching rule (proved)

*Modelled:* ModelAuthz: authz.py  
*Proof:* iff with a declarative rule match  
*Theorems:* `C18_granted_iff`, `C18_unknown_never_grants`, `C18_monotone`

### C19 The HTTP access gate admits only listed hosts (partial)

*Modelled:* ModelAuthz: soapresource.py render_POST, requestauthz.py  
*Proof:* case analysis over every request, certificate and configuration; iff with being listed  
*Theorems:* `C19_dispatch_only_listed`, `C19_listed_dispatched`, `C19_others_refused`, `C19_plain_open`, `C19_always_answered_refuted`  
*Result:* Proved for every request; REFUTED only for the shape 'error value instead of a refusal': a certificate without a common name, or TLS without a certificate and no list, raises AttributeError (still refused).

### C20 Provider registry is stable and shares providers per agent (proved)

*Modelled:* ModelProvreg: provreg.py  
*Proof:* invariant over operation runs  
*Theorems:* `C20_stable`, `C20_spawn_known`, `C20_spawn_shared`, `C20_spawn_new`, `C20_unknown_network`, `C20_agent_refused`, `C20_double_registration`

### C21 NSI errors survive the wire as the same or a more general error (proved)

*Modelled:* ModelErrors: error.py classes and table, helper.py service exception coding on element trees  
*Proof:* class tree in SpecErrors; analysis over the table, strings kept symbolic  
*Theorems:* `C21_error_roundtrip`, `C21_defaults`, `C21_class_kept`, `C21_other_exceptions`

### C22 Decoding a peer's service exception never fails (partial)

*Modelled:* ModelErrors: error.py classes and table, helper.py service exception coding on element trees  
*Proof:* class tree in SpecErrors; analysis over the table, strings kept symbolic  
*Theorems:* `C22_decoding_total_refuted`, `C22_decoding_partial`, `C22_failure_partial`  
*Result:* REFUTED: lookup raises ValueError for a five-character id of unknown category (e.g. 00999) and createException does not catch it; proved total on every other id.

### C23 STP identifiers round-trip (partial)

*Modelled:* ModelSTP: STP.urn, createSTP, parseLabel on strings  
*Proof:* grammar of identifiers in SpecSTP; string lemmas on split and prefix  
*Theorems:* `C23_roundtrip`, `C23_accepts`, `C23_missing_prefix`, `C23_payload_error_refuted`, `C23_payload_error_partial`, `C23_short`, `C23_equal`  
*Result:* Round trip and exact acceptance grammar proved; REFUTED only for the kind of error: a second '?' or '=' raises ValueError instead of a payload error.

### C24 Port configuration lines mean what they say (proved)

*Modelled:* ModelNRM: nrm.py on strings including the PORT_RX regular expression  
*Proof:* grammar in SpecNRM; parser accepts exactly its sentences, with the denoted port  
*Theorems:* `C24_ports`, `C24_functional`, `C24_accepts`, `C24_rejects`, `C24_unknown_attribute`  
*Result:* Characters after the closing bracket of a remote specification are silently ignored (the grammar states this).

### C25 Every outgoing request completes at most once, with its own answer (proved)

*Modelled:* ModelRequester: requester.py, pending table, timers  
*Proof:* trace invariant over arbitrary message, timer and request orders  
*Theorems:* `C25_at_most_once`, `C25_own_answer`, `C25_late_answer`

### C26 Every outgoing request eventually completes (partial)

*Modelled:* ModelRequester: requester.py, pending table, timers  
*Proof:* trace invariant over arbitrary message, timer and request orders  
*Theorems:* `C26_completes_refuted`, `C26_completes_partial`, `C26_not_early_partial`, `C26_timeout_partial`  
*Result:* REFUTED as stated: a message of another kind with the same provider and correlation id removes the waiting call before the kind is compared, and its timer then finds nothing (C26_completes_refuted). Proved for all runs in which messages with the request's key carry its action.

### C27 At most one reply per request, sent to its requester (proved)

*Modelled:* ModelProvider: provider.py reply tables  
*Proof:* trace invariant over arbitrary orders  
*Theorems:* `C27_answers_request`, `C27_at_most_once`, `C27_never_requested`, `C27_used_up`, `C27_sync_once`

### C28 Replies match the kind of request (partial)

*Modelled:* ModelProvider: provider.py reply tables  
*Proof:* trace invariant over arbitrary orders  
*Theorems:* `C28_kind_refuted`, `C28_early_confirmation_refuted`, `C28_kind_partial`, `C28_delivered_partial`  
*Result:* REFUTED as stated: commit and abort requests are stored under the same key (C28_kind_refuted), and a confirmation that comes before the acknowledgement is dropped (C28_early_confirmation_refuted). Proved: all other kinds never mix, commit/abort do not mix on a connection that saw only one of them, and a confirmation after the request is delivered.

### C29 A refused reservation changes nothing, an accepted one books both ends (partial)

*Modelled:* ModelBackend: reserve and its helpers, calendar, row store  
*Proof:* weakest-precondition calculus over programs (ProofsBackendWp); decision of reserve in both directions  
*Theorems:* `C29_refused_partial`, `C29_accepted`, `C29_complete`, `C29_busy`, `C29_refused_refuted`  
*Result:* REFUTED as stated: when the insert is rejected (duplicate generated id) calendar entries leak (C29_refused_refuted); accepted and complete directions proved, requests for which no label is free are refused as unavailable (C29_busy), refusals have no effect otherwise (C29_refused_partial).

### C30 A booked label is one the port offers (partial)

*Modelled:* ModelBackend: reserve and its helpers, calendar, row store  
*Proof:* weakest-precondition calculus over programs (ProofsBackendWp); decision of reserve in both directions  
*Theorems:* `C30_in_range_refuted`, `C30_in_range_partial`  
*Result:* REFUTED as stated: requested labels are not intersected with the port's range (C30_in_range_refuted); proved if the request lies within what the port offers.

### C31 Resources are held exactly by live reservations (partial)

*Modelled:* ModelBackend: every public operation and timer body  
*Proof:* invariant tying rows, calendar and schedule over all serial histories with restarts and failing device or database  
*Theorems:* `C31_calendar_exact_partial`, `C31_calendar_exact_refuted`  
*Result:* REFUTED as stated: a restart aborted by an open-ended connection with a future start loses bookings (C31_calendar_exact_refuted); exact for every serial history whose restarts see no such connection. Interleavings inside an operation: see C36.

### C32 No two live connections share a resource in time (partial)

*Modelled:* ModelBackend: every public operation and timer body  
*Proof:* invariant tying rows, calendar and schedule over all serial histories with restarts and failing device or database  
*Theorems:* `C32_no_double_booking_partial`, `C32_no_double_booking_refuted`  
*Result:* REFUTED as stated via the aborted restart (C32_no_double_booking_refuted); proved for every serial history whose restarts see no open-ended connection with a start.

### C33 Uncommitted reservations expire, committed ones do not (partial)

*Modelled:* ModelBackend: doReserveRollback, reserveCommit, reserveAbort, timers  
*Proof:* invariant over serial histories, and exclusion of commit and expiry  
*Theorems:* `C33_held_timer`, `C33_expiry_partial`, `C33_commit_or_expiry`, `C33_commit_after_expiry`, `C33_commit_after_abort`, `C33_told_refuted`, `C33_commit_refused_refuted`  
*Result:* REFUTED as stated: the requester is not told when cancelling the running timer call makes it fail (C33_told_refuted), and a held connection ended by a restart can still be committed (C33_commit_refused_refuted). Expiry pending, rolled back, freed; commit and expiry exclusive; commit refused after expiry/abort: proved.

### C34 Data plane is only set up for committed, live, authorized connections (proved)

*Modelled:* ModelBackendConc: all programs interleaved at every wait  
*Proof:* invariant of the machine by a generic wp rule with rely conditions (ProofsConcGen/End/Setup/Refuse). The reservation behind a link was acceptable in the sense of C29, and the labels are a choice allowed for it  
*Theorems:* `C34_setup`, `C34_refused`  
*Result:* Machine ModelBackendConc.v: every wait (database, device, parent) suspends, may fail, and any other request, timer, started method, restart or passage of time may come in between. C34_setup: in every run, a set-up command sent to the device is justified by a reservation of those ports, a commit passing authorization, and a provision passing authorization that arrived before the end time. C34_refused: a request on a connection that is unknown, unauthorized or terminated when it is looked up fails, and its own changes touch nothing but in-memory objects, whatever others do at its waits (they may not change the object it loaded, which nobody else knows).

### C35 Links are torn down at the end of a connection (partial)

*Modelled:* ModelBackend: every public operation and timer body  
*Proof:* invariant tying rows, calendar and schedule over all serial histories with restarts and failing device or database  
*Theorems:* `C35_flag_is_link`, `C35_ended_inactive`, `C35_torn_down`, `C35_not_before_start`, `C35_end_timer_partial`, `C35_end_timer_refuted`, `C35_told`, `C35_told_failed`  
*Result:* REFUTED as stated for one moment: a restart at the very moment at which a link that is up was to start leaves it without its end, so it stays up past it (C35_end_timer_refuted); for all other histories, restarts included, the end is pending whenever a link is up (C35_end_timer_partial). Torn down and inactive at end, release and terminate proved for all serial histories, and no link is up before its start (C35_not_before_start). With any interleaving, requesters are told of data planes going up or down only after the device did so, and of failures only after it failed (C35_told, C35_told_failed).

### C36 Concurrent operations on one connection keep its state history legal (partial)

*Modelled:* ModelBackendConc: all programs interleaved at every wait  
*Proof:* invariant of the machine by a generic wp rule with rely conditions (ProofsConcGen/End/Setup/Refuse)  
*Theorems:* `C36_lifecycle_refuted`, `C36_link_refuted`, `C36_terminated_partial`  
*Result:* REFUTED in both halves: C36_lifecycle_refuted (an activation waiting for the device saves its stale copy of the row after the termination: lifecycle Created again, link up, no calendar entry), C36_link_refuted (the device answers between the termination's look at the row and its end: Terminated, nothing going on, link up). Proved instead, for every interleaving including restarts: C36_terminated_partial, once nothing is going on for a terminated connection its row never changes and nothing is sent to the device or the requester for it again. Missing: that overlapping operations are excluded; the code does not exclude them.

### C37 Restart restores exactly the live bookings (partial)

*Modelled:* ModelBackend: buildSchedule  
*Proof:* characterisation of the restored calendar and timers  
*Theorems:* `C37_restart_partial`, `C37_restart_refuted`  
*Result:* REFUTED as stated: an open-ended connection with a start aborts the whole restore, and a connection whose start is exactly the restart time gets no timer (C37_restart_refuted); proved otherwise.

### C38 Queries reveal only the requester's own connections (partial)

*Modelled:* ModelAggregator querySummary, ModelBackendQuery, config.is_admin_override  
*Proof:* filter characterisation, for every interleaving  
*Theorems:* `C38_summary`, `C38_backend`, `C38_global_id_refuted`, `C38_recursive_refuted`  
*Result:* Proved for every interleaving: the summary answer lists exactly the rows that match the ids and belong to the asking agent (all for an administrator), with their stored states; same for the backend's query. REFUTED: selecting by global reservation id always fails (the query names a column that does not exist); a recursive query does not look whose connection it is.

### C39 Reservation policy is enforced before anything is created (proved)

*Modelled:* ModelAggregator: reserve, commit, abort, provision, release, terminate as programs  
*Proof:* every behaviour of one call, the rest of the system changing the state arbitrarily at each wait; segmentation by induction over the path  
*Theorems:* `C39_policy`, `C39_trace`, `C39_hairpin`, `C39_remote_source`  
*Result:* Every behaviour of reserve, whatever the rest of the system does meanwhile: no effect at all if the request is against policy; the trace sent with each segment is the received one extended by this agent's entry. C39_remote_source is a finding: a request whose source only is remote is always refused.

### C40 Path segments join up end to end (proved)

*Modelled:* ModelAggregator: reserve, commit, abort, provision, release, terminate as programs  
*Proof:* every behaviour of one call, the rest of the system changing the state arbitrarily at each wait; segmentation by induction over the path  
*Theorems:* `C40_chain`  
*Result:* For every behaviour of reserve under a fixed route table: the calls made are a prefix of a chain that joins up over the computed route, and all of it once the providers' answers are waited for; no call is made unless each network on it is local or has a known provider.

### C41 The aggregate confirms a reservation exactly when every segment is held (partial)

*Modelled:* ModelAggregator: machine of all calls and callbacks  
*Proof:* run invariants on connection rows, segments and caches (ProofsAggInv/Tab/Act/Help/Run/Run2), counting of outputs; for the database answering at once where stated. Runs include restarts of the process: the invariant is kept for a ghost that remembers the connections of earlier processes.  
*Theorems:* `C41_once_partial`, `C41_all_partial`, `C41_failed_partial`, `C41_held_partial`, `C41_refused`, `C41_duplicate`, `C41_once_refuted`  
*Result:* Proved for every run, any number of segments, connections, overlapping calls and restarts of the process, with a database that answers at once: confirmation at most once, only after every agent asked confirmed, never together with a failure, and every stored segment held when it is sent. Answers that were not asked for and second answers change nothing: proved for every interleaving. REFUTED when calls also interleave within database operations: two confirmations handled at the same time send two confirmations upwards (C41_once_refuted).

### C42 Aggregated confirmations wait for all segments (partial)

*Modelled:* ModelAggregator: machine of all calls and callbacks  
*Proof:* run invariants on connection rows, segments and caches (ProofsAggInv/Tab/Act/Help/Run/Run2), counting of outputs; for the database answering at once where stated. Runs include restarts of the process: the invariant is kept for a ghost that remembers the connections of earlier processes.  
*Theorems:* `C42_bounded_partial`, `C42_terminated_partial`, `C42_terminated_refuted`, `C42_bounded_refuted`, `C42_honest_partial`, `C42_kinds`, `C42_addressed`, `C42_provisioned_refuted`, `C42_commit_refuted`  
*Result:* Proved for every run, restarts included, with a database that answers at once: at most as many provision, release, commit and abort confirmations as requests, and at the moment of sending every stored segment with an id of its own is in the state (and, for provision and terminate, was confirmed under that id). At most one termination confirmation per connection in runs without a restart. For every run, however calls interleave: a message about a connection goes to the agent that reserved it (C42_addressed). REFUTED: when rows are read concurrently after a restart, one provision request is confirmed twice (C42_bounded_refuted); two providers that use the same connection id are confused (the cache is keyed by the id alone), so provisioned is reported without one of them (C42_provisioned_refuted); a commit confirmation during an abort is passed on although no commit was requested (C42_commit_refuted); a termination is confirmed twice if the reservation is given up meanwhile and the process restarted (C42_terminated_refuted).

### C43 Aggregated data plane status is conservative (partial)

*Modelled:* ModelAggregator: machine of all calls and callbacks  
*Proof:* run invariants on connection rows, segments and caches (ProofsAggInv/Tab/Act/Help/Run/Run2), counting of outputs; for the database answering at once where stated  
*Theorems:* `C43_notified_run_partial`, `C43_query`, `C43_recursive`, `C43_notified`, `C43_agreement_refuted`  
*Result:* Query and notification status are conservative for every list of segments; in every run (database answering at once) what is notified is computed from a list containing every stored segment. REFUTED: the status given in a query does not agree with the one last notified (the query omits the check that all segments agree).

### C44 Failures of several providers are all reported (partial)

*Modelled:* ModelAggregator: reserve, commit, abort, provision, release, terminate as programs  
*Proof:* every behaviour of one call, the rest of the system changing the state arbitrarily at each wait; segmentation by induction over the path  
*Theorems:* `C44_kinds`, `C44_commit`, `C44_provision`, `C44_release`, `C44_terminate`, `C44_abort_partial`, `C44_abort_refuted`, `C44_message`  
*Result:* Proved for commit, provision, release and terminate, for every behaviour. REFUTED for abort: len() of a number raises TypeError, so neither the provider's error nor the names are reported (C44_abort_partial: it still never reports success).

### C45 Only the failed-over segments are cleaned up after a partial reservation (partial)

*Modelled:* ModelAggregator: reserve, commit, abort, provision, release, terminate as programs  
*Proof:* every behaviour of one call, the rest of the system changing the state arbitrarily at each wait; segmentation by induction over the path  
*Theorems:* `C45_cleanup_partial`, `C45_addressed_refuted`  
*Result:* Proved, with a working database and providers that do not change meanwhile: exactly the accepted segments are terminated at their own providers, and the last thing done is to write the connection's row with lifecycle Terminated. REFUTED: every termination is addressed to the agent asked last.

### C46 Recursive query answers once with all children (partial)

*Modelled:* ModelAggregator: queryRecursive and its callbacks  
*Proof:* run invariant of the open-query table (ProofsAggQRun); runs include restarts  
*Theorems:* `C46_once`, `C46_children_partial`, `C46_unknown`, `C46_duplicate`, `C46_answered_refuted`, `C46_status_refuted`, `C46_mixed_refuted`  
*Result:* Proved for every run, however calls interleave: at most one answer per query (C46_once); unknown and duplicate answers change nothing (C46_unknown, C46_duplicate). Proved for every run with a database that answers at once: exactly one child per segment asked, in order, each taken from the answer to that question (C46_children_partial). REFUTED: never answered for a connection without segments (C46_answered_refuted) or when two or more segments have not reported a version (C46_status_refuted); two queries with the same correlation id are mixed (C46_mixed_refuted).

### C47 Discovery polling backs off and stays bounded (partial)

*Modelled:* ModelDiscovery: fetcher.py with LoopingCall  
*Proof:* closed form of the interval iteration; table characterisation  
*Theorems:* `C47_interval`, `C47_pause_partial`, `C47_gaps_refuted`  
*Result:* REFUTED as stated: the polls are aligned by LoopingCall with multiples of the interval since the start, so a gap can shrink (1280 s then 1040 s) and is not always the doubled one (C47_gaps_refuted). Proved: the interval sequence (C47_interval) and the bound on each pause (C47_pause_partial).

### C48 Learned reachability costs one hop more (partial)

*Modelled:* ModelDiscovery: fetcher.py with LoopingCall  
*Proof:* closed form of the interval iteration; table characterisation  
*Theorems:* `C48_ports_partial`, `C48_providers`, `C48_unusable_ignored`, `C48_wanted_total`, `C48_ports_refuted`  
*Result:* REFUTED as stated: a re-advertised destination keeps its first cost and ports sharing one dictionary share vectors (C48_ports_refuted). Proved for distinct dictionaries and for providers, ignored documents and totality of the wanted set.

### C49 Conditional GET never hides an update (partial)

*Modelled:* ModelHttpRes: modifiableresource.py  
*Proof:* statement over traces of updates and requests  
*Theorems:* `C49_before_update`, `C49_current_content`, `C49_unconditional`, `C49_not_modified_partial`, `C49_unchanged`, `C49_not_modified_refuted`  
*Result:* REFUTED as stated: an update in the same second as the one the client saw is hidden (C49_not_modified_refuted). Proved for updates in later seconds, and the error/current-document parts in full.

### C50 Timestamps keep their instant (proved)

*Modelled:* ModelTime: xmlhelper.py over a civil calendar and an ISO 8601 parser  
*Proof:* days-from-civil bijection by the 400-year cycle; text round trip  
*Theorems:* `C50_round_trip`, `C50_aware_refused`, `C50_zone_instant`, `C50_no_zone_refused`, `C50_result_exists`  
*Result:* Formatting/parsing round trip, every zone offset, refusal of zoneless timestamps, results exist. Instants outside years 1..9999 raise OverflowError. The dateutil parser is modelled for calendar dates.

### C51 Security attributes survive the header encoding (partial)

*Modelled:* ModelHeader: helper.py header coding on element trees  
*Proof:* grouping lemma, header round trip  
*Theorems:* `C51_roundtrip_partial`, `C51_multiset`, `C51_empty_value_refuted`  
*Result:* Proved for headers without empty values; REFUTED for attributes with an empty value, which are dropped.

### C52 REST commands map to the right operation and status code (partial)

*Modelled:* ModelRest: resource.py POST handlers  
*Proof:* decision table compared with an independent one  
*Theorems:* `C52_command`, `C52_no_other_operation`, `C52_create_guard`, `C52_create_done`, `C52_created_status`, `C52_auto_provision_needs_auto_commit`, `C52_refusal_codes_refuted`  
*Result:* REFUTED in one respect: the codes of the immediate refusals (400/401/413) are not delivered, since the handlers return text and twisted.web answers 500 (C52_refusal_codes_refuted). All the rest is proved: exactly the named operation, no operation otherwise, 200/400/500 by outcome, guards on creation, auto-provision needs auto-commit.

### C53 Auto-commit commits once held, auto-provision provisions once committed (partial)

*Modelled:* ModelRest: watchers of created connections  
*Proof:* trace invariant of the watcher  
*Theorems:* `C53_commit_only_held`, `C53_commit_when_held_partial`, `C53_provision_only_asked`, `C53_provision_after_commit_partial`, `C53_refuted`  
*Result:* REFUTED as stated (C53_refuted): held before the watcher subscribed is never committed; an aborted reservation is provisioned without a commit; another notification while held commits twice. Proved: commits only while held, always when told of held while subscribed, provision only if asked, and after a commit unless the reservation was aborted.

### C54 Exported topology re-imports as the same topology (partial)

*Modelled:* ModelNml: createNMLNetwork, export and import on element trees  
*Proof:* induction over the list of ports  
*Theorems:* `C54_document_contents_partial`, `C54_described`, `C54_label_swapping`, `C54_import_refuted`, `C54_label_type_refuted`  
*Result:* REFUTED: parseNMLTopology hands dict views to Network, whose assertion rejects them, so no document can be imported (C54_import_refuted); label types come back as NML names (C54_label_type_refuted). C54_document_contents_partial proves all else for every list of configured ports with distinct names: ids, names, remotes, label values and pairing.

### C55 Query results round-trip through the protocol encoding (partial)

*Modelled:* ModelQueryHelper on element trees  
*Proof:* induction over the tree of children  
*Theorems:* `C55_round_trip_partial`, `C55_order_refuted`, `C55_gaps_refuted`  
*Result:* REFUTED as stated: with more than ten children their order is compared as text and scrambled (C55_order_refuted); a criteria without point-to-point service cannot be sent and a child without criteria cannot be read (C55_gaps_refuted). C55_round_trip_partial covers every tree whose criteria have a service and at most ten children and whose children have criteria.

### C56 Generated service identifiers do not collide (proved)

*Modelled:* ModelPlugins: canarie.py, pruner.py  
*Proof:* injectivity of naming over runs; list recursion of pruning  
*Theorems:* `C56_distinct`, `C56_injective`, `C56_given`  
*Result:* Connection ids generated through the Canarie plugin are distinct over any run and the naming is injective.

### C57 Label pruning keeps paths joined and only narrows labels (partial)

*Modelled:* ModelPlugins: canarie.py, pruner.py  
*Proof:* injectivity of naming over runs; list recursion of pruning  
*Theorems:* `C57_places_kept`, `C57_demarcations_joined`, `C57_others_kept`, `C57_common_label_partial`, `C57_run_narrows_partial`, `C57_common_label_refuted`  
*Result:* REFUTED as stated: two neighbouring listed networks give the shared link different labels at its ends (C57_common_label_refuted). Proved: places, demarcations and other segments kept; the common label when no two listed networks are adjacent (partial).

### C58 Advertising on one port leaves the other ports' vectors alone (partial)

*Modelled:* ModelLinkVector: linkvector.py, Dijkstra on association tables, vectors per port on a heap of dictionary objects  
*Proof:* path predicate in SpecLinkVector; loop invariant of Dijkstra; the fuel (number of nodes) is shown sufficient; operations as a run  
*Theorems:* `C58_ports_independent_refuted`, `C58_ports_independent_partial`  
*Result:* REFUTED by C58_ports_independent_refuted (shared dictionary object). Proved when no dictionary is shared.

### C59 The REST access gate admits exactly the listed hosts (partial)

*Modelled:* ModelAuthz: soapresource.py render_POST, requestauthz.py  
*Proof:* case analysis over every request, certificate and configuration; iff with being listed  
*Theorems:* `C59_rest_listed_admitted_refuted`, `C59_rest_never_admits_partial`, `C59_rest_open_partial`, `C59_rest_hostdn_rules_inert_partial`  
*Result:* REFUTED: the REST gate compares bytes with str under Python 3 and never admits a listed host; the safety half (nobody unlisted is admitted) is proved.

### C60 A reservation request arrives as it was sent (proved)

*Modelled:* ModelMessages: requesterclient.py, providerclient.py, providerservice.py, requesterservice.py, bindings/nsiconnection.py, bindings/p2pservices.py, actions.py (with ModelHeader for envelope and header, ModelXml for the XML tree)  
*Proof:* evaluation of encoder and decoder on symbolic values over the lemmas of C23 (STPs), C50 (times), C51 (headers); the case split on an explicit route gives the refusal  
*Theorems:* `C60_request_arrives`, `C60_route_refused`

### C61 A reservation's confirmation arrives as it was sent (proved)

*Modelled:* ModelMessages: requesterclient.py, providerclient.py, providerservice.py, requesterservice.py, bindings/nsiconnection.py, bindings/p2pservices.py, actions.py (with ModelHeader for envelope and header, ModelXml for the XML tree)  
*Proof:* as C60, over the lemmas of C55 for schedule and service definition  
*Theorems:* `C61_confirmation_arrives`

### C62 Simple requests and confirmations reach the method of their own name (proved)

*Modelled:* ModelMessages: requesterclient.py, providerclient.py, providerservice.py, requesterservice.py, bindings/nsiconnection.py, bindings/p2pservices.py, actions.py (with ModelHeader for envelope and header, ModelXml for the XML tree)  
*Proof:* the five methods by cases; for arbitrary messages: membership in the registration tables, each decoder calls one method only  
*Theorems:* `C62_requests_arrive`, `C62_confirmations_arrive`, `C62_action_decides`, `C62_action_decides_requester`

### C63 Failures keep connection, states and error (proved)

*Modelled:* ModelMessages: requesterclient.py, providerclient.py, providerservice.py, requesterservice.py, bindings/nsiconnection.py, bindings/p2pservices.py, actions.py (with ModelHeader for envelope and header, ModelXml for the XML tree)  
*Proof:* over the round trip of C21  
*Theorems:* `C63_failure_arrives`

### C64 Notifications arrive with their values (partial)

*Modelled:* ModelMessages: requesterclient.py, providerclient.py, providerservice.py, requesterservice.py, bindings/nsiconnection.py, bindings/p2pservices.py, actions.py (with ModelHeader for envelope and header, ModelXml for the XML tree)  
*Proof:* evaluation of encoder and decoder; refutation: sending with an exception is TypeError for all values  
*Theorems:* `C64_timeout_arrives`, `C64_data_plane_arrives`, `C64_error_event_partial`, `C64_error_event_refuted`  
*Result:* REFUTED for error events with a service exception: ErrorEvent is sent with providerclient.py:182 calling ServiceExceptionType with six of its seven arguments, so TypeError for all values (C64_error_event_refuted); the backends always give an exception. reserveTimeout and dataPlaneStateChange proved; errorEvent without exception proved but for the additional information, which is dropped.

### C65 Queries ask for exactly the given ids (proved)

*Modelled:* ModelMessages: requesterclient.py, providerclient.py, providerservice.py, requesterservice.py, bindings/nsiconnection.py, bindings/p2pservices.py, actions.py (with ModelHeader for envelope and header, ModelXml for the XML tree)  
*Proof:* induction over the id lists  
*Theorems:* `C65_query_arrives`

### C66 Query results arrive as they were sent (proved)

*Modelled:* ModelMessages: requesterclient.py, providerclient.py, providerservice.py, requesterservice.py, bindings/nsiconnection.py, bindings/p2pservices.py, actions.py (with ModelHeader for envelope and header, ModelXml for the XML tree)  
*Proof:* induction over connections and criteria; recursive results over C55  
*Theorems:* `C66_summary_arrives`, `C66_recursive_arrives`

### C67 Every request is handed on exactly once (proved)

*Modelled:* ModelProvider: provider.py, all methods  
*Proof:* per-step equation, induction over the events  
*Theorems:* `C67_handed_on`, `C67_query_refused`

### C68 Notifications and query results are sent once, to whom they concern (partial)

*Modelled:* ModelProvider: provider.py, all methods  
*Proof:* invariant: nothing is stored under a recursive query's key; the deferred stored under a correlation id is the one the specification's replay of the events gives  
*Theorems:* `C68_notes_partial`, `C68_error_event_refuted`, `C68_summary`  
*Result:* REFUTED for error events without a reply address, which are sent all the same (C68_error_event_refuted, which also gives the exact output for all events); everything else proved.

### C69 A call to a remote provider ends for the caller as it ended at the provider (partial)

*Modelled:* ModelSoapCall: requesterclient.py (all requests), httpclient.py:87-104, soapresource.py:95-138, providerservice.py, minisoap.py:75-161; the provider is an arbitrary function from calls to answers, the fate of the connection a parameter  
*Proof:* composition of the round trips of C60, C62, C65, C66 and C21 with those of acknowledgements and faults; soundness by cases on the served response  
*Theorems:* `C69_value`, `C69_failure`, `C69_raised`, `C69_unreadable`, `C69_route_refused`, `C69_connection_refused`, `C69_replies`, `C69_faults`, `C69_at_most_once`, `C69_sound_partial`, `C69_lost_refuted`  
*Result:* REFUTED for connections that close before the response: httpclient.py:87-92 swallows the error, so commit, abort, provision, release and terminate succeed for the caller whatever happened (C69_lost_refuted). Everything else is proved.

### C70 Requests go to the host and port of their URL, and never in the clear for https (partial)

*Modelled:* ModelHttpClient: httpclient.py:39-85 with the part of urllib.parse.urlparse it uses  
*Proof:* equations on the text of a URL built from its parts (round trip), and case analysis for arbitrary texts  
*Theorems:* `C70_target_partial`, `C70_never_clear`, `C70_needs_context`, `C70_only_http`, `C70_default_port_refuted`  
*Result:* REFUTED for http URLs without a port: they go to port 443 (C70_default_port_refuted). All other URLs are proved.

### C71 A configuration is accepted exactly if it is complete and consistent (proved)

*Modelled:* The reading and verification of a parsed file, option by option, over an arbitrary set of existing paths; the singleton that remembers the first file. Parsing the file's text is not modelled.  
*Proof:* By cases over the options, each related to a specification of what the file says that uses membership only; the backends by induction over the sections with the sections before them as invariant; the singleton by induction over the files read.  
*Theorems:* `C71_accepted`, `C71_refused`, `C71_contents`, `C71_once`, `C71_admin`  
*Result:* The kind of error is stated exactly: ConfigurationError for what is missing or inconsistent, ValueError for unreadable values.

### C72 A service is set up as configured (partial)

*Modelled:* setup.py from the verified configuration to the discovery document: the loop over the backends with the actual models of port maps (C24), link vectors (C13-C17) and provider registry (C20). Files and constructors are arbitrary. HTTP resources, database, TLS context and plugin are not modelled.  
*Proof:* Invariant over the backends processed so far: vectors, ports, networks and registry are those of the networks so far, and the link vector is one made by its own operations, so that C13-C15 apply; the chains by induction over walks. C72_policies: the policies of a service are the configured ones, plus "aggregator" for one without backends.  
*Theorems:* `C72_names`, `C72_starts`, `C72_service`, `C72_networks`, `C72_ports`, `C72_links`, `C72_routes`, `C72_neighbour`, `C72_path_vectors_refuted`, `C72_aggregator_only_refuted`, `C72_policies`  
*Result:* REFUTED as stated: without backends the service does not start (C72_aggregator_only_refuted), nor with path vectors in a map (C72_path_vectors_refuted). C72_starts and C72_service say exactly when it starts; the rest is proved for every service that does.

### C73 What an agent publishes is what its peers read (proved)

*Modelled:* The description as XML, as the service makes it from the interfaces, networks, features and the registry, and the reader from XML on (ModelXml's serialisation).  
*Proof:* The elements found under each tag of the serialised description are computed for any lists; the reader of texts is then shown equal to the reader of C48. C73_addresses/C73_address_known: all published interfaces are below the one address that the configuration fixes (base_url, or protocol, host and port).  
*Theorems:* `C73_read`, `C73_addresses`, `C73_address_known`, `C73_peers`, `C73_document`, `C73_understood`, `C73_not_understood`, `C73_any`  
*Result:* For the XML as the model of serialisation has it.

### C74 Descriptions of others add to what is configured and never change it (proved)

*Modelled:* The fetcher of C48 run on the state of C72 for any list of descriptions.  
*Proof:* Two invariants over the descriptions read: every configured port already has a vector object of its own, so vectors are never shared (compare C58), and the costs are the first ones said; the urns in the registry are those of the first claims. The neighbour's route from the completeness of C14.  
*Theorems:* `C74_routes`, `C74_backends`, `C74_agents`, `C74_providers`, `C74_neighbour`  
*Result:* The agent of a claimed network is proved for agents with another urn than the service's own; C74_own_urn shows the excluded case.

### C75 Ethernet switches carry the VLANs of the links that are up (proved)

*Modelled:* juniperex.py and brocade.py up to the command texts; what a switch does with a command, and what it means to carry a VLAN, is described in SpecDrivers.v independently of the code. The conversation over SSH is a separate matter.  
*Proof:* The texts are taken apart into words again; an invariant over histories says exactly which statements are in the configuration: those of the start and those of the links that are up. It needs that links apart in their resources neither delete nor replace each other's statements. Totality of setup is proved by evaluating the driver for the given ports.  
*Theorems:* `C75_ex_carries`, `C75_ex_joined`, `C75_ex_teardown`, `C75_ex_setup`, `C75_brocade_carries`, `C75_brocade_joined`, `C75_brocade_teardown`, `C75_brocade_setup`, `C75_force10_commands_partial`, `C75_force10_same`

### C76 Pica8 switches forward the traffic of the links that are up (partial)

*Modelled:* pica8ovs.py up to the command texts; the flow table of the switch is described in SpecDrivers.v: a flow for the same port and VLAN replaces the one before.  
*Proof:* The same invariant over histories, for flows and trunks. The counterexample is a port map with te-1/1/5 and te-1/2/5. Totality of setup is proved by evaluating the driver for the given ports.  
*Theorems:* `C76_forwarding_partial`, `C76_teardown`, `C76_setup`, `C76_forwarding_refuted`  
*Result:* REFUTED as stated: pica8ovs.py:34 takes the third part of the interface name plus 128 as the number of the port in the flow table, so te-1/1/5 and te-1/2/5 have the same one, and setting up a link on one takes the traffic of a link on the other (C76_forwarding_refuted). Proved in full when no two ports have the same number.

### C77 Juniper routers connect the two ends of every link that is up, and nothing else (partial)

*Modelled:* junosmx.py up to the command texts, with canConnect and the choice between local, remote and transit links; what a router does with set and delete, and when units are cross-connected or lead into a path, is described in SpecDrivers.v and SpecJunos.v independently of the code.  
*Proof:* The invariant over histories of C75, for all statements of a configuration: those of the start, those of links that are up, and statements about whole interfaces (tagging, encapsulation, mtu), which stay. Links apart in their resources have different units, paths and switches. For two routers, the characterisation of paths is used on both. The counterexamples are a port map with whole ports and one with surfnet.nl and surfnet6.nl. That local links can be set up is proved on its own (C77_setup_partial).  
*Theorems:* `C77_switched_partial`, `C77_tunnelled_partial`, `C77_ready_partial`, `C77_units_partial`, `C77_teardown_partial`, `C77_setup_partial`, `C77_admitted`, `C77_two_routers_partial`, `C77_whole_ports_refuted`, `C77_path_names_refuted`  
*Result:* REFUTED for whole ports that lead to another network (set up without error, connects nothing, cannot be torn down) and for networks that begin with the same six letters (paths of two links get the same name). Proved for links between VLANs, between local ports, and from an Ethernet end to an MPLS label, with networks that differ in their first six letters.

### C78 EX4550 switches connect the two ends of every link that is up, and nothing else (partial)

*Modelled:* junosex.py up to the command texts; the switch is described as in C77.  
*Proof:* The same invariant; since the resource is the VLAN alone, links that are up have different VLANs anywhere on the switch, so that ports may share interfaces.  
*Theorems:* `C78_switched_partial`, `C78_ready_partial`, `C78_units_partial`, `C78_commands_partial`, `C78_no_label_refuted`, `C78_other_labels_refuted`  
*Result:* REFUTED for ports without a label (no resource name, TypeError) and for labels other than VLANs (links with different labels share logical interface 0). Proved for links between VLANs.

### C79 A device carries exactly the active connections (partial)

*Modelled:* GenericBackend (ModelBackend) and the drivers (ModelDrivers, ModelJunos) together; SpecDeployment.v says what becomes of the device: the commands of a link take effect as a whole when the device reports success, and not at all when it reports failure.  
*Proof:* The backend's invariant has, beside what C31-C37 need, that each connection's link comes up and goes down by turns, and that whenever one came up while another was up, the two had no resource at the same time. That every told teardown is answered next is an invariant of programs. Induction over the outputs then rebuilds the device's history as one of those C75-C78 are about. The counterexamples are a restart after an outage that brings up a connection before it takes down the one whose VLAN it takes over, and a teardown that fails.  
*Theorems:* `C79_active_links_partial`, `C79_ex_joined_partial`, `C79_brocade_joined_partial`, `C79_pica8_partial`, `C79_mx_switched_partial`, `C79_ex4550_switched_partial`, `C79_ex_joined_refuted`, `C79_ex_failed_refuted`  
*Result:* Proved for histories in which no teardown fails and no link comes up while another one is still up that has a resource of it for another time. REFUTED without either: a restart after an outage brings up a connection before it takes down the one whose VLAN it takes over, and a failed teardown leaves the link on the device while the table says inactive.

### C80 Commands reach a device in order, and success means that it has taken them (partial)

*Modelled:* The class SSHChannel of six drivers as a machine that gets pieces of text (dataReceived, waitForLine/waitForData, sendCommands), and the command senders with and without a lock, in ModelChannel.v. The device, what is on its way and how it is cut are described in SpecChannel.v.  
*Proof:* Where a channel is in its conversation is an invariant over all pieces. Ending: whenever the channel waits, the prompt is on its way or the last line is unanswered; the steps are well-founded. What has been executed at the end follows by counting prompts in all the device has sent. The lock: an invariant over all events of a sender. Opening and losing connections is the matter of C87 and C88.  
*Theorems:* `C80_order`, `C80_ends_partial`, `C80_committed`, `C80_executed_partial`, `C80_line`, `C80_line_juniperex`, `C80_brocade_executed_partial`, `C80_force10_executed_partial`, `C80_pica8_executed_partial`, `C80_lock`, `C80_bytes_refuted`, `C80_cut_refuted`, `C80_refused_refuted`, `C80_commit_failed_refuted`, `C80_pica8_banner_refuted`, `C80_mixed_refuted`  
*Result:* REFUTED in part. Proved for all outputs: order, reports only after the last line, Junos: only after 'commit complete'; ending for devices that show their prompts uncut; what has been executed by then; with the lock of junosmx/junosex conversations do not mix. Refuted: bytes on Python 3 (all but brocade fail), cut prompts are lost, refused commands count as success, a failed commit blocks the sender for ever, a greeting counts as answers (pica8), juniperex has no lock.

### C81 Reading over REST shows the stored connections, to those admitted (partial)

*Modelled:* conn2dict and the three GET methods of protocols/rest/resource.py, in ModelRestGet.v; JSON bodies are decoded values, the database is what it returns.  
*Proof:* By cases, with the round trips of C23 (termination points), C50 (times) and C01 (labels); lists by induction. What an object should say is stated in SpecRestGet.v by the parsers' relations, not by the code that writes it.  
*Theorems:* `C81_shown`, `C81_list`, `C81_missing`, `C81_guarded`, `C81_again_partial`, `C81_list_open_refuted`, `C81_again_refuted`, `C81_stuck_refuted`, `C81_status_refuted`  
*Result:* REFUTED in four points: the list is open to all, the long poll never answers, a connection of two segments without version blocks the list, and null times cannot be posted again. Proved: the rest, for all connections.

### C82 Only listed hosts with genuine certificates act on a service, and it talks only to genuine servers (partial)

*Modelled:* opennsaTlsContext.py, setupTLSContext, the tree of SOAP and REST resources and how a request gets to them, in ModelTls.v, on top of the configuration (C71), the gates (C19, C59), REST (C52, C81) and the HTTP client (C70). OpenSSL's verdicts are functions of authorities and certificate, quantified over.  
*Proof:* Composition: the configuration's contents (C71), an invariant of the tree while agents are found, then by cases on the path of the request.  
*Theorems:* `C82_listed`, `C82_works`, `C82_rest_partial`, `C82_requester_partial`, `C82_own`, `C82_own_never_clear`, `C82_starts`, `C82_requester_refuted`, `C82_verify_refuted`, `C82_plain_refuted`, `C82_read_refuted`, `C82_bad_file_refuted`  
*Result:* REFUTED for answers of other agents (resource without the list of hosts), for verify=false, without TLS, and for the open list of connections; one bad authority file stops the service. Proved: operations of the provider only for listed hosts with genuine certificates, which are served; REST operations for nobody; own requests only to genuine servers; when a service starts.

### C83 Links and the circuits of an OESS controller go together (partial)

*Modelled:* oess.py from getTarget down to the text of each query and the reading of each answer, in ModelOess.v; conversations give way to each other at each query and share workgroup_id. What a controller makes of a query and answers is described in SpecOess.v independently of the code, including any refusal, error, or order of the ends of a circuit.  
*Proof:* An invariant over histories of links at any stage of their conversations: what may be asked next, whether the circuit is there, and that no other circuit is between the interfaces. For the checks before provisioning an induction over conversations, with arbitrary answers. The counterexamples are histories put together from lemmas that a link can be set up and torn down.  
*Theorems:* `C83_circuits_partial`, `C83_can`, `C83_checked`, `C83_other_vlans_refuted`, `C83_one_node_refuted`, `C83_refused_refuted`, `C83_available_refuted`, `C83_restart_refuted`  
*Result:* REFUTED in part. Proved under any interleaving, for a controller that answers refusals with errors and links of which no two are between the same interfaces (and are within one node only if the controller keeps the order of ends): circuits and links go together, links can be set up, and what is checked before a circuit is asked for, whoever answers. Refuted: links between the same interfaces, links within a node, refusals told by success 0, VLANs told unavailable, restarts.

### C84 The command line tool takes options from the command line, then the defaults file, then its own values (partial)

*Modelled:* readDefaults line by line, parseTimestamp, the postOptions of parser.py and doMain up to the start of a command, in ModelCli.v. usage.Options itself (how argv becomes options) and strptime are given from outside.  
*Proof:* The file: an induction over lines, against a specification of what a single line means and of "the last line that does". The options: each field of the plan is shown to be the one the specification of precedence allows. Completeness by going through doMain with the options there.  
*Theorems:* `C84_file`, `C84_options_partial`, `C84_can`, `C84_checks_partial`, `C84_no_verify_refuted`, `C84_first_refuted`, `C84_named_refuted`, `C84_all_options_refuted`  
*Result:* REFUTED in parts: the -u option is ignored for a provider named in the file, a name given as provider in the file is not expanded, waiting, route, attributes and values with '=' cannot be set in the file, and no-verify in the file is taken the wrong way round. Proved: the file (last line that sets an option wins), the value of every field of a started command, that commands with their options are started, TLS always with a context, checking of certificates when the file does not mention it.

### C85 Commands of the command line tool ask for one thing after the other, for the connection they were given (partial)

*Modelled:* _createSTP, _createSTPList, _handleEvent and all commands of commands.py, as programs that ask, say and wait, in ModelCli.v. Replies are any replies of a requester (C25, C26).  
*Proof:* STPs by composing with the parser of providers (C23). Runs: every beginning of every run of each command is enumerated symbolically and checked against a specification of orderly runs that knows only the list of requests. Waiting by induction over notifications.  
*Theorems:* `C85_stp`, `C85_mpls_refuted`, `C85_usage_refuted`, `C85_usage_partial`, `C85_steps`, `C85_request`, `C85_single`, `C85_unread`, `C85_wait_partial`, `C85_wait_refuted`, `C85_commit_refuted`  
*Result:* REFUTED in parts: the documented MPLS form is refused by providers, malformed texts are not always usage errors, waiting ends at events of other connections, reservecommit without an id is sent. Proved: STPs are read back as typed, order and confirmation of requests, correlation ids, what the user is told, failures, waiting up to the connection concerned.

### C86 Backends answer requests soundly whatever the driver, and the device follows (partial)

*Modelled:* Lines 230-345 of reserve with managers whose methods may raise, and the managers of juniperex, brocade, pica8ovs, junosmx, junosex, oess, dud, force10, junipervpls and ncsvpn, in ModelManager.v. The device and its histories are those of C79.  
*Proof:* A general lemma for managers that name and aim at every VLAN of a port: then the answer equals the admission of ModelBackend, for which the histories were proved. By induction over legal histories every stored connection is such a link. This discharges what C79 asks of drivers. One instance per driver.  
*Theorems:* `C86_ex_partial`, `C86_brocade_partial`, `C86_pica8_partial`, `C86_mx_partial`, `C86_ex4550_partial`, `C86_oess_partial`, `C86_dud_partial`, `C86_ends_partial`, `C86_ex_joined_partial`, `C86_brocade_joined_partial`, `C86_pica8_flows_partial`, `C86_mx_switched_partial`, `C86_ex4550_switched_partial`, `C86_force10_refuted`, `C86_ncs_refuted`, `C86_vpls_refuted`, `C86_tidy_refuted`, `C86_brocade_refuted`, `C86_bare_ports_refuted`, `C86_ends_refuted`, `C86_swap_partial`, `C86_types_partial`  
*Result:* REFUTED in full: junipervpls, ncsvpn and force10 never accept a request, and junipervpls leaves bookings behind; bookings also stay if VLAN 0 is picked from a wide request; a VLAN may be connected with itself; brocade accepts interfaces it cannot set up. Proved for juniperex, brocade, pica8ovs, junosmx, junosex, oess and dud: for requests for VLANs 1-4095 (1-4094 for oess), with the names of interfaces each driver needs; different ends for requests for single VLANs. The theorems on the device also need that teardowns work and that no link comes up late while another has its resource (see C79).

### C87 Commands go only to the device that was configured (proved)

*Modelled:* ssh.py and the command senders of six drivers as one machine in ModelSession.v: connections with their stages, requests with their progress, the connection kept, the lock, and what has left. What the SSH library tells are events in any order. The channels are those of ModelChannel.v.  
*Proof:* Invariants over all lists of events: how the stage of a connection can change, what a connection has carried at each stage, which lines were written for a request at each progress, who has the lock and who waits for it. Reading key files, exchanging keys anew and the end of file of a channel are not modelled.  
*Theorems:* `C87_key`, `C87_refused`, `C87_lost`, `C87_credentials`, `C87_backends`, `C87_login`, `C87_lines`, `C87_locked`, `C87_junos`  
*Result:* One machine for ssh.py and six command senders; all orders of events. Reading key files, exchanging keys anew and the end of file of a channel are not modelled.

### C88 A request to a device ends, and the next one works (partial)

*Modelled:* As for C87.  
*Proof:* The failures are computed from the invariants of C87. That a request which works succeeds is a run of the machine from any reachable state, with the channel's own run inside (so that C80 applies). That a request hangs for ever, and that a sender is silent for ever, is shown for every continuation.  
*Theorems:* `C88_success`, `C88_no_route`, `C88_no_credentials`, `C88_no_shell`, `C88_ended`, `C88_lock`, `C88_again`, `C88_senders`, `C88_no_waiting`, `C88_works`, `C88_reuses`, `C88_refuted`, `C88_hangs_refuted`, `C88_never_refuted`, `C88_junos_refuted`, `C88_silent_refuted`  
*Result:* REFUTED: a request that waits on a connection that is gone never ends (C88_refuted), which is so after a refused host key, a failed login or a loss (C88_hangs_refuted); junosmx and junosex never make a new connection (C88_never_refuted) and keep the lock (C88_silent_refuted). Proved: success means the whole conversation was written; refusals of the TCP connection, of missing credentials and of the shell end the request; the other senders give new requests good connections, and these work.

### C89 A link is set up only for a connection that its requester reserved, committed and provisioned (partial)

*Modelled:* ModelService: ModelAggregator and ModelBackendConc side by side. Calls between them are events that deliver what the other has sent, at any time and any number of times, so that the runs of the code are among those of the model. Runs include restarts of the process.  
*Proof:* Two invariants. Of the aggregator: every row, cached object and message has a reason among the calls received, kept at every wait (ProofsServiceWp/Inv/Prog, a wp logic with a rely relation). Of the backend: every command, answer and notification has a reason (ProofsConcSetup). ProofsService ties both logs together: a segment the backend confirmed is stored for the connection it was asked for, by the correlation id and the trace.  
*Theorems:* `C89_setup_partial`, `C89_requester_refuted`, `C89_apart_refuted`  
*Result:* REFUTED in full: the aggregator does not check that commit and provision come from the requester that reserved (C89_requester_refuted), and a remote provider that confirms with the id of a local segment gets that segment committed and provisioned (C89_apart_refuted). Proved for every run in which ids given by the backend are different and other agents' messages do not name them.

### C90 What a requester is told, the local backend has done (partial)

*Modelled:* As for C89, with a database that answers the aggregator at once (as in C41 and C42).  
*Proof:* At the act of sending, the honesty of C42 says what the aggregator has been told of each stored segment whose id is its own; that ids of backend segments are their own follows from the uniqueness of stored (provider, id) pairs; what it was told came from the backend, whose outputs have reasons (C89).  
*Theorems:* `C90_held_partial`, `C90_provisioned_partial`, `C90_active_partial`, `C90_terminated_partial`, `C90_event`, `C90_active_refuted`  
*Result:* REFUTED in full: a data plane notification of any agent about a local segment is believed (C90_active_refuted). Proved where other agents' messages do not name the backend's segments and the database answers at once (else C41_once_refuted and the like).

### C91 The confirmation tells the requester what was reserved (partial)

*Modelled:* The aggregator as in C41, with the path of each request as in C40.  
*Proof:* Two invariants are joined: one, for any interleaving, that every message about a connection and every stored segment stem from a received request and one position of a path for it (also used for C89); the other, for a database that answers at once, that the labels of the connection are those of its first and, if stored last, its last segment.  
*Theorems:* `C91_request`, `C91_labels_partial`, `C91_destination_refuted`, `C91_asked_refuted`  
*Result:* Addressee and repeated fields proved for every run and interleaving, restarts included. Source label, and destination label if the last segment is the last one stored and as many are stored as the path has, proved with a database that answers at once. REFUTED in full: with the last segment confirmed before another one, the requester is told an inner label (C91_destination_refuted); labels confirmed but not asked for are passed on (C91_asked_refuted).

### C92 The circuits on a Junos Space server are those of the links that are up (partial)

*Modelled:* junosspace.py: the list of routers, canConnect, and the choice of configlet and parameters for local, remote and transit links, up to the body of the request. SpecSpace.v says what the server does with a request (a set-up configlet makes the circuit its parameters describe, a tear-down configlet removes it if every parameter is the same) and which circuit a link stands for.  
*Proof:* Set-up succeeds exactly if the link has a circuit, with one request that describes it, and so does tear-down (case analysis over where the ports lead and the label types, both directions). The invariant over histories follows as ids, and with them circuit names, differ. Path names are read back from their end. The counterexamples are concrete port maps; that no network name with a colon has a router is by induction over the configured list. Under a backend, the histories are those of C79, and with VLANs only nothing more is asked than that the network has a router. The list of routers is read as configured, the last entry of a network counting (C92_routers).  
*Theorems:* `C92_circuits`, `C92_setup_partial`, `C92_teardown`, `C92_active_partial`, `C92_requests`, `C92_vlans_partial`, `C92_routers`, `C92_two_routers`, `C92_paths_partial`, `C92_accepted_refuted`, `C92_path_names_refuted`, `C92_network_names_refuted`  
*Result:* Circuits after any history, agreement of two routers, the list of routers, and tear-down of what could be set up (same errors otherwise) proved in full; set-up characterised exactly; paths differ if the first six letters of the networks or the label values do; under a backend as in C79 and C86. REFUTED in full: links that pass every check cannot be set up (C92_accepted_refuted), two networks share a path name (C92_path_names_refuted), networks with a colon in their name never have a router (C92_network_names_refuted).

### C93 The device uses the ports and labels the requester was told (partial)

*Modelled:* The service of C89: the aggregator of C41 and the backend of C34 with calls between them delivered at any time.  
*Proof:* An invariant over the interleaved backend, for a predicate on rows that depends only on what never changes (ProofsConcKept.v): every object and row satisfies it if every new row does, and every link given to the device stems from such an object. As ids are given once, the row a reservation will get is determined by the run; taking "has the ports and labels of that row" as the predicate, all objects of one id agree at all times, also when the confirmation is made. With C91 this reaches the requester. Foreign confirmations and a destination confirmed early are concrete runs.  
*Theorems:* `C93_confirmed_partial`, `C93_told_partial`, `C93_apart_refuted`, `C93_destination_refuted`  
*Result:* REFUTED as stated: when the segment at the destination is confirmed before another segment, the requester is told a range (or the other segment's label) where the device uses one label of its own (C93_destination_refuted); a confirmation by another agent about the backend's reservation is believed (C93_apart_refuted). Proved: with ids given once and no foreign messages about them, every link given to the device is as confirmed, and as told at the source; at the destination if its segment was the last to be stored.

### C94 A topology holds what was put into it, and ports that face each other are found from each other (proved)

*Modelled:* The dict of networks with its order; look-ups as loops over it; finding the port on the other side.  
*Proof:* Induction over the operations: one entry per id, under the network's own id, and the entry is a fold over the history. The look-ups by induction over the dict.  
*Theorems:* `C94_entry`, `C94_add`, `C94_port`, `C94_demarcation`, `C94_mutual`  
*Result:* Proved; that facing ports are found from each other assumes that networks share no port ids, that the halves of a port are ports of its network, and that no two ports have the same halves.

### C95 Topology.findPaths returns usable paths, shortest first (partial)

*Modelled:* The search with the two calls that cannot work (a port where a label is expected, five arguments for two) as parameters: once as written, once as they were meant. The depth of the recursion is bounded by a fuel of twice the number of networks.  
*Proof:* As written every call raises, by going through the branches. For the repaired calls by induction over the depth: what is below leads to the destination, its labels are inside those asked for there, and it avoids the networks left; the measure is twice the number of networks not yet left, plus one if the current one is among those left. The refutations are concrete networks.  
*Theorems:* `C95_never`, `C95_never_inner`, `C95_repaired_partial`, `C95_ends`, `C95_refuted`, `C95_label_refuted`, `C95_twice_refuted`  
*Result:* REFUTED: as written findPaths never returns (C95_never: every call raises, as a port is handed to Label.canMatch where a label is expected; links would then be made with five arguments for two). With the two calls as they were meant: what is returned leads there, is usable, shortest first, and the search ends (C95_repaired_partial, C95_ends); but one way out whose labels differ from those of the source ends the search with EmptyLabelSet (C95_label_refuted), and a network may be crossed twice in a row (C95_twice_refuted).

### C96 The page of connections shows each of them as it is (partial)

*Modelled:* The resource that renders the table of connections, line by line, over the rows of the database (ModelPage.v). A reader of the table is in SpecPage.v.  
*Proof:* The reader splits at tags; by induction over the rows, with the texts of labels and times shown free of tags.  
*Theorems:* `C96_listed_partial`, `C96_apart_partial`, `C96_only`, `C96_document`, `C96_open_refuted`, `C96_bytes_refuted`, `C96_markup_refuted`, `C96_type_refuted`  
*Result:* REFUTED: a connection without an end breaks the page, texts of requesters are not escaped, Python 3 never writes it, label types are not shown (C96_*_refuted). Proved: for connections with an end and texts without tags the table read from the page has exactly one row per connection with its values (C96_listed_partial), and pages tell ids, states and times apart (C96_apart_partial); the page is there only if every connection has an end (C96_only).

### C97 A conversation with a VPLS router ends in time (partial)

*Modelled:* The channel with its timers and a clock: data comes in or time passes, in any order (ModelVpls.v).  
*Proof:* An invariant over all events: which turn the channel is in, the deadline of the turn, what has been sent, and that what is in the buffer is the end of what was heard.  
*Theorems:* `C97_order`, `C97_committed`, `C97_in_time`, `C97_final`, `C97_ends_partial`, `C97_never_refuted`, `C97_stuck_refuted`, `C97_bytes_refuted`  
*Result:* REFUTED as to ending: waitTimeout loses the Deferred, so a conversation never fails and after a timeout waits for ever (C97_never_refuted, C97_stuck_refuted); bytes on Python 3 (C97_bytes_refuted). Proved: order and completeness of lines, success only after the router's word, success with every timely router, finality; and for waitTimeout repaired, the end in time for every router (C97_ends_partial).

### C98 Headers are written and read as the NSI documents say (proved)

*Modelled:* The same functions as for C51; the documents' form of a message is described in SpecHeader.v with its own names.  
*Proof:* Look-ups of children are shown to be the first child of a name; attributes and hops by induction over the children; grouping by induction over the attributes.  
*Theorems:* `C98_reads`, `C98_refused`, `C98_written`  
*Result:* Namespaces are abbreviated in the model of XML (ModelXml.v); attributes with an empty value are dropped, see C51.

### C99 Messages are written and read as the NSI documents say (partial)

*Modelled:* The clients and services of C60 to C66; the documents' form of the messages is described in SpecDocument.v with names of its own (relations on element trees: first child of a name, its text, attributes, texts of times, STPs, booleans and error codes).  
*Proof:* Each relation determines what the decoder's look-ups give; the decoders are then run symbolically, message by message.  What is written is compared with literal trees.  Query results are in C102; that a boolean "1" is taken for false is refuted on an example.  
*Theorems:* `C99_reserve_partial`, `C99_reserve_confirmed_partial`, `C99_requests`, `C99_confirmations`, `C99_queries`, `C99_timeout`, `C99_change_partial`, `C99_failure_partial`, `C99_event`, `C99_error_partial`, `C99_no_direction`, `C99_boolean_refuted`, `C99_error_refuted`, `C99_other_service_refused`, `C99_asks`, `C99_tells`  
*Result:* REFUTED: the boolean text "1" is read as false (C99_boolean_refuted), e.g. a data plane reported up is taken to be down, and an error message without variables raises a TypeError (C99_error_refuted).  Everything else is proved: C99_reserve_partial, C99_reserve_confirmed_partial, C99_change_partial and C99_failure_partial leave out exactly that text, C99_error_partial exactly those messages.  Bodies of query results are in C102.

### C100 Topology documents say what NML requires and are read so (partial)

*Modelled:* The export and import of ModelNml (C54); the form of the documents is described in SpecNmlDoc.v with names of its own (relations on element trees).  
*Proof:* What is written is shown to have the form, by induction over the ports; the reader is run on any tree of the form, by induction over its children, whatever their order.  
*Theorems:* `C100_written`, `C100_read_partial`, `C100_read_refuted`  
*Result:* What is written is proved to have the form of the NML documents (C100_written); every document of the form is read as what it says up to the last step (C100_read_partial). REFUTED: the last step hands dict views to Network, whose assertion refuses them, so that no document is imported (C100_read_refuted; the same fault as C54).

### C101 VPLS routers join the two ends of every link that is up, in a VPN of its own (partial)

*Modelled:* The driver of junipervpls.py (ModelManager.v); the router's configuration is a list of statements about units and instances, and what a command text does to it is an assumption (SpecVplsRouter.v).  
*Proof:* An invariant over all histories: the configuration is the start plus the statements of the links that are up; then what the statements mean.  Links are set up only after a plugin has given them an id (C86_vpls_refuted).  
*Theorems:* `C101_carries`, `C101_joined`, `C101_left`, `C101_kept`, `C101_vpn`, `C101_own_vpn_partial`, `C101_setup`, `C101_teardown`, `C101_own_vpn_refuted`  
*Result:* Carrying, joining, nothing left behind, set-up and tear-down proved for all histories. REFUTED: VPNs of their own: ids that differ only in letters 6 and 7 or after the ninth give the same route distinguisher (C101_own_vpn_refuted); otherwise they differ (C101_own_vpn_partial).

### C102 Answers to queries say what they should, and are read so, whoever wrote them (partial)

*Modelled:* The query results of ModelQueryHelper.v and the summaries of ModelMessages.v, through the requester service; the form of the answers is described in SpecResults.v with mutually inductive relations on element trees.  
*Proof:* Reading: induction on the element tree; sorting children by the text of a one-digit number is sorting by the number, and a strictly sorted permutation is unique.  Writing: induction on the tree of connections, for any number of children.  Orders of several digits, a missing list of children and the boolean "1" are refuted on examples.  
*Theorems:* `C102_summary_partial`, `C102_recursive_partial`, `C102_written`, `C102_order_refuted`, `C102_children_refuted`, `C102_one_refuted`, `C102_nobody_refuted`  
*Result:* REFUTED as stated in four points: the numbers of children are compared as texts (C102_order_refuted), criteria without a list of children are a TypeError (C102_children_refuted), the boolean text "1" is read as false (C102_one_refuted), and an unknown requester is told as "None" (C102_nobody_refuted).  C102_summary_partial leaves out only the boolean, C102_recursive_partial exactly the first three; C102_written is proved for any number of children and known requesters.

### C103 Someone who asks for connections sees them all and can tell them apart (partial)

*Modelled:* `_emitQueryResult` as the list of messages it logs, the two query commands once the answer is there, and the observer that writes messages to the terminal (ModelCliShow.v). SpecCliShow.v says separately what a block of lines looks like, which connections are below which, and the order in which they are read.  
*Proof:* Induction on the tree of connections for the blocks; no line of a block is empty or one the observer hides, so the blocks can be cut apart again, and each determines depth, id, provider and states. Connections below later criteria are refuted on an example.  
*Theorems:* `C103_shown`, `C103_every_partial`, `C103_only`, `C103_terminal`, `C103_apart`, `C103_none`, `C103_later_refuted`  
*Result:* REFUTED as stated in one point: connections below other than the first criteria are not shown (C103_later_refuted); C103_every_partial is the statement for those below the first. C103_apart asks for connection ids without blanks and states without commas. The rest is proved for all answers.

### C104 Every connection has an id of its own, under which it stays known (proved)

*Modelled:* `BasePlugin.init` and `createConnectionId`, with the indices that `random.choice` draws as an argument (ModelConnId.v); the aggregator as in C41 (ModelAggregator.v), where the id is the answer to one of its waits and the row is refused if the id is taken or the times are out of order, as the schema says.  
*Proof:* Ids: cases over the sixteen digits and induction over the draws. Rows: every behaviour of `reserve` for which id is stored and told; for runs, an invariant that holds at every wait of every call: objects stand for stored rows, rows keep id and requester, ids are unique.  
*Theorems:* `C104_shape`, `C104_prefix`, `C104_distinct`, `C104_any`, `C104_safe`, `C104_agents_refuted`, `C104_given`, `C104_taken`, `C104_free`, `C104_times`, `C104_apart`, `C104_kept`  
*Result:* C104_shape, C104_prefix, C104_distinct, C104_any, C104_safe, C104_given, C104_taken, C104_free and C104_times hold for all inputs and states; C104_apart and C104_kept in all runs, with any interleaving at any wait and any restarts. Not claimed, and false (C104_agents_refuted): ids of agents whose domains start with the same letters may coincide; a connection is known by its id and its agent.

### C105 Segments of a connection stay what their agents confirmed, and are asked for at these agents (partial)

*Modelled:* The aggregator as in C41 (ModelAggregator.v). SpecSegment.v says separately what of a segment does not change, that it was confirmed, and which requests are about which segment.  
*Proof:* An invariant that holds at every wait of every call: objects stand for stored rows that agree with them in everything but states; rows are as some confirmation in the log of calls said; provider and id are unique. What carries a request is refuted on an example.  
*Theorems:* `C105_kept`, `C105_apart`, `C105_confirmed`, `C105_log`, `C105_addressed`, `C105_taken`, `C105_free`, `C105_carried_refuted`, `C105_carried_partial`  
*Result:* C105_kept, C105_apart, C105_confirmed (with C105_log) and C105_addressed hold in all runs, with any interleaving at any wait and any restarts; C105_taken and C105_free for all states. REFUTED: that a request is carried by what the registry has for a network of the agent it is addressed to (C105_carried_refuted); the lookup is by the network of the confirmed source. Where that is a network of the agent it holds for commit, abort, provision and release (C105_carried_partial; recursive queries not shown). C105_addressed says the agent has a segment of that id, not that every segment is asked for: where two agents use one id the cache confuses their segments (C42_provisioned_refuted). Terminations are left out of C105_addressed, because the clean-up after failed reservations sends them too (C45_addressed_refuted).

## Not modelled

* Twisted's reactor and Deferred plumbing: only the order of segments matters,
  and all orders are quantified over. LoopingCall and deferLater/cancel are
  modelled where used (ModelDiscovery, ModelScheduler).
* XML text and HTTP/TLS byte encodings (element trees are the lowest level), the
  PostgreSQL server (rows as a finite map with whole-row save, the CHECK and
  UNIQUE constraints that matter), the SSH protocol (in ModelSession the SSH
  library tells what happens on a connection, in any order; in the backend model a
  driver is an oracle that answers, fails or never answers; in the driver models
  the commands reach the device in order; the conversation itself is in
  ModelChannel),
  logging, the syntax of configuration files.

## Findings

Defects of the code found while modelling. Those marked with a theorem are proved
of the model; the others were met in reading and are recorded for completeness.

Labels, calendar, states
* `randomLabel` uses `randint(lo, hi + 1)`, inclusive at both ends, so it may
  return a value outside the label (`C05_random_label_refuted`).
* The availability check asserts on spans with end before start instead of
  answering (`C06_check_refuted`).
* Notifying subscribers iterates over the live list: a callback that removes
  itself makes the next subscriber miss the notification (C11 `_refuted`).

Topology and routes
* `updateVector` logs a changed cost but never stores it
  (`C17_readvertised_cost_refuted`, and with it `C48_ports_refuted`).
* Vectors handed over as one dictionary object for several ports are aliased: an
  update for one port shows up at the others (`C58_ports_independent_refuted`).
* A blacklisted local network that is reachable makes recomputation raise
  KeyError; `deleteVector` swallows it, and does not notify subscribers.
* Polling intervals are aligned by LoopingCall to multiples of the interval, so
  gaps may shrink (`C47_gaps_refuted`).
* `parseNMLTopology` passes dict views to `Network`, whose assertion rejects
  them: no document can be imported (`C54_import_refuted`). Label types come back
  as NML URIs (`C54_label_type_refuted`); bidirectional remotes are not exported.
* `Topology.findPaths` never returns (`C95_never`): `Port.canMatchLabel` hands the port
  itself to `Label.canMatch`, which raises AttributeError for a label and is false
  without one. Links would be made with five arguments for two. With these two
  mended, a port whose labels differ from the source's ends the search with
  EmptyLabelSet (`C95_label_refuted`), and a network with two ports that lead to each
  other is crossed twice (`C95_twice_refuted`). Only tests use it, and they are skipped.
* A remote specification in the port file may be followed by anything
  (C24); an attribute with two `=` raises ValueError.
* `setup.py` 249-257 calls `updateVector` with an argument missing.
* Pruning two neighbouring listed networks gives their shared link different
  labels at the two ends (`C57_common_label_refuted`). `canarie.py` imports
  `zope.interface.implements`, which Python 3 versions no longer have.

Drivers
* junipervpls.py: `createConnectionId` raises NotImplementedError, and the
  aggregator never gives a connection id to a backend (aggregator.py:385). So no
  request ever succeeds, and each one leaves both resources booked for ever, as the
  bookings (genericbackend.py:330-331) come before (`C86_vpls_refuted`).
* junipervpls.py:210 sets the Deferred that waits to None before failing it: a
  conversation never fails, and after a timeout it waits for ever
  (`C97_never_refuted`, `C97_stuck_refuted`).
* junipervpls.py:304 makes the number of a VPN from the letters 1-5, 8 and 9 of the
  connection id: links whose ids differ elsewhere only share route distinguisher and
  target, so that their traffic meets (`C101_own_vpn_refuted`). Ids of another form
  than canarie.py's give distinguishers that are no numbers.
* ncsvpn.py and force10.py read attributes labels do not have (`value`, `type`): no
  request ever succeeds (`C86_ncs_refuted`, `C86_force10_refuted`). With the right
  name force10.py:277 would make `str(label.labelValue)`, the text of a method, the
  resource.
* A request for more VLANs than the port has is accepted, and the VLAN is picked
  from what was asked for. With 0 in it the target check fails after the bookings
  were made, and they stay (`C86_tidy_refuted`).
* A request for `pa?vlan=105` to `pa?vlan=105-106` is accepted as a connection of
  VLAN 105 with itself: genericbackend.py:262 compares what is asked for, not what
  is picked (`C86_ends_refuted`).
* brocade.py and force10.py split targets at dots: interfaces with a dot in the name
  are accepted, but can never be set up (`C86_brocade_refuted`).
* Ports without labels with juniperex.py: AttributeError (`C86_bare_ports_refuted`).
* oess.py looks for the circuit of a link by its interfaces only: with two links
  between the same interfaces, tearing down one may remove the circuit of the other
  (`C83_other_vlans_refuted`). The tests of lines 70-81 try only one order of the
  ends if both are at one node: such a circuit may not be found, and the link is
  reported down (`C83_one_node_refuted`).
* oess.py accepts a VLAN that the controller says is not available (lines 112-115,
  `C83_available_refuted`), takes a refused circuit for a success, and a refused
  removal too (lines 90-93, 336, `C83_refused_refuted`).
* oess.py learns the id of its workgroup only when a link is set up: after a restart
  the first teardown asks for the circuits of workgroup None (`C83_restart_refuted`).
* force10.py reads `label.type`, which labels do not have: every reservation fails
  with AttributeError. Its constructor takes five arguments, setup.py passes four.
* brocade.py splits the interface and VLAN at every dot, so that an interface with
  a dot in its name can be reserved but never set up (ValueError).
* pica8ovs.py uses the third part of the interface name as the number of the port
  in flows: te-1/1/5 and te-1/2/5 share one (`C76_forwarding_refuted`).
* junosmx.py accepts every pair of label types, but sets up nothing for a whole
  port that leads to another network; tearing such a link down fails with
  AttributeError (`C77_whole_ports_refuted`). A whole port cannot be connected to
  a VLAN that leads to another network either.
* junosmx.py names paths after the first six letters of the networks; with the
  same label value, paths to surfnet.nl and surfnet6.nl are one and the same
  (`C77_path_names_refuted`).
* junosex.py: the conditional in getResource covers the whole sum, so a resource
  is a VLAN without its port, one link per VLAN on the switch, and ports without
  a label raise TypeError (`C78_no_label_refuted`). Labels of other types
  are accepted and share unit 0 (`C78_other_labels_refuted`).
* junosspace.py accepts links that it cannot set up: two MPLS labels on the way
  through, a whole port on the way through, and a whole port that leads to another
  network, which raises AttributeError (`C92_accepted_refuted`). Path names are cut
  as in junosmx.py (`C92_path_names_refuted`).
* junosspace.py cuts an entry of the list of routers at its first two colons, so a
  network like dockertest.net:2021:topology never has a router, and none of its
  links can be set up (`C92_network_names_refuted`).
* junosspace.py, from reading only: it uses `zope.interface.implements` and
  `b"{}:{}".format`, neither of which works on Python 3; answers of the server are
  printed and not looked at, so any answer counts as success.
* The SSH channels of juniperex, junosmx, junosex, pica8ovs and force10 add what
  the SSH library hands over to a text; on Python 3 these are bytes, and the first
  data raises TypeError (`C80_bytes_refuted`).
* Channels that look at lines drop what follows the last line feed of a piece, so
  a prompt that arrives in two pieces is not seen (`C80_cut_refuted`).
* Answers are not looked at: an error message followed by the prompt counts as
  success (`C80_refused_refuted`); a commit that fails leaves the conversation
  waiting with the lock, and no link can be set up any more
  (`C80_commit_failed_refuted`).
* pica8ovs takes any line feed for an answer, also those of a greeting
  (`C80_pica8_banner_refuted`).
* juniperex has no lock and uses the shared `configure`: conversations mix, and a
  commit of one commits half of another (`C80_mixed_refuted`).
* junosmx and junosex keep the SSH connection for ever and do not look whether it
  was lost (juniperex.py:174 does); after that no request ever ends
  (`C88_never_refuted`). If it is lost in a conversation the lock is never given
  back (`C88_silent_refuted`).
* No errback is called when a host key is refused, a login fails, a channel is
  refused or a connection is lost: the request never ends
  (`C88_refuted`, `C88_hangs_refuted`). Requests made before the first connection
  is up each make one of their own.
* A device without credentials raises after the connection was made, which stays
  open; ssh.py:173-174. force10.py:272 uses a name that is not bound if keys are
  configured, so that the backend cannot be made.

Access
* A certificate without a common name, or TLS without certificate and list, gives
  AttributeError instead of a refusal (C19); the SOAP gate returns `str` where
  twisted wants bytes; the REST gate compares bytes with `str`, so it never
  admits a listed host (C59).
* `spawnProvider` returns None when it re-uses a provider (C20).

Protocol
* A five-character error id of unknown category raises ValueError, uncaught while
  decoding a peer's exception (C22). 00102 and 00505 are not in the table.
* `createSTP`/`parseLabel` raise ValueError on a second `?` or `=` (C23);
  `createSTP` removes every occurrence of the URN prefix.
* Empty attribute values are dropped from the header (C51); an attribute without
  values raises TypeError in `parseRequest`.
* A message of another kind with the same correlation id removes the waiting
  call, which then neither completes nor times out (C26). The requester service
  lacks handlers for reserveCommitFailed, reserveAbort and reserveAbortConfirmed.
* Commit and abort replies are stored under one key; a confirmation before the
  acknowledgement is lost (C28). `Provider.querySummary` does not pass the request
  info; `providerclient.errorEvent` overwrites the connection id.
* Children of a recursive answer are ordered by the text of their number: eleven
  or more are scrambled (`C55_order_refuted`); criteria without service cannot be
  encoded and children without criteria not decoded; a missing requester is sent
  as "None".
* A recursive answer with criteria that have no list of children, for which the
  binding has None (nsiconnection.py:736), is not read: `sorted(None)`
  (queryhelper.py:149) is a TypeError (`C102_children_refuted`).
  `C102_order_refuted`, `C102_one_refuted`: answers of other programs with numbers of
  several digits, or with the boolean "1".
* The command line client shows of a connection with several criteria only the
  first, and none of the connections below the others (`C103_later_refuted`).
* An error event with a service exception cannot be sent: TypeError
  (`C64_error_event_refuted`); the backends always give one. Error events without
  a reply address are sent to no address (`C68_error_event_refuted`). `info` of an
  error event is dropped. The time of data plane changes and error events arrives
  as text, that of reservation timeouts parsed (C64). A received `error` message
  without variables raises TypeError (requesterservice.py:179).
* A connection that closes before the response counts as success for commit,
  abort, provision, release, terminate and the asynchronous queries, delivered or
  not; a reservation ends with TypeError (`C69_lost_refuted`, httpclient.py:87-92).
  An unknown SOAP action is answered with `str`, which twisted turns into a 500
  error page the client cannot parse.
* An http URL without a port is requested from port 443, without TLS: line 61 of
  httpclient.py compares bytes with `str` (`C70_default_port_refuted`). URLs with
  IPv6 addresses or user names raise ValueError.
* The body's element is not compared with the SOAP action: a release sent with
  the action of terminate terminates (`C62_action_only`). terminateFailed has a
  handler but is not registered (`C62_not_registered`). A parameter with empty
  value arrives as None (`C60_empty_parameter`). The requester sends the service
  type of 2013/12, constants.py:26 has that of 2013/07.
* Conditional GET hides an update made in the same second (C49). Instants outside
  years 1..9999 raise OverflowError (C50).
* Booleans are compared with the text "true" (nsiconnection.py:16, 18;
  p2pservices.py:58), but XML Schema also has "1": a data plane reported up that way
  is taken to be down (`C99_boolean_refuted`).
* The handler of `error` messages iterates over the variables of the exception
  (requesterservice.py:179).  The schema makes them optional; an error without
  them is a TypeError and does not reach the requester (`C99_error_refuted`,
  `C99_error_partial`).
* A second element of another service in the criteria, which the schema allows, makes
  the request fail (nsiconnection.py:152 with p2pservices.py:106;
  `C99_other_service_refused`).
* Requests and confirmations name different service types: .../2013/12/... in
  requesterclient.py:120 and .../2013/07/... in constants.py:26 (`C99_asks`,
  `C99_tells`).

Configuration
* Unreadable numbers, truth values and section names with two colons raise
  ValueError, not ConfigurationError (C71, `C71_value_errors`). A list of peers that
  begins on the line after `peers =` has an empty first peer (`C71_peers`).
  Policies are not trimmed, so `requireuser, aggregator` is refused. A second file
  is never read, not even after the first was refused (`C71_once`).
* Aggregator-only mode cannot be started: without backends the description is made
  from a set that does not have the agent's own urn, and `set.remove` raises KeyError
  where ValueError is expected (service.py 46-52; `C72_aggregator_only_refuted`).
* An nrm map with path vectors (`vector=...`), which the parser accepts, stops the
  service with a TypeError (setup.py 255; `C72_path_vectors_refuted`). A map that does
  not exist raises AttributeError, since `config.ConfigError` does not exist (243).
  Peers written on lines of their own stop the service with an AssertionError, and the
  kind `asyncfail` is accepted by the configuration but by no constructor (`C72_no_start`).
* A backend called `nsa` is set up, but requests to it fail: `getProvider` refuses
  every network whose name ends in `:nsa` (`C72_nsa`).
* A service never advertises reachability (service.py 54-66 passes no `other`), so an
  OpenNSA agent learns only the networks of its direct neighbours (C73).
* The list of peers in a description is only renewed when a vector changes; a new agent
  none of whose networks is at the other end of a port does not appear (setup.py 332-333).
* A description with the agent's own urn makes one of the agent's own backends the
  provider of whatever networks it lists (`C74_own_urn`).

TLS
* The resource for answers of another agent is made without the list of hosts
  (nsi2/__init__.py:45): anyone with a genuine certificate can confirm, fail or
  change the data plane state of connections; the address is a hash of public
  names (`C82_requester_refuted`).
* With `verify=false` a self-made certificate with a listed name is enough
  (`C82_verify_refuted`); without TLS the list of hosts is ignored
  (`C82_plain_refuted`).
* One file `*.0` that is not a certificate keeps the service from starting, though
  own requests pass it over (`C82_bad_file_refuted`).
* A context without own certificate has no attribute `ctx`
  (opennsaTlsContext.py:69); never reached, since TLS demands a key.
* The view of connections is put at the text 'connections' (setup.py:293), where
  twisted.web looks for bytes: it is never found.
* The page of connections: one connection without an end and it is never answered
  (`C96_open_refuted`); names of ports are not escaped, so a requester can put rows
  of their own into it (`C96_markup_refuted`); on Python 3 it is never written
  (`C96_bytes_refuted`); types of labels are not shown (`C96_type_refuted`). It is
  shown to every host.

REST
* Immediate refusals return `str`, so twisted answers 500 whatever code was set
  (C52).
* Auto-commit: held before the watcher subscribed is never committed; an aborted
  reservation is provisioned; another notification while held commits twice (C53).
* The list of connections is given to anyone, also with a list of hosts
  (`C81_list_open_refuted`).
* The highest data plane version is taken over values that may be missing: two
  segments, as in any connection over two networks just reserved, and neither
  this connection nor the list is ever answered (`C81_stuck_refuted`). The
  aggregator guards against this in two places and not at aggregator.py:809.
* The long poll writes text where bytes are needed: it never answers
  (`C81_status_refuted`).
* A shown object with a null time cannot be posted (`C81_again_refuted`).

Command line tool
* `no-verify=true` in the defaults file makes certificates be checked, and
  `no-verify=false` turns the checks off: onsa:126 takes the value of the option "skip"
  for "verify" (`C84_no_verify_refuted`).
* A service URL given with `-u` is ignored when the provider is an agent named in the
  defaults file (`C84_first_refuted`). Such a name is not known when it is the provider
  of the defaults file (`C84_named_refuted`).
* The documents say that all options can be set in the defaults file.
  `notification_wait`, `ero` and `securityattributes` cannot, nor can a value with '='
  such as an STP with a label: options.py:72 splits it in three and drops the line
  (`C84_all_options_refuted`). `+20` as a time works in the file only.
* The documented STP form with '?' is never taken apart by the tool. It works since
  URN and text look the same. The documented `?mpls=123:456` is refused by every
  provider (`C85_mpls_refuted`).
* An unknown label type is a KeyError and a second '#' a ValueError, not a usage error
  (`C85_usage_refuted`). A command line without command is not refused by the parser:
  `postOptions` returns the usage error (parser.py:231).
* `-y` stops waiting at an error or end of any connection of the same requester
  (`C85_wait_refuted`). For provision and release it does nothing but say so.
* `reservecommit` without a connection id is sent (`C85_commit_refuted`).

Backend
* A rejected insert (duplicate id) leaks calendar entries (C29). Labels are not
  intersected with the port's range (C30). start == end passes the calendar but
  not the database (only with a minimum duration of zero or less).
* An open-ended connection with a start in the future aborts the whole restore at
  a restart: AttributeError or TypeError (C31, C32, C37). A start exactly at the
  restart gets no timer; if its link was up already, it stays up past its end (C35); rows in Provisioning/Releasing get none; rows in
  Terminating/Failed are added to the calendar again.
* The requester is not told of an expiry when cancelling the running timer call
  makes it fail; a held connection ended by a restart can still be committed (C33).
* Terminating while an activation waits for the device lets the activation save
  its stale row: lifecycle Created, link up, no calendar entry
  (`C36_lifecycle_refuted`); or the link stays up for ever (`C36_link_refuted`).
* Abort confirms even if the rollback failed; terminate on a terminated
  connection raises AttributeError (`conn.cid`); release more than a second after
  the end fails its assertion after saving Releasing; a commit whose end is more
  than a second overdue raises after having been saved; a reserve whose end has
  passed stays held without timer; a provision whose start slips past while
  waiting for the database stays Provisioning; a failed activation leaves no
  end-time call; a failed teardown still frees the resources.
* At a restart the rows are gone through in the order of the table: a connection whose
  start has passed is brought up before one further down whose end has passed is taken
  down. If the first takes over a VLAN of the second, the teardown removes it, and the
  connection stays active in the table without carrying traffic (`C79_ex_joined_refuted`).
* A failed teardown leaves the link on the device while the table has the connection as
  inactive and its resources as free (`C79_ex_failed_refuted`).

Aggregator
* Abort takes `len` of a number: TypeError, so failures are not reported (C44).
* Clean-up terminations are all addressed to the agent asked last (C45).
* Selecting by global reservation id names a column that does not exist; a
  recursive query does not check whose connection it is (C38).
* A request whose source only is remote is always refused (C39).
* `vector` returns `(None, None)`, never None: without a route the row is left
  Checking; so it is after a hairpin or STP resolution failure.
* The segment cache is keyed by connection id alone: two providers with the same
  id are confused (`C42_provisioned_refuted`). A commit confirmation during an
  abort is passed on (`C42_commit_refuted`). Two confirmations handled at the same
  time after a restart each read the connection into an object of their own, and the
  requester is told twice that it is provisioned (`C42_bounded_refuted`).
* Two confirmations handled while the database works each load their own objects:
  two confirmations upwards (`C41_once_refuted`). A reserve that raises midway
  leaves segments whose confirmations then confirm a partial path. Acks that fail
  after the confirmation overwrite the row with a stale object.
* The data plane status in a query omits the check that all segments agree (C43).
* Recursive query: not answered for zero segments, TypeError with two or more
  segments without version, mixed up for equal correlation ids (C46).
* Whoever knows the id of a connection can commit, provision, release and terminate
  it (`C89_requester_refuted`). A remote provider that confirms a segment with the
  id of a segment of the local backend gets that one committed and provisioned,
  though its owner did not ask (`C89_apart_refuted`); a notification from any agent
  about it is believed (`C90_active_refuted`).
* Restart: the table of open reservations is in memory only. Confirmations that come
  later are refused and the connection stays in checking (Example `C42_ex_restart`).
  Notification ids start again at 0. If a reservation is given up while the
  connection is terminated, the row is overwritten with an older one; a process
  started then confirms the termination again (`C42_terminated_refuted`).
* `errorEvent` is NotImplemented for more than one segment; errors of reserve name
  networks and not providers.
* The destination label of a connection is set when a segment's position is one less
  than the number of segments stored so far (aggregator.py:944-945). If the last
  segment is not the last to be confirmed, the requester is told the label of an inner
  segment, or the range it asked for (`C91_destination_refuted`).
* What carries a request about a segment is looked up by the network of the source that
  its agent confirmed (aggregator.py:473-474), not by the agent. An agent that confirms
  a source in a network of another agent gets no further requests about the segment:
  they are handed to the other one, under the header of the first
  (`C105_carried_refuted`).
* Labels confirmed by a provider are not compared with those asked for (the check is
  commented out at aggregator.py:913-915), and are passed on (`C91_asked_refuted`).
* So the device may use another label than the requester was told, or one of a range
  that it was told (`C93_destination_refuted`).

## Wrong programs

`seeded/LOG.jsonl` records realistic wrong edits of the model, what claim each
breaks, which theorems no longer prove, and which were tightened. Each was made
in a scratch copy; a theorem counts as failed when its proof breaks (or that of a
lemma it rests on).
