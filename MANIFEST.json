{
 "claims": [
  {
   "property": "C01",
   "status": "proved",
   "theorems": [
    "C01_parse_items",
    "C01_parse_text",
    "C01_normal_form_unique",
    "C01_text_labels_wf"
   ],
   "note": ""
  },
  {
   "property": "C02",
   "status": "proved",
   "theorems": [
    "C02_intersect",
    "C02_intersect_comm",
    "C02_can_match",
    "C02_can_match_absent"
   ],
   "note": ""
  },
  {
   "property": "C03",
   "status": "proved",
   "theorems": [
    "C03_label_text_roundtrip",
    "C03_label_eq"
   ],
   "note": ""
  },
  {
   "property": "C04",
   "status": "proved",
   "theorems": [
    "C04_enumerate",
    "C04_single_value"
   ],
   "note": ""
  },
  {
   "property": "C05",
   "status": "partial",
   "theorems": [
    "C05_random_label_refuted",
    "C05_random_label_partial"
   ],
   "note": "REFUTED by C05_random_label_refuted: randint(lo, hi+1) is inclusive. Strongest true bound proved."
  },
  {
   "property": "C06",
   "status": "partial",
   "theorems": [
    "C06_check",
    "C06_dates",
    "C06_check_refuted"
   ],
   "note": "Proved for forward spans (C06_check). REFUTED in general: degenerate spans end in AssertionError (C06_check_refuted)."
  },
  {
   "property": "C07",
   "status": "proved",
   "theorems": [
    "C07_no_double_booking"
   ],
   "note": ""
  },
  {
   "property": "C08",
   "status": "proved",
   "theorems": [
    "C08_remove",
    "C08_add_remove"
   ],
   "note": ""
  },
  {
   "property": "C09",
   "status": "proved",
   "theorems": [
    "C09_operation",
    "C09_operation_enabled",
    "C09_multi_switch",
    "C09_history"
   ],
   "note": ""
  },
  {
   "property": "C10",
   "status": "proved",
   "theorems": [
    "C10_lifecycle_final"
   ],
   "note": ""
  },
  {
   "property": "C11",
   "status": "partial",
   "theorems": [
    "C11_notify_partial",
    "C11_notify_refuted"
   ],
   "note": "Proved when callbacks leave this connection's subscriptions alone; REFUTED for a self-unsubscribing callback."
  },
  {
   "property": "C12",
   "status": "proved",
   "theorems": [
    "C12_one_pending",
    "C12_fired",
    "C12_refused",
    "C12_accepted",
    "C12_cancel_all"
   ],
   "note": ""
  },
  {
   "property": "C13",
   "status": "proved",
   "theorems": [
    "C13_routes_genuine"
   ],
   "note": ""
  },
  {
   "property": "C14",
   "status": "proved",
   "theorems": [
    "C14_cheapest",
    "C14_no_route_iff"
   ],
   "note": ""
  },
  {
   "property": "C15",
   "status": "proved",
   "theorems": [
    "C15_path_terminates",
    "C15_updates_succeed"
   ],
   "note": ""
  },
  {
   "property": "C16",
   "status": "proved",
   "theorems": [
    "C16_routes_current",
    "C16_deleted_port_unused",
    "C16_learned_routable"
   ],
   "note": ""
  },
  {
   "property": "C17",
   "status": "partial",
   "theorems": [
    "C17_readvertised_cost_refuted",
    "C17_new_destination_partial"
   ],
   "note": "REFUTED by C17_readvertised_cost_refuted: updateVector logs the new cost but never stores it. Proved: new destinations take effect."
  },
  {
   "property": "C18",
   "status": "proved",
   "theorems": [
    "C18_granted_iff",
    "C18_unknown_never_grants",
    "C18_monotone"
   ],
   "note": ""
  },
  {
   "property": "C19",
   "status": "partial",
   "theorems": [
    "C19_dispatch_only_listed",
    "C19_listed_dispatched",
    "C19_others_refused",
    "C19_plain_open",
    "C19_always_answered_refuted"
   ],
   "note": "Proved for every request; REFUTED only for the shape 'error value instead of a refusal': a certificate without a common name, or TLS without a certificate and no list, raises AttributeError (still refused)."
  },
  {
   "property": "C20",
   "status": "proved",
   "theorems": [
    "C20_stable",
    "C20_spawn_known",
    "C20_spawn_shared",
    "C20_spawn_new",
    "C20_unknown_network",
    "C20_agent_refused",
    "C20_double_registration"
   ],
   "note": ""
  },
  {
   "property": "C21",
   "status": "proved",
   "theorems": [
    "C21_error_roundtrip",
    "C21_defaults",
    "C21_class_kept",
    "C21_other_exceptions"
   ],
   "note": ""
  },
  {
   "property": "C22",
   "status": "partial",
   "theorems": [
    "C22_decoding_total_refuted",
    "C22_decoding_partial",
    "C22_failure_partial"
   ],
   "note": "REFUTED: lookup raises ValueError for a five-character id of unknown category (e.g. 00999) and createException does not catch it; proved total on every other id."
  },
  {
   "property": "C23",
   "status": "partial",
   "theorems": [
    "C23_roundtrip",
    "C23_accepts",
    "C23_missing_prefix",
    "C23_payload_error_refuted",
    "C23_payload_error_partial",
    "C23_short",
    "C23_equal"
   ],
   "note": "Round trip and exact acceptance grammar proved; REFUTED only for the kind of error: a second '?' or '=' raises ValueError instead of a payload error."
  },
  {
   "property": "C24",
   "status": "proved",
   "theorems": [
    "C24_ports",
    "C24_functional",
    "C24_accepts",
    "C24_rejects",
    "C24_unknown_attribute"
   ],
   "note": "Characters after the closing bracket of a remote specification are silently ignored (the grammar states this)."
  },
  {
   "property": "C25",
   "status": "proved",
   "theorems": [
    "C25_at_most_once",
    "C25_own_answer",
    "C25_late_answer"
   ],
   "note": ""
  },
  {
   "property": "C26",
   "status": "partial",
   "theorems": [
    "C26_completes_refuted",
    "C26_completes_partial",
    "C26_not_early_partial",
    "C26_timeout_partial"
   ],
   "note": "REFUTED as stated: a message of another kind with the same provider and correlation id removes the waiting call before the kind is compared, and its timer then finds nothing (C26_completes_refuted). Proved for all runs in which messages with the request's key carry its action."
  },
  {
   "property": "C27",
   "status": "proved",
   "theorems": [
    "C27_answers_request",
    "C27_at_most_once",
    "C27_never_requested",
    "C27_used_up",
    "C27_sync_once"
   ],
   "note": ""
  },
  {
   "property": "C28",
   "status": "partial",
   "theorems": [
    "C28_kind_refuted",
    "C28_early_confirmation_refuted",
    "C28_kind_partial",
    "C28_delivered_partial"
   ],
   "note": "REFUTED as stated: commit and abort requests are stored under the same key (C28_kind_refuted), and a confirmation that comes before the acknowledgement is dropped (C28_early_confirmation_refuted). Proved: all other kinds never mix, commit/abort do not mix on a connection that saw only one of them, and a confirmation after the request is delivered."
  },
  {
   "property": "C29",
   "status": "partial",
   "theorems": [
    "C29_refused_partial",
    "C29_accepted",
    "C29_complete",
    "C29_busy",
    "C29_refused_refuted"
   ],
   "note": "REFUTED as stated: when the insert is rejected (duplicate generated id) calendar entries leak (C29_refused_refuted); accepted and complete directions proved, requests for which no label is free are refused as unavailable (C29_busy), refusals have no effect otherwise (C29_refused_partial)."
  },
  {
   "property": "C30",
   "status": "partial",
   "theorems": [
    "C30_in_range_refuted",
    "C30_in_range_partial"
   ],
   "note": "REFUTED as stated: requested labels are not intersected with the port's range (C30_in_range_refuted); proved if the request lies within what the port offers."
  },
  {
   "property": "C31",
   "status": "partial",
   "theorems": [
    "C31_calendar_exact_partial",
    "C31_calendar_exact_refuted"
   ],
   "note": "REFUTED as stated: a restart aborted by an open-ended connection with a future start loses bookings (C31_calendar_exact_refuted); exact for every serial history whose restarts see no such connection. Interleavings inside an operation: see C36."
  },
  {
   "property": "C32",
   "status": "partial",
   "theorems": [
    "C32_no_double_booking_partial",
    "C32_no_double_booking_refuted"
   ],
   "note": "REFUTED as stated via the aborted restart (C32_no_double_booking_refuted); proved for every serial history whose restarts see no open-ended connection with a start."
  },
  {
   "property": "C33",
   "status": "partial",
   "theorems": [
    "C33_held_timer",
    "C33_expiry_partial",
    "C33_commit_or_expiry",
    "C33_commit_after_expiry",
    "C33_commit_after_abort",
    "C33_told_refuted",
    "C33_commit_refused_refuted"
   ],
   "note": "REFUTED as stated: the requester is not told when cancelling the running timer call makes it fail (C33_told_refuted), and a held connection ended by a restart can still be committed (C33_commit_refused_refuted). Expiry pending, rolled back, freed; commit and expiry exclusive; commit refused after expiry/abort: proved."
  },
  {
   "property": "C34",
   "status": "proved",
   "theorems": [
    "C34_setup",
    "C34_refused"
   ],
   "note": "Machine ModelBackendConc.v: every wait (database, device, parent) suspends, may fail, and any other request, timer, started method, restart or passage of time may come in between. C34_setup: in every run, a set-up command sent to the device is justified by a reservation of those ports, a commit passing authorization, and a provision passing authorization that arrived before the end time. C34_refused: a request on a connection that is unknown, unauthorized or terminated when it is looked up fails, and its own changes touch nothing but in-memory objects, whatever others do at its waits (they may not change the object it loaded, which nobody else knows)."
  },
  {
   "property": "C35",
   "status": "partial",
   "theorems": [
    "C35_flag_is_link",
    "C35_ended_inactive",
    "C35_torn_down",
    "C35_not_before_start",
    "C35_end_timer_partial",
    "C35_end_timer_refuted",
    "C35_told",
    "C35_told_failed"
   ],
   "note": "REFUTED as stated for one moment: a restart at the very moment at which a link that is up was to start leaves it without its end, so it stays up past it (C35_end_timer_refuted); for all other histories, restarts included, the end is pending whenever a link is up (C35_end_timer_partial). Torn down and inactive at end, release and terminate proved for all serial histories, and no link is up before its start (C35_not_before_start). With any interleaving, requesters are told of data planes going up or down only after the device did so, and of failures only after it failed (C35_told, C35_told_failed)."
  },
  {
   "property": "C36",
   "status": "partial",
   "theorems": [
    "C36_lifecycle_refuted",
    "C36_link_refuted",
    "C36_terminated_partial"
   ],
   "note": "REFUTED in both halves: C36_lifecycle_refuted (an activation waiting for the device saves its stale copy of the row after the termination: lifecycle Created again, link up, no calendar entry), C36_link_refuted (the device answers between the termination's look at the row and its end: Terminated, nothing going on, link up). Proved instead, for every interleaving including restarts: C36_terminated_partial, once nothing is going on for a terminated connection its row never changes and nothing is sent to the device or the requester for it again. Missing: that overlapping operations are excluded; the code does not exclude them."
  },
  {
   "property": "C37",
   "status": "partial",
   "theorems": [
    "C37_restart_partial",
    "C37_restart_refuted"
   ],
   "note": "REFUTED as stated: an open-ended connection with a start aborts the whole restore, and a connection whose start is exactly the restart time gets no timer (C37_restart_refuted); proved otherwise."
  },
  {
   "property": "C38",
   "status": "partial",
   "theorems": [
    "C38_summary",
    "C38_backend",
    "C38_global_id_refuted",
    "C38_recursive_refuted"
   ],
   "note": "Proved for every interleaving: the summary answer lists exactly the rows that match the ids and belong to the asking agent (all for an administrator), with their stored states; same for the backend's query. REFUTED: selecting by global reservation id always fails (the query names a column that does not exist); a recursive query does not look whose connection it is."
  },
  {
   "property": "C39",
   "status": "proved",
   "theorems": [
    "C39_policy",
    "C39_trace",
    "C39_hairpin",
    "C39_remote_source"
   ],
   "note": "Every behaviour of reserve, whatever the rest of the system does meanwhile: no effect at all if the request is against policy; the trace sent with each segment is the received one extended by this agent's entry. C39_remote_source is a finding: a request whose source only is remote is always refused."
  },
  {
   "property": "C40",
   "status": "proved",
   "theorems": [
    "C40_chain"
   ],
   "note": "For every behaviour of reserve under a fixed route table: the calls made are a prefix of a chain that joins up over the computed route, and all of it once the providers' answers are waited for; no call is made unless each network on it is local or has a known provider."
  },
  {
   "property": "C41",
   "status": "partial",
   "theorems": [
    "C41_once_partial",
    "C41_all_partial",
    "C41_failed_partial",
    "C41_held_partial",
    "C41_refused",
    "C41_duplicate",
    "C41_once_refuted"
   ],
   "note": "Proved for every run, any number of segments, connections, overlapping calls and restarts of the process, with a database that answers at once: confirmation at most once, only after every agent asked confirmed, never together with a failure, and every stored segment held when it is sent. Answers that were not asked for and second answers change nothing: proved for every interleaving. REFUTED when calls also interleave within database operations: two confirmations handled at the same time send two confirmations upwards (C41_once_refuted)."
  },
  {
   "property": "C42",
   "status": "partial",
   "theorems": [
    "C42_bounded_partial",
    "C42_terminated_partial",
    "C42_terminated_refuted",
    "C42_bounded_refuted",
    "C42_honest_partial",
    "C42_kinds",
    "C42_addressed",
    "C42_provisioned_refuted",
    "C42_commit_refuted"
   ],
   "note": "Proved for every run, restarts included, with a database that answers at once: at most as many provision, release, commit and abort confirmations as requests, and at the moment of sending every stored segment with an id of its own is in the state (and, for provision and terminate, was confirmed under that id). At most one termination confirmation per connection in runs without a restart. For every run, however calls interleave: a message about a connection goes to the agent that reserved it (C42_addressed). REFUTED: when rows are read concurrently after a restart, one provision request is confirmed twice (C42_bounded_refuted); two providers that use the same connection id are confused (the cache is keyed by the id alone), so provisioned is reported without one of them (C42_provisioned_refuted); a commit confirmation during an abort is passed on although no commit was requested (C42_commit_refuted); a termination is confirmed twice if the reservation is given up meanwhile and the process restarted (C42_terminated_refuted)."
  },
  {
   "property": "C43",
   "status": "partial",
   "theorems": [
    "C43_notified_run_partial",
    "C43_query",
    "C43_recursive",
    "C43_notified",
    "C43_agreement_refuted"
   ],
   "note": "Query and notification status are conservative for every list of segments; in every run (database answering at once) what is notified is computed from a list containing every stored segment. REFUTED: the status given in a query does not agree with the one last notified (the query omits the check that all segments agree)."
  },
  {
   "property": "C44",
   "status": "partial",
   "theorems": [
    "C44_kinds",
    "C44_commit",
    "C44_provision",
    "C44_release",
    "C44_terminate",
    "C44_abort_partial",
    "C44_abort_refuted",
    "C44_message"
   ],
   "note": "Proved for commit, provision, release and terminate, for every behaviour. REFUTED for abort: len() of a number raises TypeError, so neither the provider's error nor the names are reported (C44_abort_partial: it still never reports success)."
  },
  {
   "property": "C45",
   "status": "partial",
   "theorems": [
    "C45_cleanup_partial",
    "C45_addressed_refuted"
   ],
   "note": "Proved, with a working database and providers that do not change meanwhile: exactly the accepted segments are terminated at their own providers, and the last thing done is to write the connection's row with lifecycle Terminated. REFUTED: every termination is addressed to the agent asked last."
  },
  {
   "property": "C46",
   "status": "partial",
   "theorems": [
    "C46_once",
    "C46_children_partial",
    "C46_unknown",
    "C46_duplicate",
    "C46_answered_refuted",
    "C46_status_refuted",
    "C46_mixed_refuted"
   ],
   "note": "Proved for every run, however calls interleave: at most one answer per query (C46_once); unknown and duplicate answers change nothing (C46_unknown, C46_duplicate). Proved for every run with a database that answers at once: exactly one child per segment asked, in order, each taken from the answer to that question (C46_children_partial). REFUTED: never answered for a connection without segments (C46_answered_refuted) or when two or more segments have not reported a version (C46_status_refuted); two queries with the same correlation id are mixed (C46_mixed_refuted)."
  },
  {
   "property": "C47",
   "status": "partial",
   "theorems": [
    "C47_interval",
    "C47_pause_partial",
    "C47_gaps_refuted"
   ],
   "note": "REFUTED as stated: the polls are aligned by LoopingCall with multiples of the interval since the start, so a gap can shrink (1280 s then 1040 s) and is not always the doubled one (C47_gaps_refuted). Proved: the interval sequence (C47_interval) and the bound on each pause (C47_pause_partial)."
  },
  {
   "property": "C48",
   "status": "partial",
   "theorems": [
    "C48_ports_partial",
    "C48_providers",
    "C48_unusable_ignored",
    "C48_wanted_total",
    "C48_ports_refuted"
   ],
   "note": "REFUTED as stated: a re-advertised destination keeps its first cost and ports sharing one dictionary share vectors (C48_ports_refuted). Proved for distinct dictionaries and for providers, ignored documents and totality of the wanted set."
  },
  {
   "property": "C49",
   "status": "partial",
   "theorems": [
    "C49_before_update",
    "C49_current_content",
    "C49_unconditional",
    "C49_not_modified_partial",
    "C49_unchanged",
    "C49_not_modified_refuted"
   ],
   "note": "REFUTED as stated: an update in the same second as the one the client saw is hidden (C49_not_modified_refuted). Proved for updates in later seconds, and the error/current-document parts in full."
  },
  {
   "property": "C50",
   "status": "proved",
   "theorems": [
    "C50_round_trip",
    "C50_aware_refused",
    "C50_zone_instant",
    "C50_no_zone_refused",
    "C50_result_exists"
   ],
   "note": "Formatting/parsing round trip, every zone offset, refusal of zoneless timestamps, results exist. Instants outside years 1..9999 raise OverflowError. The dateutil parser is modelled for calendar dates."
  },
  {
   "property": "C51",
   "status": "partial",
   "theorems": [
    "C51_roundtrip_partial",
    "C51_multiset",
    "C51_empty_value_refuted"
   ],
   "note": "Proved for headers without empty values; REFUTED for attributes with an empty value, which are dropped."
  },
  {
   "property": "C52",
   "status": "partial",
   "theorems": [
    "C52_command",
    "C52_no_other_operation",
    "C52_create_guard",
    "C52_create_done",
    "C52_created_status",
    "C52_auto_provision_needs_auto_commit",
    "C52_refusal_codes_refuted"
   ],
   "note": "REFUTED in one respect: the codes of the immediate refusals (400/401/413) are not delivered, since the handlers return text and twisted.web answers 500 (C52_refusal_codes_refuted). All the rest is proved: exactly the named operation, no operation otherwise, 200/400/500 by outcome, guards on creation, auto-provision needs auto-commit."
  },
  {
   "property": "C53",
   "status": "partial",
   "theorems": [
    "C53_commit_only_held",
    "C53_commit_when_held_partial",
    "C53_provision_only_asked",
    "C53_provision_after_commit_partial",
    "C53_refuted"
   ],
   "note": "REFUTED as stated (C53_refuted): held before the watcher subscribed is never committed; an aborted reservation is provisioned without a commit; another notification while held commits twice. Proved: commits only while held, always when told of held while subscribed, provision only if asked, and after a commit unless the reservation was aborted."
  },
  {
   "property": "C54",
   "status": "partial",
   "theorems": [
    "C54_document_contents_partial",
    "C54_described",
    "C54_label_swapping",
    "C54_import_refuted",
    "C54_label_type_refuted"
   ],
   "note": "REFUTED: parseNMLTopology hands dict views to Network, whose assertion rejects them, so no document can be imported (C54_import_refuted); label types come back as NML names (C54_label_type_refuted). C54_document_contents_partial proves all else for every list of configured ports with distinct names: ids, names, remotes, label values and pairing."
  },
  {
   "property": "C55",
   "status": "partial",
   "theorems": [
    "C55_round_trip_partial",
    "C55_order_refuted",
    "C55_gaps_refuted"
   ],
   "note": "REFUTED as stated: with more than ten children their order is compared as text and scrambled (C55_order_refuted); a criteria without point-to-point service cannot be sent and a child without criteria cannot be read (C55_gaps_refuted). C55_round_trip_partial covers every tree whose criteria have a service and at most ten children and whose children have criteria."
  },
  {
   "property": "C56",
   "status": "proved",
   "theorems": [
    "C56_distinct",
    "C56_injective",
    "C56_given"
   ],
   "note": "Connection ids generated through the Canarie plugin are distinct over any run and the naming is injective."
  },
  {
   "property": "C57",
   "status": "partial",
   "theorems": [
    "C57_places_kept",
    "C57_demarcations_joined",
    "C57_others_kept",
    "C57_common_label_partial",
    "C57_run_narrows_partial",
    "C57_common_label_refuted"
   ],
   "note": "REFUTED as stated: two neighbouring listed networks give the shared link different labels at its ends (C57_common_label_refuted). Proved: places, demarcations and other segments kept; the common label when no two listed networks are adjacent (partial)."
  },
  {
   "property": "C58",
   "status": "partial",
   "theorems": [
    "C58_ports_independent_refuted",
    "C58_ports_independent_partial"
   ],
   "note": "REFUTED by C58_ports_independent_refuted (shared dictionary object). Proved when no dictionary is shared."
  },
  {
   "property": "C59",
   "status": "partial",
   "theorems": [
    "C59_rest_listed_admitted_refuted",
    "C59_rest_never_admits_partial",
    "C59_rest_open_partial",
    "C59_rest_hostdn_rules_inert_partial"
   ],
   "note": "REFUTED: the REST gate compares bytes with str under Python 3 and never admits a listed host; the safety half (nobody unlisted is admitted) is proved."
  },
  {
   "property": "C60",
   "status": "proved",
   "theorems": [
    "C60_request_arrives",
    "C60_route_refused"
   ],
   "note": ""
  },
  {
   "property": "C61",
   "status": "proved",
   "theorems": [
    "C61_confirmation_arrives"
   ],
   "note": ""
  },
  {
   "property": "C62",
   "status": "proved",
   "theorems": [
    "C62_requests_arrive",
    "C62_confirmations_arrive",
    "C62_action_decides",
    "C62_action_decides_requester"
   ],
   "note": ""
  },
  {
   "property": "C63",
   "status": "proved",
   "theorems": [
    "C63_failure_arrives"
   ],
   "note": ""
  },
  {
   "property": "C64",
   "status": "partial",
   "theorems": [
    "C64_timeout_arrives",
    "C64_data_plane_arrives",
    "C64_error_event_partial",
    "C64_error_event_refuted"
   ],
   "note": "REFUTED for error events with a service exception: ErrorEvent is sent with providerclient.py:182 calling ServiceExceptionType with six of its seven arguments, so TypeError for all values (C64_error_event_refuted); the backends always give an exception. reserveTimeout and dataPlaneStateChange proved; errorEvent without exception proved but for the additional information, which is dropped."
  },
  {
   "property": "C65",
   "status": "proved",
   "theorems": [
    "C65_query_arrives"
   ],
   "note": ""
  },
  {
   "property": "C66",
   "status": "proved",
   "theorems": [
    "C66_summary_arrives",
    "C66_recursive_arrives"
   ],
   "note": ""
  },
  {
   "property": "C67",
   "status": "proved",
   "theorems": [
    "C67_handed_on",
    "C67_query_refused"
   ],
   "note": ""
  },
  {
   "property": "C68",
   "status": "partial",
   "theorems": [
    "C68_notes_partial",
    "C68_error_event_refuted",
    "C68_summary"
   ],
   "note": "REFUTED for error events without a reply address, which are sent all the same (C68_error_event_refuted, which also gives the exact output for all events); everything else proved."
  },
  {
   "property": "C69",
   "status": "partial",
   "theorems": [
    "C69_value",
    "C69_failure",
    "C69_raised",
    "C69_unreadable",
    "C69_route_refused",
    "C69_connection_refused",
    "C69_replies",
    "C69_faults",
    "C69_at_most_once",
    "C69_sound_partial",
    "C69_lost_refuted"
   ],
   "note": "REFUTED for connections that close before the response: httpclient.py:87-92 swallows the error, so commit, abort, provision, release and terminate succeed for the caller whatever happened (C69_lost_refuted). Everything else is proved."
  },
  {
   "property": "C70",
   "status": "partial",
   "theorems": [
    "C70_target_partial",
    "C70_never_clear",
    "C70_needs_context",
    "C70_only_http",
    "C70_default_port_refuted"
   ],
   "note": "REFUTED for http URLs without a port: they go to port 443 (C70_default_port_refuted). All other URLs are proved."
  },
  {
   "property": "C71",
   "status": "proved",
   "theorems": [
    "C71_accepted",
    "C71_refused",
    "C71_contents",
    "C71_once",
    "C71_admin"
   ],
   "note": "The kind of error is stated exactly: ConfigurationError for what is missing or inconsistent, ValueError for unreadable values."
  },
  {
   "property": "C72",
   "status": "partial",
   "theorems": [
    "C72_names",
    "C72_starts",
    "C72_service",
    "C72_networks",
    "C72_ports",
    "C72_links",
    "C72_routes",
    "C72_neighbour",
    "C72_path_vectors_refuted",
    "C72_aggregator_only_refuted",
    "C72_policies"
   ],
   "note": "REFUTED as stated: without backends the service does not start (C72_aggregator_only_refuted), nor with path vectors in a map (C72_path_vectors_refuted). C72_starts and C72_service say exactly when it starts; the rest is proved for every service that does."
  },
  {
   "property": "C73",
   "status": "proved",
   "theorems": [
    "C73_read",
    "C73_addresses",
    "C73_address_known",
    "C73_peers",
    "C73_document",
    "C73_understood",
    "C73_not_understood",
    "C73_any"
   ],
   "note": "For the XML as the model of serialisation has it."
  },
  {
   "property": "C74",
   "status": "proved",
   "theorems": [
    "C74_routes",
    "C74_backends",
    "C74_agents",
    "C74_providers",
    "C74_neighbour"
   ],
   "note": "The agent of a claimed network is proved for agents with another urn than the service's own; C74_own_urn shows the excluded case."
  },
  {
   "property": "C75",
   "status": "proved",
   "theorems": [
    "C75_ex_carries",
    "C75_ex_joined",
    "C75_ex_teardown",
    "C75_ex_setup",
    "C75_brocade_carries",
    "C75_brocade_joined",
    "C75_brocade_teardown",
    "C75_brocade_setup",
    "C75_force10_commands_partial",
    "C75_force10_same"
   ],
   "note": ""
  },
  {
   "property": "C76",
   "status": "partial",
   "theorems": [
    "C76_forwarding_partial",
    "C76_teardown",
    "C76_setup",
    "C76_forwarding_refuted"
   ],
   "note": "REFUTED as stated: pica8ovs.py:34 takes the third part of the interface name plus 128 as the number of the port in the flow table, so te-1/1/5 and te-1/2/5 have the same one, and setting up a link on one takes the traffic of a link on the other (C76_forwarding_refuted). Proved in full when no two ports have the same number."
  },
  {
   "property": "C77",
   "status": "partial",
   "theorems": [
    "C77_switched_partial",
    "C77_tunnelled_partial",
    "C77_ready_partial",
    "C77_units_partial",
    "C77_teardown_partial",
    "C77_setup_partial",
    "C77_admitted",
    "C77_two_routers_partial",
    "C77_whole_ports_refuted",
    "C77_path_names_refuted"
   ],
   "note": "REFUTED for whole ports that lead to another network (set up without error, connects nothing, cannot be torn down) and for networks that begin with the same six letters (paths of two links get the same name). Proved for links between VLANs, between local ports, and from an Ethernet end to an MPLS label, with networks that differ in their first six letters."
  },
  {
   "property": "C78",
   "status": "partial",
   "theorems": [
    "C78_switched_partial",
    "C78_ready_partial",
    "C78_units_partial",
    "C78_commands_partial",
    "C78_no_label_refuted",
    "C78_other_labels_refuted"
   ],
   "note": "REFUTED for ports without a label (no resource name, TypeError) and for labels other than VLANs (links with different labels share logical interface 0). Proved for links between VLANs."
  },
  {
   "property": "C79",
   "status": "partial",
   "theorems": [
    "C79_active_links_partial",
    "C79_ex_joined_partial",
    "C79_brocade_joined_partial",
    "C79_pica8_partial",
    "C79_mx_switched_partial",
    "C79_ex4550_switched_partial",
    "C79_ex_joined_refuted",
    "C79_ex_failed_refuted"
   ],
   "note": "Proved for histories in which no teardown fails and no link comes up while another one is still up that has a resource of it for another time. REFUTED without either: a restart after an outage brings up a connection before it takes down the one whose VLAN it takes over, and a failed teardown leaves the link on the device while the table says inactive."
  },
  {
   "property": "C80",
   "status": "partial",
   "theorems": [
    "C80_order",
    "C80_ends_partial",
    "C80_committed",
    "C80_executed_partial",
    "C80_line",
    "C80_line_juniperex",
    "C80_brocade_executed_partial",
    "C80_force10_executed_partial",
    "C80_pica8_executed_partial",
    "C80_lock",
    "C80_bytes_refuted",
    "C80_cut_refuted",
    "C80_refused_refuted",
    "C80_commit_failed_refuted",
    "C80_pica8_banner_refuted",
    "C80_mixed_refuted"
   ],
   "note": "REFUTED in part. Proved for all outputs: order, reports only after the last line, Junos: only after 'commit complete'; ending for devices that show their prompts uncut; what has been executed by then; with the lock of junosmx/junosex conversations do not mix. Refuted: bytes on Python 3 (all but brocade fail), cut prompts are lost, refused commands count as success, a failed commit blocks the sender for ever, a greeting counts as answers (pica8), juniperex has no lock."
  },
  {
   "property": "C81",
   "status": "partial",
   "theorems": [
    "C81_shown",
    "C81_list",
    "C81_missing",
    "C81_guarded",
    "C81_again_partial",
    "C81_list_open_refuted",
    "C81_again_refuted",
    "C81_stuck_refuted",
    "C81_status_refuted"
   ],
   "note": "REFUTED in four points: the list is open to all, the long poll never answers, a connection of two segments without version blocks the list, and null times cannot be posted again. Proved: the rest, for all connections."
  },
  {
   "property": "C82",
   "status": "partial",
   "theorems": [
    "C82_listed",
    "C82_works",
    "C82_rest_partial",
    "C82_requester_partial",
    "C82_own",
    "C82_own_never_clear",
    "C82_starts",
    "C82_requester_refuted",
    "C82_verify_refuted",
    "C82_plain_refuted",
    "C82_read_refuted",
    "C82_bad_file_refuted"
   ],
   "note": "REFUTED for answers of other agents (resource without the list of hosts), for verify=false, without TLS, and for the open list of connections; one bad authority file stops the service. Proved: operations of the provider only for listed hosts with genuine certificates, which are served; REST operations for nobody; own requests only to genuine servers; when a service starts."
  },
  {
   "property": "C83",
   "status": "partial",
   "theorems": [
    "C83_circuits_partial",
    "C83_can",
    "C83_checked",
    "C83_other_vlans_refuted",
    "C83_one_node_refuted",
    "C83_refused_refuted",
    "C83_available_refuted",
    "C83_restart_refuted"
   ],
   "note": "REFUTED in part. Proved under any interleaving, for a controller that answers refusals with errors and links of which no two are between the same interfaces (and are within one node only if the controller keeps the order of ends): circuits and links go together, links can be set up, and what is checked before a circuit is asked for, whoever answers. Refuted: links between the same interfaces, links within a node, refusals told by success 0, VLANs told unavailable, restarts."
  },
  {
   "property": "C84",
   "status": "partial",
   "theorems": [
    "C84_file",
    "C84_options_partial",
    "C84_can",
    "C84_checks_partial",
    "C84_no_verify_refuted",
    "C84_first_refuted",
    "C84_named_refuted",
    "C84_all_options_refuted"
   ],
   "note": "REFUTED in parts: the -u option is ignored for a provider named in the file, a name given as provider in the file is not expanded, waiting, route, attributes and values with '=' cannot be set in the file, and no-verify in the file is taken the wrong way round. Proved: the file (last line that sets an option wins), the value of every field of a started command, that commands with their options are started, TLS always with a context, checking of certificates when the file does not mention it."
  },
  {
   "property": "C85",
   "status": "partial",
   "theorems": [
    "C85_stp",
    "C85_mpls_refuted",
    "C85_usage_refuted",
    "C85_usage_partial",
    "C85_steps",
    "C85_request",
    "C85_single",
    "C85_unread",
    "C85_wait_partial",
    "C85_wait_refuted",
    "C85_commit_refuted"
   ],
   "note": "REFUTED in parts: the documented MPLS form is refused by providers, malformed texts are not always usage errors, waiting ends at events of other connections, reservecommit without an id is sent. Proved: STPs are read back as typed, order and confirmation of requests, correlation ids, what the user is told, failures, waiting up to the connection concerned."
  },
  {
   "property": "C86",
   "status": "partial",
   "theorems": [
    "C86_ex_partial",
    "C86_brocade_partial",
    "C86_pica8_partial",
    "C86_mx_partial",
    "C86_ex4550_partial",
    "C86_oess_partial",
    "C86_dud_partial",
    "C86_ends_partial",
    "C86_ex_joined_partial",
    "C86_brocade_joined_partial",
    "C86_pica8_flows_partial",
    "C86_mx_switched_partial",
    "C86_ex4550_switched_partial",
    "C86_force10_refuted",
    "C86_ncs_refuted",
    "C86_vpls_refuted",
    "C86_tidy_refuted",
    "C86_brocade_refuted",
    "C86_bare_ports_refuted",
    "C86_ends_refuted",
    "C86_swap_partial",
    "C86_types_partial"
   ],
   "note": "REFUTED in full: junipervpls, ncsvpn and force10 never accept a request, and junipervpls leaves bookings behind; bookings also stay if VLAN 0 is picked from a wide request; a VLAN may be connected with itself; brocade accepts interfaces it cannot set up. Proved for juniperex, brocade, pica8ovs, junosmx, junosex, oess and dud: for requests for VLANs 1-4095 (1-4094 for oess), with the names of interfaces each driver needs; different ends for requests for single VLANs. The theorems on the device also need that teardowns work and that no link comes up late while another has its resource (see C79)."
  },
  {
   "property": "C87",
   "status": "proved",
   "theorems": [
    "C87_key",
    "C87_refused",
    "C87_lost",
    "C87_credentials",
    "C87_backends",
    "C87_login",
    "C87_lines",
    "C87_locked",
    "C87_junos"
   ],
   "note": "One machine for ssh.py and six command senders; all orders of events. Reading key files, exchanging keys anew and the end of file of a channel are not modelled."
  },
  {
   "property": "C88",
   "status": "partial",
   "theorems": [
    "C88_success",
    "C88_no_route",
    "C88_no_credentials",
    "C88_no_shell",
    "C88_ended",
    "C88_lock",
    "C88_again",
    "C88_senders",
    "C88_no_waiting",
    "C88_works",
    "C88_reuses",
    "C88_refuted",
    "C88_hangs_refuted",
    "C88_never_refuted",
    "C88_junos_refuted",
    "C88_silent_refuted"
   ],
   "note": "REFUTED: a request that waits on a connection that is gone never ends (C88_refuted), which is so after a refused host key, a failed login or a loss (C88_hangs_refuted); junosmx and junosex never make a new connection (C88_never_refuted) and keep the lock (C88_silent_refuted). Proved: success means the whole conversation was written; refusals of the TCP connection, of missing credentials and of the shell end the request; the other senders give new requests good connections, and these work."
  },
  {
   "property": "C89",
   "status": "partial",
   "theorems": [
    "C89_setup_partial",
    "C89_requester_refuted",
    "C89_apart_refuted"
   ],
   "note": "REFUTED in full: the aggregator does not check that commit and provision come from the requester that reserved (C89_requester_refuted), and a remote provider that confirms with the id of a local segment gets that segment committed and provisioned (C89_apart_refuted). Proved for every run in which ids given by the backend are different and other agents' messages do not name them."
  },
  {
   "property": "C90",
   "status": "partial",
   "theorems": [
    "C90_held_partial",
    "C90_provisioned_partial",
    "C90_active_partial",
    "C90_terminated_partial",
    "C90_event",
    "C90_active_refuted"
   ],
   "note": "REFUTED in full: a data plane notification of any agent about a local segment is believed (C90_active_refuted). Proved where other agents' messages do not name the backend's segments and the database answers at once (else C41_once_refuted and the like)."
  },
  {
   "property": "C91",
   "status": "partial",
   "theorems": [
    "C91_request",
    "C91_labels_partial",
    "C91_destination_refuted",
    "C91_asked_refuted"
   ],
   "note": "Addressee and repeated fields proved for every run and interleaving, restarts included. Source label, and destination label if the last segment is the last one stored and as many are stored as the path has, proved with a database that answers at once. REFUTED in full: with the last segment confirmed before another one, the requester is told an inner label (C91_destination_refuted); labels confirmed but not asked for are passed on (C91_asked_refuted)."
  },
  {
   "property": "C92",
   "status": "partial",
   "theorems": [
    "C92_circuits",
    "C92_setup_partial",
    "C92_teardown",
    "C92_active_partial",
    "C92_requests",
    "C92_vlans_partial",
    "C92_routers",
    "C92_two_routers",
    "C92_paths_partial",
    "C92_accepted_refuted",
    "C92_path_names_refuted",
    "C92_network_names_refuted"
   ],
   "note": "Circuits after any history, agreement of two routers, the list of routers, and tear-down of what could be set up (same errors otherwise) proved in full; set-up characterised exactly; paths differ if the first six letters of the networks or the label values do; under a backend as in C79 and C86. REFUTED in full: links that pass every check cannot be set up (C92_accepted_refuted), two networks share a path name (C92_path_names_refuted), networks with a colon in their name never have a router (C92_network_names_refuted)."
  },
  {
   "property": "C93",
   "status": "partial",
   "theorems": [
    "C93_confirmed_partial",
    "C93_told_partial",
    "C93_apart_refuted",
    "C93_destination_refuted"
   ],
   "note": "REFUTED as stated: when the segment at the destination is confirmed before another segment, the requester is told a range (or the other segment's label) where the device uses one label of its own (C93_destination_refuted); a confirmation by another agent about the backend's reservation is believed (C93_apart_refuted). Proved: with ids given once and no foreign messages about them, every link given to the device is as confirmed, and as told at the source; at the destination if its segment was the last to be stored."
  },
  {
   "property": "C94",
   "status": "proved",
   "theorems": [
    "C94_entry",
    "C94_add",
    "C94_port",
    "C94_demarcation",
    "C94_mutual"
   ],
   "note": "Proved; that facing ports are found from each other assumes that networks share no port ids, that the halves of a port are ports of its network, and that no two ports have the same halves."
  },
  {
   "property": "C95",
   "status": "partial",
   "theorems": [
    "C95_never",
    "C95_never_inner",
    "C95_repaired_partial",
    "C95_ends",
    "C95_refuted",
    "C95_label_refuted",
    "C95_twice_refuted"
   ],
   "note": "REFUTED: as written findPaths never returns (C95_never: every call raises, as a port is handed to Label.canMatch where a label is expected; links would then be made with five arguments for two). With the two calls as they were meant: what is returned leads there, is usable, shortest first, and the search ends (C95_repaired_partial, C95_ends); but one way out whose labels differ from those of the source ends the search with EmptyLabelSet (C95_label_refuted), and a network may be crossed twice in a row (C95_twice_refuted)."
  },
  {
   "property": "C96",
   "status": "partial",
   "theorems": [
    "C96_listed_partial",
    "C96_apart_partial",
    "C96_only",
    "C96_document",
    "C96_open_refuted",
    "C96_bytes_refuted",
    "C96_markup_refuted",
    "C96_type_refuted"
   ],
   "note": "REFUTED: a connection without an end breaks the page, texts of requesters are not escaped, Python 3 never writes it, label types are not shown (C96_*_refuted). Proved: for connections with an end and texts without tags the table read from the page has exactly one row per connection with its values (C96_listed_partial), and pages tell ids, states and times apart (C96_apart_partial); the page is there only if every connection has an end (C96_only)."
  },
  {
   "property": "C97",
   "status": "partial",
   "theorems": [
    "C97_order",
    "C97_committed",
    "C97_in_time",
    "C97_final",
    "C97_ends_partial",
    "C97_never_refuted",
    "C97_stuck_refuted",
    "C97_bytes_refuted"
   ],
   "note": "REFUTED as to ending: waitTimeout loses the Deferred, so a conversation never fails and after a timeout waits for ever (C97_never_refuted, C97_stuck_refuted); bytes on Python 3 (C97_bytes_refuted). Proved: order and completeness of lines, success only after the router's word, success with every timely router, finality; and for waitTimeout repaired, the end in time for every router (C97_ends_partial)."
  },
  {
   "property": "C98",
   "status": "proved",
   "theorems": [
    "C98_reads",
    "C98_refused",
    "C98_written"
   ],
   "note": "Namespaces are abbreviated in the model of XML (ModelXml.v); attributes with an empty value are dropped, see C51."
  },
  {
   "property": "C99",
   "status": "partial",
   "theorems": [
    "C99_reserve_partial",
    "C99_reserve_confirmed_partial",
    "C99_requests",
    "C99_confirmations",
    "C99_queries",
    "C99_timeout",
    "C99_change_partial",
    "C99_failure_partial",
    "C99_event",
    "C99_error_partial",
    "C99_no_direction",
    "C99_boolean_refuted",
    "C99_error_refuted",
    "C99_other_service_refused",
    "C99_asks",
    "C99_tells"
   ],
   "note": "REFUTED: the boolean text \"1\" is read as false (C99_boolean_refuted), e.g. a data plane reported up is taken to be down, and an error message without variables raises a TypeError (C99_error_refuted).  Everything else is proved: C99_reserve_partial, C99_reserve_confirmed_partial, C99_change_partial and C99_failure_partial leave out exactly that text, C99_error_partial exactly those messages.  Bodies of query results are in C102."
  },
  {
   "property": "C100",
   "status": "partial",
   "theorems": [
    "C100_written",
    "C100_read_partial",
    "C100_read_refuted"
   ],
   "note": "What is written is proved to have the form of the NML documents (C100_written); every document of the form is read as what it says up to the last step (C100_read_partial). REFUTED: the last step hands dict views to Network, whose assertion refuses them, so that no document is imported (C100_read_refuted; the same fault as C54)."
  },
  {
   "property": "C101",
   "status": "partial",
   "theorems": [
    "C101_carries",
    "C101_joined",
    "C101_left",
    "C101_kept",
    "C101_vpn",
    "C101_own_vpn_partial",
    "C101_setup",
    "C101_teardown",
    "C101_own_vpn_refuted"
   ],
   "note": "Carrying, joining, nothing left behind, set-up and tear-down proved for all histories. REFUTED: VPNs of their own: ids that differ only in letters 6 and 7 or after the ninth give the same route distinguisher (C101_own_vpn_refuted); otherwise they differ (C101_own_vpn_partial)."
  },
  {
   "property": "C102",
   "status": "partial",
   "theorems": [
    "C102_summary_partial",
    "C102_recursive_partial",
    "C102_written",
    "C102_order_refuted",
    "C102_children_refuted",
    "C102_one_refuted",
    "C102_nobody_refuted"
   ],
   "note": "REFUTED as stated in four points: the numbers of children are compared as texts (C102_order_refuted), criteria without a list of children are a TypeError (C102_children_refuted), the boolean text \"1\" is read as false (C102_one_refuted), and an unknown requester is told as \"None\" (C102_nobody_refuted).  C102_summary_partial leaves out only the boolean, C102_recursive_partial exactly the first three; C102_written is proved for any number of children and known requesters."
  },
  {
   "property": "C103",
   "status": "partial",
   "theorems": [
    "C103_shown",
    "C103_every_partial",
    "C103_only",
    "C103_terminal",
    "C103_apart",
    "C103_none",
    "C103_later_refuted"
   ],
   "note": "REFUTED as stated in one point: connections below other than the first criteria are not shown (C103_later_refuted); C103_every_partial is the statement for those below the first. C103_apart asks for connection ids without blanks and states without commas. The rest is proved for all answers."
  },
  {
   "property": "C104",
   "status": "proved",
   "theorems": [
    "C104_shape",
    "C104_prefix",
    "C104_distinct",
    "C104_any",
    "C104_safe",
    "C104_agents_refuted",
    "C104_given",
    "C104_taken",
    "C104_free",
    "C104_times",
    "C104_apart",
    "C104_kept"
   ],
   "note": "C104_shape, C104_prefix, C104_distinct, C104_any, C104_safe, C104_given, C104_taken, C104_free and C104_times hold for all inputs and states; C104_apart and C104_kept in all runs, with any interleaving at any wait and any restarts. Not claimed, and false (C104_agents_refuted): ids of agents whose domains start with the same letters may coincide; a connection is known by its id and its agent."
  },
  {
   "property": "C105",
   "status": "partial",
   "theorems": [
    "C105_kept",
    "C105_apart",
    "C105_confirmed",
    "C105_log",
    "C105_addressed",
    "C105_taken",
    "C105_free",
    "C105_carried_refuted",
    "C105_carried_partial"
   ],
   "note": "C105_kept, C105_apart, C105_confirmed (with C105_log) and C105_addressed hold in all runs, with any interleaving at any wait and any restarts; C105_taken and C105_free for all states. REFUTED: that a request is carried by what the registry has for a network of the agent it is addressed to (C105_carried_refuted); the lookup is by the network of the confirmed source. Where that is a network of the agent it holds for commit, abort, provision and release (C105_carried_partial; recursive queries not shown). C105_addressed says the agent has a segment of that id, not that every segment is asked for: where two agents use one id the cache confuses their segments (C42_provisioned_refuted). Terminations are left out of C105_addressed, because the clean-up after failed reservations sends them too (C45_addressed_refuted)."
  }
 ]
}