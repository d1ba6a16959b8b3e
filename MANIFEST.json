{
 "claims": [
  {
   "property": "C01",
   "status": "proved",
   "theorems": [
    "C01_settled_once"
   ],
   "note": "Handlers are assumed to return."
  },
  {
   "property": "C02",
   "status": "proved",
   "theorems": [
    "C02_stages_in_order"
   ],
   "note": "Every middleware behaviour (interaction tree)."
  },
  {
   "property": "C03",
   "status": "proved",
   "theorems": [
    "C03_operation_runs",
    "C03_success"
   ],
   "note": ""
  },
  {
   "property": "C04",
   "status": "proved",
   "theorems": [
    "C04_refusal_blocks",
    "C04_refusal_reported"
   ],
   "note": ""
  },
  {
   "property": "C05",
   "status": "partial",
   "theorems": [
    "C05_failure_reported_refuted",
    "C05_failure_dropped_refuted",
    "C05_failure_reported_partial",
    "C05_passed_on"
   ],
   "note": "Refuted in general: Recovery, or any middleware dropping the result of next, hides a failure. Proved for all middlewares that pass failures on (wrapping the error, trying again, ... included): no error is reported only when the operation ran and succeeded."
  },
  {
   "property": "C06",
   "status": "partial",
   "theorems": [
    "C06_settled_at_most_once",
    "C06_acknowledged",
    "C06_handled_then_settled",
    "C06_settled_exactly_once_partial",
    "C06_passed_on",
    "C06_refused_is_settled",
    "C06_settled_exactly_once_refuted"
   ],
   "note": "At most once proved for everything; exactly once proved, unless something panics, for all middlewares that pass failures on; the complete history for delegating ones. Refuted with the library's Recovery middleware and a panicking callback."
  },
  {
   "property": "C07",
   "status": "partial",
   "theorems": [
    "C07_cancel_waits_refuted",
    "C07_cancel_lost_refuted",
    "C07_concurrent_cancel_refuted",
    "C07_cancel_waits_partial",
    "C07_cancel_returns_partial",
    "C07_early_overtaken",
    "C07_cleanup_happens"
   ],
   "note": "Refuted: a Cancel issued before the clean-up goroutine listens takes back its own request; concurrent Cancels wake each other. Proved when the clean-up goroutine is ready: a Cancel returns early only if there was another Cancel, and the clean-up runs however many Cancels there are."
  },
  {
   "property": "C08",
   "status": "partial",
   "theorems": [
    "C08_cleanup_at_most_once",
    "C08_cancel_twice_refuted",
    "C08_cancel_safe_partial",
    "C08_one_cancel_crash"
   ],
   "note": "At-most-once clean-up proved for every schedule; safety of a second Cancel refuted (it may hang or panic); with a single Cancel only transmissions crash, proved with where they do."
  },
  {
   "property": "C09",
   "status": "proved",
   "theorems": [
    "C09_fifo",
    "C09_drain"
   ],
   "note": "Proved of the subscription machine of Model/SubMachine.v."
  },
  {
   "property": "C10",
   "status": "partial",
   "theorems": [
    "C10_transmit_safe_refuted",
    "C10_blocked_transmit_refuted",
    "C10_safe_before_cleanup_partial",
    "C10_crash_exact"
   ],
   "note": "Refuted: a transmit racing with the clean-up sends on a closed channel and panics. Exactly what crashes is proved for every schedule."
  },
  {
   "property": "C11",
   "status": "partial",
   "theorems": [
    "C11_delivery_safe",
    "C11_routing_refuted",
    "C11_routing_partial",
    "C11_refines_partial",
    "C11_routing_exact"
   ],
   "note": "Safety (no misdelivery) proved for all histories. Liveness refuted: a message of an unregistered version blocks its channel for ever. C11_routing_exact: over every history, a message reaches the live subscription it is addressed to exactly when its channel is not blocked, which the history of calls and answers tells."
  },
  {
   "property": "C12",
   "status": "partial",
   "theorems": [
    "C12_duplicate_never_accepted",
    "C12_no_version_refused",
    "C12_resubscribe_partial",
    "C12_no_answer_refuted",
    "C12_answer_exact"
   ],
   "note": "Duplicate subscription is never accepted, for all histories; C12_answer_exact: it gets its error exactly when neither its channel nor the wrapper is blocked; re-subscription proved for histories without message of an unregistered version, and false after one (no answer)."
  },
  {
   "property": "C13",
   "status": "partial",
   "theorems": [
    "C13_broker_subscriptions_partial",
    "C13_returned_exact",
    "C13_broker_subscriptions_refuted"
   ],
   "note": "Refuted in general (leaked broker subscription of a cancellation that never returns); C13_returned_exact: over every history, exact when only cancellations that returned count."
  },
  {
   "property": "C14",
   "status": "partial",
   "theorems": [
    "C14_unknown_version_refuted",
    "C14_whole_wrapper_refuted",
    "C14_lock_order_refuted",
    "C14_progress_partial",
    "C14_blocked_exact"
   ],
   "note": "Refuted three ways (unreleased mutex, whole wrapper blocked, lock order inversion); progress proved for the benign fragment. C14_blocked_exact: for calls made one after the other, exactly which calls never return, from the history of calls and answers."
  },
  {
   "property": "C15",
   "status": "partial",
   "theorems": [
    "C15_tagging_partial",
    "C15_no_version_unchanged",
    "C15_nil_headers_refuted",
    "C15_exact"
   ],
   "note": "Publish panics when headers are nil (refuted). C15_exact: a message published with a version is taken for that version by every receiving wrapper exactly when the version is not empty and the message has a header map."
  },
  {
   "property": "C16",
   "status": "proved",
   "theorems": [
    "C16_expected_calls",
    "C16_one_subscription_per_address"
   ],
   "note": "Proved for every history of calls including the bulk ones. Calls are sequential here; calls made at once on one controller (the code takes no lock) are in C100."
  },
  {
   "property": "C17",
   "status": "partial",
   "theorems": [
    "C17_close_releases_all_refuted",
    "C17_close_exact_partial"
   ],
   "note": "Refuted: Close ignores channels with parameters. Proved: exactly which subscriptions Close leaves, after any history."
  },
  {
   "property": "C18",
   "status": "partial",
   "theorems": [
    "C18_all_or_nothing_refuted",
    "C18_shared_channel_refuted",
    "C18_outcome_partial",
    "C18_succeeds_partial",
    "C18_exact"
   ],
   "note": "Refuted: a failure leaves the earlier subscriptions, and two operations on one channel always fail. Proved: C18_exact says exactly when it succeeds and exactly when a failure leaves everything as it was; C18_outcome_partial gives the outcome."
  },
  {
   "property": "C19",
   "status": "proved",
   "theorems": [
    "C19_matching_reply",
    "C19_first_answer_returned"
   ],
   "note": "Safety and the first-answer property proved for every stream of replies and any middlewares."
  },
  {
   "property": "C20",
   "status": "partial",
   "theorems": [
    "C20_ends_with_context_refuted",
    "C20_early_errors_partial",
    "C20_exact",
    "C20_unheard"
   ],
   "note": "Refuted: the waiting loop goes on when the context is done or the subscription closed. C20_exact: a request is still running exactly when subscription and publication succeeded and no message received is an answer or makes a middleware panic; C20_unheard: the ends of context and subscription never change the outcome."
  },
  {
   "property": "C21",
   "status": "proved",
   "theorems": [
    "C21_send_correlation",
    "C21_reply_correlation",
    "C21_uncorrelated_reply_refused",
    "C21_end_to_end"
   ],
   "note": "Sending, replying and the end-to-end exchange."
  },
  {
   "property": "C22",
   "status": "partial",
   "theorems": [
    "C22_roundtrip_refuted",
    "C22_roundtrip_exact_partial",
    "C22_byte_swap_partial",
    "C22_referenced_int32_refuted"
   ],
   "note": "Refuted: integers are written big-endian and read little-endian, and a referenced int32 is written on 8 bytes and read on 4. Proved: exactly what arrives, and exactly which values survive."
  },
  {
   "property": "C23",
   "status": "proved",
   "theorems": [
    "C23_string_roundtrip",
    "C23_unknown_headers_ignored"
   ],
   "note": "Proved for every set of string headers and every visiting order."
  },
  {
   "property": "C24",
   "status": "proved",
   "theorems": [
    "C24_kafka_roundtrip",
    "C24_kafka_last_value",
    "C24_nats_roundtrip",
    "C24_nats_first_value"
   ],
   "note": "Proved for Kafka, NATS and JetStream, all map orders. The transport itself (what the client libraries do to header bytes) is not modelled."
  },
  {
   "property": "C25",
   "status": "proved",
   "theorems": [
    "C25_subject_match"
   ],
   "note": "Equivalence with an inductive statement of the NATS token rules, for all strings; also no index out of range."
  },
  {
   "property": "C26",
   "status": "partial",
   "theorems": [
    "C26_dispatch",
    "C26_handed_to_live_partial",
    "C26_consume_exact",
    "C26_failed_subscribe_blocks_refuted",
    "C26_overlap_depends_on_order_refuted"
   ],
   "note": "Exact for every history without crash and every map order: dropped only when no listed channel matches, else handed to exactly the subscriptions attached to a listed matching channel, or blocked when there is none. The full claim is refuted for histories with a failed subscribe (consumer blocked) and depends on map order when patterns overlap."
  },
  {
   "property": "C27",
   "status": "partial",
   "theorems": [
    "C27_lifetime_partial",
    "C27_history",
    "C27_crash_exact",
    "C27_running_exact",
    "C27_shared_channel_refuted",
    "C27_failed_subscribe_refuted"
   ],
   "note": "Exact for every history: when the process crashes (C27_crash_exact), when messages are consumed (C27_running_exact), what is logged (C27_history). The full claim is refuted for two subscriptions on one channel (crash) and after a failed subscribe (never stops); proved for exclusive histories."
  },
  {
   "property": "C28",
   "status": "partial",
   "theorems": [
    "C28_jetstream_balance_partial",
    "C28_user_connections_safe",
    "C28_failed_creation_refuted",
    "C28_failed_creation_exact",
    "C28_nats_failed_creation_exact",
    "C28_nats_exact_partial",
    "C28_nats_repeated_option_refuted"
   ],
   "note": "JetStream: balanced when creation succeeds, user connections never closed; exactly when a failed creation leaks (C28_failed_creation_exact). NATS: exact events on success, exact leak on failure; repeated connection options leak."
  },
  {
   "property": "C29",
   "status": "partial",
   "theorems": [
    "C29_independent_refuted",
    "C29_shared_configuration_partial",
    "C29_same_options_partial"
   ],
   "note": "The full claim (a controller's options never affect another controller) is false: the options write through a shared configuration. Proved exactly when sharing happens and that equal option lists give equal controllers."
  },
  {
   "property": "C30",
   "status": "proved",
   "theorems": [
    "C30_allowed_runs",
    "C30_one_successful_write",
    "C30_answers_in_order",
    "C30_check_saw_topic"
   ],
   "note": "Checked for every run of the topic-creation/publish loop: allowed runs, at most one successful write per publish, answers in call order, and every write preceded by a successful check that saw the topic."
  },
  {
   "property": "C31",
   "status": "partial",
   "theorems": [
    "C31_commits_settled_partial",
    "C31_commit_order_partial",
    "C31_nak_commits_refuted"
   ],
   "note": "Commits are of settled messages and in the order of settlement; the stronger claim that a negative acknowledgement leaves the offset uncommitted is refuted (Nak also commits)."
  },
  {
   "property": "C32",
   "status": "proved",
   "theorems": [
    "C32_exported",
    "C32_empty_exactly"
   ],
   "note": "Proved for every byte string and every Unicode table."
  },
  {
   "property": "C33",
   "status": "partial",
   "theorems": [
    "C33_characters",
    "C33_ascii_partial",
    "C33_letters_kept_partial",
    "C33_refuted"
   ],
   "note": "Proved for ASCII strings exactly, and up to case for strings where only ASCII characters start words; refuted otherwise (indices of the original string are used on the rewritten one)."
  },
  {
   "property": "C34",
   "status": "partial",
   "theorems": [
    "C34_distinct_refuted",
    "C34_words_partial",
    "C34_exported_partial",
    "C34_params_span_partial",
    "C34_channels_refuted"
   ],
   "note": "Refuted by concrete collisions; proved for exported identifiers and for words; the exact effect of parameter removal is proved."
  },
  {
   "property": "C35",
   "status": "partial",
   "theorems": [
    "C35_substitution_partial",
    "C35_any_braces_partial",
    "C35_exact",
    "C35_no_parameters",
    "C35_percent_refuted",
    "C35_field_name_refuted"
   ],
   "note": "C35_exact: for ASCII addresses with any braces, the expression has the wanted value for all parameters exactly when the literal text has no '%'; refuted with '%' and for some non-ASCII parameter names."
  },
  {
   "property": "C36",
   "status": "partial",
   "theorems": [
    "C36_comment_lines",
    "C36_text_back_partial",
    "C36_text_back_refuted",
    "C36_text_exact"
   ],
   "note": "Every line is a comment line (proved for every description); C36_text_exact: two descriptions give the same comment exactly when they are equal but for a newline, the only one at the end of one of them (refutes that the text comes back in full)."
  },
  {
   "property": "C37",
   "status": "partial",
   "theorems": [
    "C37_merge_partial",
    "C37_idempotent",
    "C37_associative",
    "C37_required_lost_refuted",
    "C37_zero_loses_refuted",
    "C37_required_exact",
    "C37_bound_exact"
   ],
   "note": "Constraint by constraint, the referenced value wins when set (C37_merge_partial); idempotent and associative. Refuted: required lists are replaced as a whole, a referenced zero loses. C37_required_exact and C37_bound_exact say exactly when that happens."
  },
  {
   "property": "C38",
   "status": "partial",
   "theorems": [
    "C38_omitempty",
    "C38_key_partial",
    "C38_key_exact",
    "C38_key_refuted"
   ],
   "note": "omitempty proved for every plain key; C38_key_exact: encoding/json uses the property's name for exactly the keys it accepts; refuted for '-', commas and quotes."
  },
  {
   "property": "C39",
   "status": "partial",
   "theorems": [
    "C39_directives_partial",
    "C39_says",
    "C39_exact",
    "C39_zero_bound_refuted",
    "C39_required_refuted",
    "C39_separator_refuted"
   ],
   "note": "Proved by reading the tag back (struct tag, comma and oneof syntax). C39_says: for all documents with plain texts, exactly which directives are read. C39_exact (iff): they are those of the document exactly when no bound is zero, no enumeration is empty and a required field is a pointer or an array. Refuted for zero bounds, required non-pointer fields and separators in texts. The validator's 0x2C/0x7C escapes are not modelled."
  },
  {
   "property": "C40",
   "status": "partial",
   "theorems": [
    "C40_properties",
    "C40_required",
    "C40_allof",
    "C40_alternatives",
    "C40_chain_refuted"
   ],
   "note": "Merging proved for every pair and order; an allOf, anyOf or oneOf of any number of references and objects written in place (C40_allof, C40_alternatives) proved through setDependencies. The order of processing matters when a composed schema is itself composed (C40_chain_refuted)."
  },
  {
   "property": "C41",
   "status": "partial",
   "theorems": [
    "C41_mandatory",
    "C41_flag_refuted",
    "C41_reference_refuted",
    "C41_flags"
   ],
   "note": "C41_mandatory characterises exactly which fields of the result are mandatory (parent's required list or the property's own flag); C41_flags says which schemas of a processed document carry the flag. Refuted parts: allOf [$ref Base, {required:[name]}] leaves name's own flag unset, so its tags say omitempty (C41_flag_refuted); a $ref to a required property of another schema makes an optional field required (C41_reference_refuted)."
  },
  {
   "property": "C42",
   "status": "partial",
   "theorems": [
    "C42_schema_exact",
    "C42_message_exact",
    "C42_other_exact",
    "C42_behind_refuted",
    "C42_component3_partial",
    "C42_component2_partial",
    "C42_schema_crash_exactly",
    "C42_crash_refuted"
   ],
   "note": "For every reference string: the schema/message accessors, and those of the other component kinds, return exactly the designated object (both directions), and 3-step component references never crash. Refuted: short, dangling-parent and missing-channel references, and standard JSON pointers through 'properties', make the resolver panic; the crash condition below schemas is characterised exactly. Steps written behind the name of a server, tag, ... are ignored (C42_behind_refuted)."
  },
  {
   "property": "C43",
   "status": "partial",
   "theorems": [
    "C43_found_partial",
    "C43_other",
    "C43_local",
    "C43_exact",
    "C43_one_file",
    "C43_doubled_refuted"
   ],
   "note": "C43_exact: for all texts, a dependency answers exactly the references that name its file, one leading './' counting as none, and all other references are as without it; every text names one file (C43_one_file). Refuted for a doubled './', which the code does not take away."
  },
  {
   "property": "C44",
   "status": "partial",
   "theorems": [
    "C44_v2_follow",
    "C44_v2_cycle_refuted",
    "C44_message_one_step",
    "C44_schema_one_step",
    "C44_v3_chain_refuted",
    "C44_merge_cycle_refuted"
   ],
   "note": "v2 Follow is exact for chains of any length but does not end on cycles; v3 and schemas follow one step only; a component that refers to itself makes reading a document with it as alternative run forever."
  },
  {
   "property": "C45",
   "status": "partial",
   "theorems": [
    "C45_fields",
    "C45_operation_fields",
    "C45_headers",
    "C45_bindings_refuted",
    "C45_payload_refuted",
    "C45_description_refuted",
    "C45_correlation_refuted"
   ],
   "note": "Fields and headers proved for any list of traits; false for bindings, payloads, the description of operations and correlation IDs (witnesses)."
  },
  {
   "property": "C46",
   "status": "partial",
   "theorems": [
    "C46_received_partial",
    "C46_dual_partial",
    "C46_reply_partial",
    "C46_exact",
    "C46_reply_refuted",
    "C46_dual_refuted",
    "C46_reference_refuted",
    "C46_v2"
   ],
   "note": "v2 proved in full (C46_v2). v3: receptions exact without references; C46_exact: in every order, sending and answering are complete exactly when no reply channel has the name of an operation to send or of the reply channel of a different operation; refuted: two operations answered on one channel, an operation named like a reply channel, an operation that is a reference."
  },
  {
   "property": "C47",
   "status": "proved",
   "theorems": [
    "C47_conflict",
    "C47_exactly_once",
    "C47_order"
   ],
   "note": "goTypeImports, CustomImports and importsMapToList of both versions; schemas are finite trees; names start without a blank for the text of the lines (TrimSpace)."
  },
  {
   "property": "C48",
   "status": "proved",
   "theorems": [
    "C48_accepted",
    "C48_forced",
    "C48_files",
    "C48_no_panic"
   ],
   "note": "Which documents and files are accepted, and with which major version, asked for or not; JSON and YAML decoding are parameters of the model."
  },
  {
   "property": "C49",
   "status": "proved",
   "theorems": [
    "C49_flag",
    "C49_written"
   ],
   "note": "Both the flag and the parts written."
  },
  {
   "property": "C50",
   "status": "partial",
   "theorems": [
    "C50_refuted",
    "C50_settings",
    "C50_independent_partial",
    "C50_independent_exact"
   ],
   "note": "False: the switches for dates and pointers stay on. Proved: what the settings are after any history, and exactly when a generation is independent of the earlier ones (C50_independent_exact, iff)."
  },
  {
   "property": "C51",
   "status": "proved",
   "theorems": [
    "C51_last_value",
    "C51_functional"
   ],
   "note": "Values are strings in the model."
  },
  {
   "property": "C52",
   "status": "proved",
   "theorems": [
    "C52_first_occurrences",
    "C52_keys",
    "C52_search"
   ],
   "note": "Full: the result is the unique list of first occurrences, for any element type and key (strings, tags by Name, security schemes by Name)."
  },
  {
   "property": "C53",
   "status": "partial",
   "theorems": [
    "C53_v3_partial",
    "C53_v3_only_clean",
    "C53_v3_refuted",
    "C53_once",
    "C53_v2_partial",
    "C53_v2_only",
    "C53_v2_refuted"
   ],
   "note": "v3: valid exactly when %q writes the names as JSON does; v2: moreover only with a declared property set and string values. JSON texts without white space; values of composite types in v2 not represented."
  },
  {
   "property": "C54",
   "status": "partial",
   "theorems": [
    "C54_processed",
    "C54_flag_refuted",
    "C54_designates",
    "C54_idempotent",
    "C54_required",
    "C54_intermediate_refuted",
    "C54_crash_refuted",
    "C54_payload_reference_refuted"
   ],
   "note": "Unbounded over schema graphs, messages and paths: the path exists afterwards, everything else only grew by the path's names, second call changes nothing, and the required flag equals the holder's required list. Refuted: created intermediate schemas have type \"header\"; a location without a step crashes (for every message); with the payload given by $ref the requirement is not seen and a missing field is added to the reference object only. C54_processed: after any later linking of schemas, messages and traits, in any order, the path still leads from the same root (if that is no reference) to the same field, and a field flagged as required is required still. C54_flag_refuted: the flag is computed before the linking, so a requirement that comes from allOf is missed."
  },
  {
   "property": "C55",
   "status": "proved",
   "theorems": [
    "C55_true",
    "C55_panic",
    "C55_ends"
   ],
   "note": "Values are finite trees; the type assertion and comparison are a parameter. Panics on unexported fields are described too."
  },
  {
   "property": "C56",
   "status": "partial",
   "theorems": [
    "C56_uncorrelated_never_settled_refuted",
    "C56_correlated_settled_partial"
   ],
   "note": "Refuted for operations without correlation ID: the reply is never settled. Proved for operations with correlation ID."
  },
  {
   "property": "C57",
   "status": "proved",
   "theorems": [
    "C57_subscribe_send_release"
   ],
   "note": "Order and balance of subscribe, send and release for every behaviour of broker and middlewares."
  },
  {
   "property": "C58",
   "status": "partial",
   "theorems": [
    "C58_short_payload_refuted",
    "C58_panics_exactly_partial",
    "C58_decoder_exact"
   ],
   "note": "Refuted: integer payloads that are too short panic. C58_decoder_exact: for every message whose functions compile, every payload and all headers, a message or an error is returned, and exactly those payloads panic (objects, arrays, strings and dates never do)."
  },
  {
   "property": "C59",
   "status": "partial",
   "theorems": [
    "C59_optional_object_header_refuted",
    "C59_reading_exact",
    "C59_exact"
   ],
   "note": "Refuted for optional object headers (decoded into a nil pointer). C59_exact says which messages come back: for each header that is set, strings always, dates when RFC3339 keeps them (made concrete by C116), objects when the field is no pointer and JSON keeps the value."
  },
  {
   "property": "C60",
   "status": "partial",
   "theorems": [
    "C60_order_refuted",
    "C60_plain_partial",
    "C60_references_refuted"
   ],
   "note": "False in general: with A: allOf [$ref B] and B: allOf [$ref C], A gets C's properties only if B happened to be processed first (C60_order_refuted); a chain of two plain references is enough for the required lists (C60_references_refuted). Proved for documents without compositions in which no reference designates a reference: all fields of all schemas are the same in every order (C60_plain_partial)."
  },
  {
   "property": "C61",
   "status": "partial",
   "theorems": [
    "C61_accessor",
    "C61_exact",
    "C61_names_refuted"
   ],
   "note": "Proved, exactly: the template finds the field again if and only if no name on the path has '.', '#' or is \"header\" (names with / cannot be written in a location); refuted for the other names (the template splits at dots and renames \"header\", the processing does not)."
  },
  {
   "property": "C62",
   "status": "partial",
   "theorems": [
    "C62_v3_refuted",
    "C62_v2_accepted"
   ],
   "note": "False in v3 for every document (C62_v3_refuted); v2 accepts."
  },
  {
   "property": "C63",
   "status": "partial",
   "theorems": [
    "C63_alternatives",
    "C63_reference_refuted"
   ],
   "note": "Proved for alternatives written in place, with payloads of simple fields; false for alternatives given by reference."
  },
  {
   "property": "C64",
   "status": "partial",
   "theorems": [
    "C64_own_headers_partial",
    "C64_refuted"
   ],
   "note": "Proved when the message has headers of its own; false otherwise: the map of the first trait's headers is shared."
  },
  {
   "property": "C65",
   "status": "partial",
   "theorems": [
    "C65_refuted",
    "C65_same_major",
    "C65_exact"
   ],
   "note": "False: a dependency is read with the forced major version whatever it declares. Proved, exactly: which loads succeed and with what versions (all the specification's major version)."
  },
  {
   "property": "C66",
   "status": "proved",
   "theorems": [
    "C66_ecs",
    "C66_caller_entries"
   ],
   "note": "Values are strings, so the printing itself cannot fail in the model."
  },
  {
   "property": "C67",
   "status": "proved",
   "theorems": [
    "C67_recovery",
    "C67_no_panic",
    "C67_logging"
   ],
   "note": "Proved for the middleware in first position, whatever stands behind it. What is logged or intercepted is not represented."
  },
  {
   "property": "C68",
   "status": "partial",
   "theorems": [
    "C68_any_refuted",
    "C68_found_partial"
   ],
   "note": "False: the breadth-first first field decides. Proved: a true answer is right, and is given when all the fields agree."
  },
  {
   "property": "C69",
   "status": "partial",
   "theorems": [
    "C69_roundtrip_partial",
    "C69_fails",
    "C69_refuted",
    "C69_case_refuted"
   ],
   "note": "False when a declared property does not have the type of the additional ones (unmarshalling always fails) or names differ only by case; proved otherwise."
  },
  {
   "property": "C70",
   "status": "partial",
   "theorems": [
    "C70_written_partial",
    "C70_written_refuted",
    "C70_parameters_refuted"
   ],
   "note": "Proved for imports met through properties and items of component schemas, messages and (v2) parameters; refuted for additional properties and alternatives, and for version 3 parameters. Inline channel messages are not in the model of this collection either (the code does not look at them)."
  },
  {
   "property": "C71",
   "status": "partial",
   "theorems": [
    "C71_replies_partial",
    "C71_replies_refuted"
   ],
   "note": "Characterised: panics exactly when some reply has no channel in place (address only, or a $ref reply)."
  },
  {
   "property": "C72",
   "status": "partial",
   "theorems": [
    "C72_message_partial",
    "C72_exact",
    "C72_reply_refuted"
   ],
   "note": "First listed message, or the only message of the channel; refuted for replies of channels with several messages (reply.messages is ignored, the map order decides)."
  },
  {
   "property": "C73",
   "status": "partial",
   "theorems": [
    "C73_defined_partial",
    "C73_names_exact",
    "C73_once_partial",
    "C73_nested_refuted",
    "C73_reference_refuted"
   ],
   "note": "Proved for components without arrays of arrays below objects and with references to components, distinct names; refuted: a property that is an array of arrays of objects, a reference to a property that is not an object."
  },
  {
   "property": "C74",
   "status": "partial",
   "theorems": [
    "C74_time_partial",
    "C74_date_refuted"
   ],
   "note": "Characterised: compiles exactly for strings of format date-time; every type defined from time.Time has the functions; refuted for a component of format date."
  },
  {
   "property": "C75",
   "status": "partial",
   "theorems": [
    "C75_fails_exact",
    "C75_definitions_partial",
    "C75_items_refuted",
    "C75_null_refuted"
   ],
   "note": "Proved for known types with arrays having items; refuted for arrays without items and for type null."
  },
  {
   "property": "C76",
   "status": "proved",
   "theorems": [
    "C76_layout"
   ],
   "note": "Proved by induction on the validity of a value, then on the structure of inline schemas."
  },
  {
   "property": "C77",
   "status": "partial",
   "theorems": [
    "C77_order_partial",
    "C77_order_refuted"
   ],
   "note": "The definitions are a permutation of each other; their order is refuted (MapToList)."
  },
  {
   "property": "C78",
   "status": "partial",
   "theorems": [
    "C78_alias_partial",
    "C78_exact",
    "C78_alias_refuted"
   ],
   "note": "No such type without components that are references; refuted otherwise (type A B does not inherit methods)."
  },
  {
   "property": "C79",
   "status": "partial",
   "theorems": [
    "C79_named",
    "C79_distinct_partial",
    "C79_headers_refuted",
    "C79_alternatives_refuted",
    "C79_contains_refuted",
    "C79_from_refuted"
   ],
   "note": "Naming succeeds for every place of the document; names are distinct exported identifiers when keys are readable and siblings differ. False without these: undeclared headers of two messages are both called Header, alternatives and contains share names, keys with From in them collide."
  },
  {
   "property": "C80",
   "status": "partial",
   "theorems": [
    "C80_all_kept",
    "C80_merged_partial",
    "C80_merged_refuted",
    "C80_operation_refuted"
   ],
   "note": "No tag or security scheme is ever removed since their names are overwritten before duplicates are looked for; so the claim holds only when all declared names differ, and is refuted otherwise."
  },
  {
   "property": "C81",
   "status": "partial",
   "theorems": [
    "C81_once_partial",
    "C81_defined_partial",
    "C81_fields",
    "C81_allof_refuted",
    "C81_order_refuted"
   ],
   "note": "Proved from the document to the generated definitions when nothing is composed (anyOf, oneOf, allOf). With a composition it is false: allOf of a reference to a schema with an array of objects defines the items twice, and a composed property is defined once or twice according to map order."
  },
  {
   "property": "C82",
   "status": "proved",
   "theorems": [
    "C82_own_reply",
    "C82_everyone"
   ],
   "note": "Proved for any number of requests and all schedules, in both senses: a request that returns has its own answer, and the work left after any schedule is bounded and ends with every waiting request answered. Assumes messages survive the wire, distinct identifiers, a responder function that keeps the identifier and middlewares that let messages pass; the broker keeps order and loses nothing."
  },
  {
   "property": "C83",
   "status": "partial",
   "theorems": [
    "C83_group_partial",
    "C83_group_refuted"
   ],
   "note": "C83_group_partial: proved when at most one request is subscribed to the replies at any time. C83_group_refuted: with two requests at once, the broker may give both replies to one of them; it acknowledges and drops the other's, which then never returns. C82_own_reply (no wrong answer is returned) holds with groups too."
  },
  {
   "property": "C84",
   "status": "partial",
   "theorems": [
    "C84_resolved",
    "C84_component",
    "C84_ends",
    "C84_beside_refuted"
   ],
   "note": "C84_resolved and C84_component hold for every well-formed graph, with compositions. C84_ends (always ends, refused exactly when a reference dangles) is for documents without compositions and without schemas inside of themselves. Version 2: the schemas of an allOf, anyOf or oneOf written beside a reference may never be visited (C84_beside_refuted). The references of messages and channels are not part of it."
  },
  {
   "property": "C85",
   "status": "partial",
   "theorems": [
    "C85_apart",
    "C85_once_partial",
    "C85_constructor_refuted",
    "C85_channel_reference_refuted",
    "C85_channel_keys_refuted",
    "C85_operation_keys_refuted",
    "C85_reply_name_refuted",
    "C85_alternatives_refuted"
   ],
   "note": "Proved for all documents whose names differ (C85_apart), and from the keys of the document for those that C79 covers (C85_once_partial). False without the hypotheses: messages \"a\" and \"newA\", a channel that refers to another one, channels or operations whose keys give the same name, an operation named like the answers to another one, two alternatives of one schema."
  },
  {
   "property": "C86",
   "status": "partial",
   "theorems": [
    "C86_backed_partial",
    "C86_shared_reply_refuted",
    "C86_clashing_key_refuted",
    "C86_two_addresses_refuted",
    "C86_no_address_refuted",
    "C86_reply_parameters_refuted",
    "C86_request_nowhere_refuted",
    "C86_uncorrelated_refuted",
    "C86_many_messages_refuted",
    "C86_no_message_refuted"
   ],
   "note": "Proved for documents whose operations are `served` (the message is determined, requests have an address known beforehand, replies are on a channel with one message, without parameters, whose address is given exactly once, and replies can be correlated when requests are) and whose replies do not clash. Without each of these the claim is false of the code: a witness document for each."
  },
  {
   "property": "C87",
   "status": "partial",
   "theorems": [
    "C87_backed_partial",
    "C87_parameters_refuted",
    "C87_no_payload_refuted",
    "C87_own_correlation_refuted",
    "C87_component_refuted"
   ],
   "note": "Proved for documents whose channels are `served2` (messages written in operations have a payload, parameters are not in the address, a message that refers to another has no correlation ID of its own) and whose component messages have a payload. Without each of these the claim is false of the code: a witness document for each."
  },
  {
   "property": "C88",
   "status": "partial",
   "theorems": [
    "C88_agree_partial",
    "C88_user",
    "C88_both_refuted",
    "C88_chat_refuted"
   ],
   "note": "Proved for channels with messages in one direction, and for the user's side of every channel. False of every channel with both directions: the application handles the messages it should publish and publishes those it should handle (C88_both_refuted, for all documents; C88_chat_refuted, the document of test/v2/issues/49)."
  },
  {
   "property": "C89",
   "status": "partial",
   "theorems": [
    "C89_once_partial",
    "C89_all_refuted",
    "C89_channels_refuted",
    "C89_operation_id_refuted",
    "C89_message_refuted",
    "C89_schema_refuted"
   ],
   "note": "Proved for documents whose names are `named_apart2`. Without it the claim is false: an operation named All, channels whose keys give the same name, an operation ID equal to the name of another channel, an inline and a component message of the same name, a schema type like the constant of a path."
  },
  {
   "property": "C90",
   "status": "partial",
   "theorems": [
    "C90_exact_partial",
    "C90_plain",
    "C90_payload_never",
    "C90_date_never",
    "C90_header_never",
    "C90_header_reference",
    "C90_no_header_never",
    "C90_two_objects_never",
    "C90_listed_never",
    "C90_forced_date_never",
    "C90_all_refuted"
   ],
   "note": "Exact: C90_exact_partial says for which messages both functions compile (references stand alone, no custom Go type). The claim for all messages is false: payloads that are numbers, booleans or dates, headers that are not strings or objects, references to strings in version 2, headers without properties, two mandatory object headers, headers required by another part of a composition, mandatory dates with forced pointers."
  },
  {
   "property": "C91",
   "status": "partial",
   "theorems": [
    "C91_exact",
    "C91_flags",
    "C91_forced_never",
    "C91_type_never",
    "C91_forced_refuted"
   ],
   "note": "Exact (C91_exact, C91_flags). False for all messages: with forced pointers and a required identifier the accessors do not compile, nor with an identifier that is not a string."
  },
  {
   "property": "C92",
   "status": "partial",
   "theorems": [
    "C92_written",
    "C92_total",
    "C92_new",
    "C92_new_others",
    "C92_response",
    "C92_address",
    "C92_new_refuted"
   ],
   "note": "Reading back, frame, responses and totality proved for every path; C92_new says exactly when the constructor crashes (a pointer on the way), which refutes the claim that it never does."
  },
  {
   "property": "C93",
   "status": "partial",
   "theorems": [
    "C93_linked",
    "C93_correlations",
    "C93_only",
    "C93_accepted",
    "C93_panic",
    "C93_example_never",
    "C93_server_never",
    "C93_correlation_never",
    "C93_reply_never",
    "C93_address_never",
    "C93_every_refuted",
    "C93_checked_refuted"
   ],
   "note": "Linking, exactness of what is linked and the exact condition of success proved for regular documents (pointers hold one object, addresses are distinct). False for all references: the correlation identifier of a message and the tags of an operation are never looked at (C93_every_refuted, C93_checked_refuted); five forms that AsyncAPI allows are never accepted (C93_*_never)."
  },
  {
   "property": "C94",
   "status": "partial",
   "theorems": [
    "C94_exact",
    "C94_reference_never",
    "C94_reference_refuted"
   ],
   "note": "Exact (C94_exact), through references and traits. Refuted for an identifier declared by reference: such a message never has accessors."
  },
  {
   "property": "C95",
   "status": "partial",
   "theorems": [
    "C95_required",
    "C95_channel",
    "C95_existing",
    "C95_listed_never",
    "C95_listed_refuted",
    "C95_reference_never"
   ],
   "note": "Exact for operations whose message is no reference object (listed inline or taken from the channel), for all documents and paths; nothing changes when the field exists. Refuted: an operation that lists its message by reference always gets 'not required' (C95_listed_never, for all documents), so a request that requires the field does not compile; an address given by reference yields an empty path and never compiles."
  },
  {
   "property": "C96",
   "status": "partial",
   "theorems": [
    "C96_read",
    "C96_context",
    "C96_nested_refuted",
    "C96_forged_refuted"
   ],
   "note": "Proved for keys and values that fit on one line and when the caller logs no Message beside an @Timestamp inside an entry (C96_read, C96_context); both conditions are needed (C96_nested_refuted: the nested pair is printed as a heading at the left margin and its siblings are no longer found under their entry; C96_forged_refuted: a value with a newline forges an entry). Colours are not modelled."
  },
  {
   "property": "C97",
   "status": "partial",
   "theorems": [
    "C97_encoder",
    "C97_decoder",
    "C97_undeclared",
    "C97_survives",
    "C97_strings",
    "C97_object_header",
    "C97_integer_refuted",
    "C97_panic_refuted"
   ],
   "note": "The statements of C90 are given an execution (Spec/GoRun.v), with JSON, RFC 3339 and errors arbitrary. C97_encoder: the encoder returns a message or an error, and a message exactly when the mandatory headers are set and JSON accepts the objects. C97_decoder: never without meaning, panics exactly on an integer payload with too few bytes (C97_panic_refuted). C97_undeclared: order and undeclared headers do not matter. C97_survives: exactly which messages come back; C97_strings: those made of strings always do; C97_object_header: with an optional object header that is set, or an object header and forced pointers, what is sent cannot be read. C97_integer_refuted: the integer 1 does not come back."
  },
  {
   "property": "C98",
   "status": "partial",
   "theorems": [
    "C98_unformatted_refuted",
    "C98_imported",
    "C98_custom",
    "C98_formatted",
    "C98_plain",
    "C98_math",
    "C98_binary",
    "C98_uuid",
    "C98_fmt",
    "C98_context",
    "C98_extensions",
    "C98_no_dates",
    "C98_clash_never",
    "C98_clash_refuted"
   ],
   "note": "Every package that the templates use is imported (C98_imported); formatted files are accepted exactly when no two lines declare one used name (C98_formatted), always without custom types (C98_plain); which packages stay (C98_math, C98_binary, C98_uuid, C98_fmt, C98_no_dates). Refuted: with formatting disabled no generated file compiles, since \"errors\" is imported and never used (C98_unformatted_refuted); a custom type uuid.UUID of another package than google/uuid is declared beside it (C98_clash_refuted). golang.org/x/tools/imports is modelled by what it removes, merges and adds."
  },
  {
   "property": "C99",
   "status": "partial",
   "theorems": [
    "C99_read",
    "C99_parsed",
    "C99_stored",
    "C99_unread_refuted",
    "C99_refused",
    "C99_valid_refused_refuted"
   ],
   "note": "A document that follows the specification is read exactly if it keeps to the readable part, which is spelled out (C99_read, C99_parsed), and then every field outside an explicit list arrives (C99_stored). Refuted: eight kinds of valid documents are refused, e.g. with multipleOf, with a boolean additionalProperties or with the security of a server (C99_refused, C99_valid_refused_refuted); the fields of the list, e.g. the description of an operation, the flow clientCredentials and the schema of a version 2 parameter, are never read (C99_unread_refuted). The syntax of JSON and YAML is not modelled; names are compared up to ASCII case."
  },
  {
   "property": "C100",
   "status": "partial",
   "theorems": [
    "C100_subscribe_race_refuted",
    "C100_unsubscribe_race_refuted",
    "C100_stray_forever",
    "C100_access",
    "C100_data_race_refuted",
    "C100_as_in_sequence_partial",
    "C100_no_stray_partial"
   ],
   "note": "Refuted: two goroutines that subscribe to one address both succeed and one subscription is lost, a slow unsubscribe loses the subscription made meanwhile (C100_subscribe_race_refuted, C100_unsubscribe_race_refuted), it stays for ever (C100_stray_forever), and even calls on different addresses access the map without synchronisation (C100_data_race_refuted). With one call at a time per address, and the accesses taken as indivisible, the calls amount to a sequence and nothing is lost (C100_as_in_sequence_partial, C100_no_stray_partial)."
  },
  {
   "property": "C101",
   "status": "partial",
   "theorems": [
    "C101_published",
    "C101_published_only_refuted",
    "C101_text",
    "C101_text_refuted",
    "C101_tag",
    "C101_received",
    "C101_received_id_refuted",
    "C101_subscribed",
    "C101_subscribed_only_refuted",
    "C101_requested",
    "C101_awaited",
    "C101_logging",
    "C101_logging_replies_refuted",
    "C101_wrapper_message",
    "C101_wrapper_text_refuted",
    "C101_wrapper_version_refuted",
    "C101_wrapper_memory_refuted",
    "C101_wrapper_direction_refuted"
   ],
   "note": "Proved for publications, receptions, subscriptions, requests and WaitFor: what the operation says of itself is found by all its parties, whatever the caller's context. Refuted in part: values an operation does not set are inherited (the identifier of a handled message when publishing a message that declares none, the handled message in subscription lines, the direction when unsubscribing); middlewares of a reception are not told the identifier; a middleware that changes the message leaves its former text; replies have the direction wait-for and are not logged by the logging middleware; the version wrapper stores a message instead of a text, may tell the version of a former message and its context grows for ever."
  },
  {
   "property": "C102",
   "status": "partial",
   "theorems": [
    "C102_accepted",
    "C102_headers_error",
    "C102_linked",
    "C102_placed",
    "C102_named",
    "C102_same_name",
    "C102_followed",
    "C102_backed_partial",
    "C102_foreign_refuted",
    "C102_dotted_refuted",
    "C102_short_refuted",
    "C102_waitfor_refuted",
    "C102_cycle_refuted"
   ],
   "note": "Acceptance (iff), links, places, names and the termination of Follow hold for every document; that the generated code is complete needs [plain] (payloads written, references into the same document, ASCII keys, no parameters in the key of a channel with parameters). Refuted: a message of another file is used and not declared (C102_foreign_refuted); a reference with leading ./ gives a wrong name (C102_dotted_refuted); a valid reference without its first slash panics in an operation (C102_short_refuted); a message behind two references has accessors for its correlation identifier and no WaitFor (C102_waitfor_refuted); a message that refers to itself is processed and cannot be followed (C102_cycle_refuted)."
  },
  {
   "property": "C103",
   "status": "partial",
   "theorems": [
    "C103_same_types",
    "C103_read",
    "C103_arrives",
    "C103_back",
    "C103_admitted",
    "C103_written",
    "C103_empty_slice_refuted",
    "C103_additional_case_refuted",
    "C103_case_refuted",
    "C103_integers_refuted",
    "C103_declared_additional_refuted",
    "C103_null_refuted",
    "C103_undeclared_refuted",
    "C103_lost_refuted"
   ],
   "note": "Reading is characterised exactly (iff); the other directions need good tags, additional properties of the type of the declared ones (or of any), no type defined from one with its own functions, no recursion through values. Refuted without the conditions: an omitted empty slice comes back nil (C103_empty_slice_refuted); a key that differs by case only takes the place of a property, written or read (C103_additional_case_refuted, C103_case_refuted); integers beyond 64 bits are admitted and not read (C103_integers_refuted); a declared number next to additional strings is not read (C103_declared_additional_refuted); a required nil array is written null (C103_null_refuted); undeclared members are dropped (C103_undeclared_refuted); the property \"-\", properties converted to the same key, and the content of types defined from one with additional properties or from a date-time are lost (C103_lost_refuted)."
  },
  {
   "property": "C104",
   "status": "partial",
   "theorems": [
    "C104_named",
    "C104_written",
    "C104_operation",
    "C104_backed",
    "C104_once",
    "C104_listed_refuted",
    "C104_channel_refuted",
    "C104_components_refuted",
    "C104_file_refuted"
   ],
   "note": "Names, written types, operations, completeness and single declaration are proved for every processed document ([processed]: what C93 calls regular, ASCII keys, messages standing in one place, different names of channels and of operations) that is [complete] and [legible]. Refuted: that references which lead, in any number of steps, to a channel and a message are enough. An operation that lists a message of its channel that is a reference uses a type that is not made (C104_listed_refuted); a channel that is a reference makes the generator crash (C104_channel_refuted); the parameters of a channel of the components have no type (C104_components_refuted); nor has a message of another file (C104_file_refuted)."
  },
  {
   "property": "C105",
   "status": "proved",
   "theorems": [
    "C105_tells",
    "C105_one_text_refuted",
    "C105_nil_refuted",
    "C105_json",
    "C105_json_refuted",
    "C105_uninitialized",
    "C105_stops",
    "C105_drained"
   ],
   "note": "C105_tells (injectivity up to the order of headers), C105_json (exactly when JSON, given a JSON payload), C105_uninitialized, C105_stops and C105_drained hold for everything. Refuted: that one message has one text (C105_one_text_refuted), that nil and empty can be told apart (C105_nil_refuted), that the text is always JSON (C105_json_refuted). The statement names these exceptions, so that all of it is proved."
  },
  {
   "property": "C106",
   "status": "proved",
   "theorems": [
    "C106_back",
    "C106_read",
    "C106_tells",
    "C106_same_refuted",
    "C106_tells_refuted"
   ],
   "note": "C106_back is exact (iff), C106_read says what happens to everything else, C106_tells is injectivity. Everything the statement says is proved; that all values come back, which it does not say, is false: C106_same_refuted, C106_tells_refuted. encoding/json is a library: JsonText.v models its documented and coded behaviour, with numbers kept as literals."
  },
  {
   "property": "C107",
   "status": "partial",
   "theorems": [
    "C107_through",
    "C107_package",
    "C107_all_refuted"
   ],
   "note": "C107_through holds for objects and arrays; integers are covered (and refuted) by C97, strings by C97_strings. C107_all_refuted: without the conditions on values another message arrives. Optional object headers never come back (C97_object_header). C107_package: the types the conversions see are exactly those declared, made of what they are declared as."
  },
  {
   "property": "C108",
   "status": "partial",
   "theorems": [
    "C108_arrives",
    "C108_same",
    "C108_json",
    "C108_same_refuted"
   ],
   "note": "The text that the NATS client writes and reads is modelled from nats.go v1.31.0 and net/http, which are not in the repository. False in general (C108_same_refuted); C108_arrives says what arrives, C108_same which headers are kept, C108_json that objects are."
  },
  {
   "property": "C109",
   "status": "partial",
   "theorems": [
    "C109_through",
    "C109_nats_refuted",
    "C109_version_refuted"
   ],
   "note": "Proved with conditions on the names and texts of headers (C109_through); C109_nats_refuted and C109_version_refuted show that they are needed. Objects and arrays as payloads; integers are refuted in C97."
  },
  {
   "property": "C110",
   "status": "partial",
   "theorems": [
    "C110_own_reply",
    "C110_everyone",
    "C110_nats_refuted"
   ],
   "note": "C82 with the generated types: its assumption about the codec is proved from C109 (messages that JSON tells apart, headers that the broker keeps, identifier in a header that is a string by its own schema). Refuted without the condition on identifiers: over NATS an identifier set by the caller that begins with a space is trimmed, so that the request waits forever (C110_nats_refuted). Identifiers in payloads and replies shared in a group (C83) are not covered."
  },
  {
   "property": "C111",
   "status": "partial",
   "theorems": [
    "C111_controllers2",
    "C111_handlers2",
    "C111_controllers3_partial",
    "C111_handlers3_partial",
    "C111_shared_reply_refuted"
   ],
   "note": "Version 2 for every document that can be generated, if no message is named like a controller. Version 3 (partial): operations that are not references, whose message and answer are determined, and whose answers have channels of their own; C111_shared_reply_refuted has a document without, for which a method that it calls for is missing."
  },
  {
   "property": "C112",
   "status": "partial",
   "theorems": [
    "C112_success",
    "C112_kept_partial",
    "C112_crash",
    "C112_cut_refuted",
    "C112_empty_input_refuted",
    "C112_over_refuted",
    "C112_only_output"
   ],
   "note": "Success and crash are characterised in full (C112_success, C112_crash), and only the output can change (C112_only_output). Partial: a run that fails while writing leaves the output cut (C112_cut_refuted: it is truncated when opened, no temporary file), hence the exception in C112_kept_partial; an empty --input crashes with an index out of range (C112_empty_input_refuted, for all arguments whose inputs are all empty); the output may overwrite an input (C112_over_refuted). The finding of flags in arguments (cobra), csv with quotes or lines, the formatting and the generated text are parameters."
  },
  {
   "property": "C113",
   "status": "partial",
   "theorems": [
    "C113_one",
    "C113_address",
    "C113_exact_partial",
    "C113_agree",
    "C113_backslash_refuted",
    "C113_code_refuted"
   ],
   "note": "Addresses written with %q are always right (C113_address). What the templates write between quotes is right exactly for texts without quotes, backslashes, newlines and what may not stand in a file (C113_exact_partial, C113_agree). Refuted: a backslash and a letter are read as another byte (C113_backslash_refuted), and any declarations can be brought into the package by a version, an address, the name of a header or a key (C113_code_refuted). Literals are those of the Go specification, stated in LiteralSpec.v; addresses with parameters are in C35."
  },
  {
   "property": "C114",
   "status": "partial",
   "theorems": [
    "C114_process_partial",
    "C114_beside_refuted",
    "C114_merge",
    "C114_traits",
    "C114_about",
    "C114_operation",
    "C114_payload_refuted",
    "C114_late_refuted",
    "C114_flag_refuted",
    "C114_growth_refuted"
   ],
   "note": "Proved that merging again leaves the whole schema graph equal (schemas that are not compositions themselves), that headers from traits and operation traits are stable, and exactly what happens to the other fields of a message: all stay but the examples, which are added again. C114_process_partial: the whole processing done again, in any order, changes no schema of a document without compositions whose references stand alone and designate no references. False in general: a payload from a trait goes into the headers the second time, late fields appear, the required flag of a shared property flips, compositions grow, and properties written beside a reference become required (C114_beside_refuted)."
  },
  {
   "property": "C115",
   "status": "proved",
   "theorems": [
    "C115_v2",
    "C115_v3_locations",
    "C115_v3_composed",
    "C115_v3_imports",
    "C115_v3_operations",
    "C115_full2",
    "C115_full3"
   ],
   "note": "Exact for each walk over a document that was read: version 2 metadata (C115_v2), version 3 metadata, dependencies, imports and operations. Each walk is taken as if no error stopped it before; panics of other steps (on what references and merges link together, and on replies: C71) are not part of it. Documents without null entries can only make these walks panic by short references (version 2) and locations without a path (C115_full2, C115_full3)."
  },
  {
   "property": "C116",
   "status": "partial",
   "theorems": [
    "C116_calendar",
    "C116_day_number",
    "C116_rfc3339",
    "C116_read",
    "C116_written",
    "C116_arrives",
    "C116_exact",
    "C116_instant",
    "C116_headers",
    "C116_seconds_refuted",
    "C116_years_refuted",
    "C116_zones_refuted",
    "C116_json_written",
    "C116_json_exact",
    "C116_json_again",
    "C116_json_stamp",
    "C116_json_text",
    "C116_civil_read",
    "C116_civil_exact",
    "C116_civil_text"
   ],
   "note": "Refuted: payloads and headers lose parts of a second without an error, years outside 0..9999 are written and cannot be read, and zones with seconds in their offset give another instant. Proved: Go's calendar is the Gregorian one for all days, exactly which texts are read and as what, exactly which times and dates arrive (C116_exact, C116_civil_exact), what arrives of the others (C116_arrives), the same for times inside objects, and for the messages of C59 with these concrete functions."
  },
  {
   "property": "C117",
   "status": "partial",
   "theorems": [
    "C117_exact",
    "C117_standard",
    "C117_one",
    "C117_utf8",
    "C117_written",
    "C117_written_same",
    "C117_producer",
    "C117_white",
    "C117_only_refuted",
    "C117_all_refuted"
   ],
   "note": "Refuted in two ways: bytes that are not UTF-8 and halves of surrogate pairs are read, as U+FFFD (C117_only_refuted); what is nested more than 10000 deep is not read (C117_all_refuted). Proved: exactly the grammar of RFC 8259 with these two leniencies and this limit is read (C117_exact, iff), every text of the standard within the limit is read as what it denotes, a text denotes one value, texts of the standard are UTF-8, what is written is a text of the standard (C117_written, C117_written_same), and neither white space nor the producer makes a difference."
  },
  {
   "property": "C118",
   "status": "partial",
   "theorems": [
    "C118_accepted",
    "C118_meant",
    "C118_document",
    "C118_times",
    "C118_dates",
    "C118_objects_refuted",
    "C118_integers_refuted",
    "C118_strings_refuted"
   ],
   "note": "Refuted in three ways: a payload that is an integer is read as bytes, so that the JSON text 7 makes the decoder panic (C118_integers_refuted); a payload that is a string is not read as JSON and keeps its quotes (C118_strings_refuted); an object in a header that may be left out is always an error (C118_objects_refuted). Proved: exactly which broker messages are read (C118_accepted, iff), and that every message whose JSON the schemas admit and whose times are of RFC 3339, for all other payloads and headers, arrives as what it denotes (C118_meant for the types, C118_document for the schemas, with the dates of C116 and the texts of C117). Left as parameters: the rounding of floats and what an interface holds."
  },
  {
   "property": "C119",
   "status": "proved",
   "theorems": [
    "C119_in_order",
    "C119_every_message",
    "C119_settled"
   ],
   "note": "For every channel content; settled exactly once for middlewares that pass failures on (C119_settled)."
  },
  {
   "property": "C120",
   "status": "partial",
   "theorems": [
    "C120_exact",
    "C120_names",
    "C120_joined_refuted"
   ],
   "note": "C120_names: right for every name of a type (letters and digits), whatever the document. Refuted for other names ('User_Message' keeps its '_'); C120_exact says exactly for which."
  },
  {
   "property": "C121",
   "status": "partial",
   "theorems": [
    "C121_nothing_skipped",
    "C121_resumes_exact",
    "C121_poison",
    "C121_auto_exact",
    "C121_replayed",
    "C121_skipped_refuted",
    "C121_lost_refuted",
    "C121_no_group_refuted",
    "C121_refused_refuted"
   ],
   "note": "Manual commits with middlewares that pass failures on: nothing is skipped (C121_nothing_skipped), the new place is exactly behind the settled messages (C121_resumes_exact), a message that ends the program unsettled is never passed (C121_poison). Automatic commits: at most once (C121_auto_exact). Refuted: the recovering middleware loses messages, automatic commits lose what was read, refused messages do not come back, and without a group (the default) everything is replayed (C121_replayed says exactly how)."
  },
  {
   "property": "C122",
   "status": "partial",
   "theorems": [
    "C122_acknowledged",
    "C122_exact",
    "C122_given_again",
    "C122_start_refuted"
   ],
   "note": "Proved for any history: acknowledged means approved, or given while no channel asked for matched (C122_acknowledged, C122_exact); not acknowledged means handled whenever given to a live subscription (C122_given_again). Refuted: consumption starts with the first subscription, so messages for a channel subscribed next are acknowledged without being handled (C122_start_refuted)."
  }
 ]
}