# Formal model of asyncapi-codegen — design

## Layout

* `rocq/theories/Model/*.v` — executable Gallina model, no proofs. Every definition cites the file and
  lines of `/repo` it models and says where it simplifies.
* `rocq/theories/Spec/*.v` — small independent specifications (what the user expects), written without
  the helpers of the model.
* `rocq/theories/Proof/*.v` — lemmas.
* `rocq/theories/Properties/*.v` — the property theorems; each is followed by `Print Assumptions` and
  accompanied by an `Example` showing that its hypotheses are met by a concrete, non-trivial input.
* `properties.jsonl` — the properties; `MANIFEST.json` — status and theorems of each;
  `seeded/LOG.jsonl` — faults put in the model on purpose and what they broke.

Theorem names start with the id of the property. `_refuted`: the property, as stated in
`properties.jsonl`, is false of the faithful model; the theorem exhibits a witness. `_partial`: what was
proved instead; the comment above it (or the refutations beside it) says what is missing.

## Conventions of the model

* Go strings are byte sequences (`string`, `list ascii`) or lists of code points where only these
  matter; `range` over a string decodes UTF-8, explicitly (Naming.v).
* Go maps are `gmap` when only contents matter. When the order of iteration matters, it is an
  oracle (`iter`, `order`) of which only "a permutation of the entries" is assumed, or an explicit list.
* nil pointers, maps and slices are explicit (`option`) where the code distinguishes them.
* Pointers that are shared or cyclic are numbers in an explicit heap (Schema.v, Location.v, Message.v).
* Panics, errors and blocking for ever are explicit results. Recursion that is not structural has fuel;
  theorems about it say for which fuel, or for every fuel that it does not end.
* Goroutines, Go channels and mutexes are state machines over atomic steps; theorems quantify over all
  lists of steps (all schedules).
* Middlewares and callbacks given by users are arbitrary interaction trees or functions.
* External systems (broker clients, uuid generation, encoding of arbitrary types, Unicode tables, clocks)
  are oracles, universally quantified in the theorems (section variables, discharged).

## Trusted base

* Coq's kernel (8.16.1), and `coqc` checking every file of `_CoqProject`; no kernel check is switched off, there
  is no `Admitted`, no `Axiom`, no `Parameter`, no section-less `Variable`, no plugin, functor or module type.
* `Print Assumptions` answers "Closed under the global context" for **every** theorem of the table below: no axiom,
  not even of the standard library, is used. (Loading std++ loads Coq.ssr.ssrunder, whose module type
  `Under_rel` shows up in a listing of the loaded library; no theorem depends on it.)
* The reading of the Go code: that each definition of `Model/` says what the cited lines do. Nothing was
  extracted or run; the code was read as text. The behaviour of Go itself, of its standard library and of the
  third-party clients is part of this reading, as described in the comments (runtime/chan.go, encoding/json,
  text/template, fmt, regexp, reflect, strconv, sync.Mutex, kafka-go, nats.go, mohae/deepcopy).
* That the statements in `Spec/` and `Properties/` say what the English of `properties.jsonl` says.

## What is modelled

| model | code |
|-------|------|
| Ack.v | pkg/extensions/broker.go (AcknowledgeableBrokerMessage) |
| SubMachine.v | pkg/extensions/broker.go (BrokerChannelSubscription): channels, waiter, cancellers, transmitters |
| BrokerMessage.v | pkg/extensions/broker.go (BrokerMessage, IsUninitialized) |
| Middleware.v, Listener.v | generated wrapMiddlewares, executeMiddlewares, listenToNextMessage and its loop (v2 and v3 controller.tmpl), middlewares/recovery.go |
| Controller.v | generated Close, Subscribe…, Unsubscribe… (v2 and v3) |
| Request.v | generated Request…, ReplyTo…, Send…, WaitFor… and the waiting loop (v2 and v3) |
| Codec.v | generated conversions between messages and broker messages (message.tmpl), header conversions of the NATS and Kafka brokers |
| JetStream.v, Durable.v | brokers/natsjetstream: subject matching, dispatch, consumption, connections; messages given, handled and acknowledged, with what the server (not in the repository) does: an unacknowledged message may be given at any time, an acknowledged one never (explicit acknowledgements, no limit of deliveries) |
| Kafka.v, Redelivery.v | brokers/kafka: options, topic creation check, publication, commits; restarts of subscribers, with what kafka-go (not in the repository) does with offsets: a group's reader starts at the stored offset, a commit stores the place behind the message, ReadMessage commits, without a group reading starts at the first message and nothing is stored; one partition, one reader of the group at a time |
| Versioning.v, VersioningLocks.v | pkg/extensions/versioning, operation by operation and lock by lock |
| Naming.v, Address.v, Suffix.v | pkg/utils/template/helpers.go (Namify, NamifyWithoutParams, MultiLineComment, CutSuffix), channel addresses of both versions |
| Validations.v | pkg/asyncapi/schema.go (Merge), pkg/codegen/generators/helpers.go (struct tags) |
| GoStrings.v, Slices.v | strings.Split, TrimPrefix; pkg/utils/slice.go, RemoveDuplicate of tags and security schemes |
| Reference.v | `$ref` resolution of both versions |
| Schema.v | schemas as a graph: metadata (IsRequired), setDependencies, MergeWith, Follow |
| Location.v | correlation ID locations: creation of the field, whether it is required, path used by the templates |
| Message.v | messages: traits, alternatives, deep copies, metadata; operation traits |
| Operations.v | replies, sides, operations of each side, message of an operation (v2 and v3) |
| Imports.v | custom imports (x-go-type-import) |
| Parser.v | choice of the parser, versions, dependencies |
| Options.v | options of the command line, Generate's loop, process-wide settings |
| Types.v | schema_definition.tmpl, schema_name.tmpl, time.tmpl: the generated Go types |
| Names.v | generateFullName and the metadata of schemas, messages, channels and components (v3): the names of the generated types |
| Labels.v | tags and security schemes: their metadata, their merge with those of traits (v3) |
| Pipeline.v | the component schemas from the document to the types: Names.v, Schema.v and Types.v together |
| System.v | several requests at once, a responder and a broker that shares replies between all subscriptions or gives each to one |
| Package.v | what the code generated for version 3 declares and uses: subscribers, controllers, messages, types, with the types of arguments and results |
| Package2.v | what the code generated for version 2 declares and uses: subscribers, controllers, messages, types, with the types of arguments and results |
| Conversion.v | message.tmpl: the statements of the conversion functions, with the types of the fields they read and fill (v2 and v3); executed by the rules of Spec/GoRun.v, where JSON and RFC 3339 are arbitrary functions |
| Accessors.v | message.tmpl, controller.tmpl: reading and writing the field of a location, on values with pointers |
| Linking.v | v3 setDependencies of every object but schemas, over all files of a document: which references are linked, errors and panics; HaveCorrelationID |
| ReplyAddress.v | addresses of replies: the message looked at, whether the field is required, the path used |
| TextLog.v | loggers/text.go: the printed text, colours off, maps walked in any order |
| FileImports.v | imports.tmpl and the packages used in the text of all templates, generator.go: the parts of a file; codegen.go: formatting, with golang.org/x/tools/imports reduced to merging equal lines, removing unused ones and adding what it finds |
| Decoding.v | the structures of pkg/asyncapi/v2 and v3 with their json tags and types, Validations, the extensions, json.Unmarshal into them (encoding/json: null, unknown keys, keys up to case, mismatching types), and what the choice of the parser gets from it |
| Concurrent.v | controller.tmpl (both versions): subscribe and unsubscribe calls made at once by several goroutines, cut at the accesses to the map and the calls of the broker |
| Contexts.v | pkg/extensions/context.go; controller.tmpl (both versions): the context every party of an operation is given; middlewares/logging.go; versioning: the contexts of the wrapper |
| Document2.v | v2 `Process`: names, links, correlation locations of messages and parameters of a document and the files it depends on, and what the templates are given (`Follow`, inline messages). Schema linking, header types and merging of alternatives are given outcomes; null entries and names of parameters are left out |
| Wire.v | the JSON of the generated types: tags (`omitempty`, converted keys), which field a key is for, reading and writing of values with pointers, slices, nested structures, additional properties, defined types without the functions of their base. JSON is a value; floats, dates and contents of `interface{}` are given by oracles; custom Go types and version 2's additional properties are left out |
| Document3.v | what the templates are given after the processing of a document of version 3 (Linking.v): the names written by generateMetadata in the document, its components and the files it depends on, operations with their channels, messages and replies, channels, the messages of which types are made, correlation identifiers. Channels and operations are known by their names (in the code: the objects); of two with one name the first is taken |
| Show.v | BrokerMessage.String (what contexts and logs are given), IsUninitialized and the condition with which generated subscribers stop. Strings are code points and invalid bytes (as in Additional.v), maps lists in the order of iteration; Go channels are a buffer and a flag |
| JsonText.v | the text of JSON as encoding/json writes and reads it: UTF-8 and U+FFFD, escapes, numbers (kept as literals unless integers), white space, the limit of 10000 levels |
| Typed.v | json.Marshal and json.Unmarshal where the conversion functions call them: Wire.v and JsonText.v put into the oracles of GoRun.v; the declared types by what they are made of. Values whose type is a string, a number or a time are not marshalled there |
| TypedRequest.v | requests and replies of generated types: identifier in a header, conversion, version wrapper, broker; plugged into System.v |
| Nulls.v | which pointers the walks over a document read from JSON go through untested: version 2 metadata; version 3 metadata, dependencies, imports, count of operations. A walk is whether it panics if no error stops it before; panics on what references and merges link together are left out |
| Dates.v | time.Time and civil.Date as texts: Go's calendar arithmetic, Format/Parse with time.RFC3339, the JSON form, civil.Date |
| Literals.v | the literals of the generated code that carry texts of the document: version, addresses of channels without parameters, names of headers, tags of fields. Other texts (comments: C36; code: C85-C98) are elsewhere |
| Command.v | the command: its flags and their values (pflag's Set, from the library's source), the files it reads in order, the options it passes on, the writing of the output with its failures. Finding flags in arguments (cobra), csv with quotes or lines, the generated text and its formatting are parameters |
| Transport.v | headers on the way through the brokers: the header text of the NATS client (nats.go v1.31.0 headerBytes and DecodeHeadersMsg, net/http Header.Write: from the libraries' source, not in the repository), the conversions of Codec.v, Kafka's headers as they are. A status in NATS headers is an error; payloads arrive as they are |
| Additional.v, AdditionalDecode.v | additional_properties.tmpl: encoding (v2 and v3) and decoding |
| Logs.v | loggers/common.go, loggers/ecs.go |
| Reflect.v | pkg/utils/reflect.go |


## What is not modelled

* The text of the templates that has no logic (declarations, comments), gofmt and imports processing of the output
  (goimports is an input of `Command.v`).
* The YAML reader (a YAML file is what `yaml.YAMLToJSON` makes of it), the flag library, the file system but for
  reading a file and replacing one. JSON is modelled twice: as values read into the Go structures (`Decoding.v`) and
  as the text of messages (`JsonText.v`); numbers that do not fit in a float64 are left out.
* The parts of an AsyncAPI document that the generator reads and never uses (info, servers, bindings, external
  documentation), except where their processing appears in a property.
* The network clients (but for the header text of the NATS one); timeouts in real time (they are non-deterministic steps); the Go memory model below the
  atomicity of channel operations, mutexes and single map operations (`Concurrent.v` interleaves calls on one
  controller at these points; what a data race does to the map itself is out of scope).
* The source of Go's standard library is not in the repository: what `Dates.v` (package time), `JsonText.v` and `Decoding.v`
  (encoding/json) say of it follows Go 1.21, the version of go.mod. The names of time zones are not kept, and seconds do not wrap around.
* test/, examples/, build/ and tools/.

## Properties and theorems

| id | property | status | theorems | file |
|----|----------|--------|----------|------|
| C01 | A received message is settled at most once | proved | `C01_settled_once` | C01_C06_Middleware.v |
| C02 | Middleware chain runs each stage at most once and in order | proved | `C02_stages_in_order` | C01_C06_Middleware.v |
| C03 | Middlewares that do not refuse never suppress the operation | proved | `C03_operation_runs`, `C03_success` | C01_C06_Middleware.v |
| C04 | A refusing middleware blocks everything after it | proved | `C04_refusal_blocks`, `C04_refusal_reported` | C01_C06_Middleware.v |
| C05 | A failure of the operation is reported | partial | `C05_failure_reported_refuted`, `C05_failure_dropped_refuted`, `C05_failure_reported_partial`, `C05_passed_on` | C01_C06_Middleware.v |
| C06 | Every consumed message is settled exactly once | partial | `C06_settled_at_most_once`, `C06_acknowledged`, `C06_handled_then_settled`, `C06_settled_exactly_once_partial`, `C06_passed_on`, `C06_refused_is_settled`, `C06_settled_exactly_once_refuted` | C01_C06_Middleware.v |
| C07 | Cancel returns only after clean-up | partial | `C07_cancel_waits_refuted`, `C07_cancel_lost_refuted`, `C07_concurrent_cancel_refuted`, `C07_cancel_waits_partial`, `C07_cancel_returns_partial`, `C07_early_overtaken`, `C07_cleanup_happens` | C07_C10_Subscription.v |
| C08 | Clean-up runs at most once and cancelling is safe to repeat | partial | `C08_cleanup_at_most_once`, `C08_cancel_twice_refuted`, `C08_cancel_safe_partial`, `C08_one_cancel_crash` | C07_C10_Subscription.v |
| C09 | A subscription is a lossless FIFO until cancelled | proved | `C09_fifo`, `C09_drain` | C07_C10_Subscription.v |
| C10 | Transmitting never crashes | partial | `C10_transmit_safe_refuted`, `C10_blocked_transmit_refuted`, `C10_safe_before_cleanup_partial`, `C10_crash_exact` | C07_C10_Subscription.v |
| C11 | Version routing | partial | `C11_delivery_safe`, `C11_routing_refuted`, `C11_routing_partial`, `C11_refines_partial`, `C11_routing_exact` | C11_C15_Versioning.v |
| C12 | One subscriber per channel and version | partial | `C12_duplicate_never_accepted`, `C12_no_version_refused`, `C12_resubscribe_partial`, `C12_no_answer_refuted`, `C12_answer_exact` | C11_C15_Versioning.v |
| C13 | The wrapper holds a broker subscription exactly while some version needs it | partial | `C13_broker_subscriptions_partial`, `C13_returned_exact`, `C13_broker_subscriptions_refuted` | C11_C15_Versioning.v |
| C14 | The version wrapper never gets stuck | partial | `C14_unknown_version_refuted`, `C14_whole_wrapper_refuted`, `C14_lock_order_refuted`, `C14_progress_partial`, `C14_blocked_exact` | C11_C15_Versioning.v |
| C15 | Version tagging on publication | partial | `C15_tagging_partial`, `C15_no_version_unchanged`, `C15_nil_headers_refuted`, `C15_exact` | C11_C15_Versioning.v |
| C16 | Controller subscriptions behave like a set of addresses | proved | `C16_expected_calls`, `C16_one_subscription_per_address` | C16_C18_Controller.v |
| C17 | Closing a controller releases every subscription | partial | `C17_close_releases_all_refuted`, `C17_close_exact_partial` | C16_C18_Controller.v |
| C18 | Subscribing to all channels is all-or-nothing | partial | `C18_all_or_nothing_refuted`, `C18_shared_channel_refuted`, `C18_outcome_partial`, `C18_succeeds_partial`, `C18_exact` | C16_C18_Controller.v |
| C19 | A request returns only the matching reply | proved | `C19_matching_reply`, `C19_first_answer_returned` | C19_C21_Request.v |
| C20 | A request ends when its context ends | partial | `C20_ends_with_context_refuted`, `C20_early_errors_partial`, `C20_exact`, `C20_unheard` | C19_C21_Request.v |
| C21 | A reply carries the correlation ID of the request | proved | `C21_send_correlation`, `C21_reply_correlation`, `C21_uncorrelated_reply_refused`, `C21_end_to_end` | C19_C21_Request.v |
| C22 | Scalar payloads survive the wire | partial | `C22_roundtrip_refuted`, `C22_roundtrip_exact_partial`, `C22_byte_swap_partial`, `C22_referenced_int32_refuted` | C22_C24_Codec.v |
| C23 | String payloads and headers survive the wire | proved | `C23_string_roundtrip`, `C23_unknown_headers_ignored` | C22_C24_Codec.v |
| C24 | Broker header conversion is a round trip | proved | `C24_kafka_roundtrip`, `C24_kafka_last_value`, `C24_nats_roundtrip`, `C24_nats_first_value` | C22_C24_Codec.v |
| C25 | Subject matching follows NATS rules | proved | `C25_subject_match` | C25_C28_JetStream.v |
| C26 | JetStream dispatch | partial | `C26_dispatch`, `C26_handed_to_live_partial`, `C26_consume_exact`, `C26_failed_subscribe_blocks_refuted`, `C26_overlap_depends_on_order_refuted` | C25_C28_JetStream.v |
| C27 | JetStream consumption lifetime | partial | `C27_lifetime_partial`, `C27_history`, `C27_crash_exact`, `C27_running_exact`, `C27_shared_channel_refuted`, `C27_failed_subscribe_refuted` | C25_C28_JetStream.v |
| C28 | Connection ownership | partial | `C28_jetstream_balance_partial`, `C28_user_connections_safe`, `C28_failed_creation_refuted`, `C28_failed_creation_exact`, `C28_nats_failed_creation_exact`, `C28_nats_exact_partial`, `C28_nats_repeated_option_refuted` | C25_C28_JetStream.v |
| C29 | Kafka controllers are configured independently | partial | `C29_independent_refuted`, `C29_shared_configuration_partial`, `C29_same_options_partial` | C29_C31_Kafka.v |
| C30 | Kafka publish retries only on a missing topic | proved | `C30_allowed_runs`, `C30_one_successful_write`, `C30_answers_in_order`, `C30_check_saw_topic` | C29_C31_Kafka.v |
| C31 | Kafka commits only what was settled | partial | `C31_commits_settled_partial`, `C31_commit_order_partial`, `C31_nak_commits_refuted` | C29_C31_Kafka.v |
| C32 | Generated names are valid exported Go identifiers | proved | `C32_exported`, `C32_empty_exactly` | C32_C36_Naming.v |
| C33 | Names keep every ASCII letter and digit | partial | `C33_characters`, `C33_ascii_partial`, `C33_letters_kept_partial`, `C33_refuted` | C32_C36_Naming.v |
| C34 | Distinct names stay distinct | partial | `C34_distinct_refuted`, `C34_words_partial`, `C34_exported_partial`, `C34_params_span_partial`, `C34_channels_refuted` | C32_C36_Naming.v |
| C35 | Channel addresses are built by substituting parameters | partial | `C35_substitution_partial`, `C35_any_braces_partial`, `C35_exact`, `C35_no_parameters`, `C35_percent_refuted`, `C35_field_name_refuted` | C32_C36_Naming.v |
| C36 | Descriptions stay inside comments | partial | `C36_comment_lines`, `C36_text_back_partial`, `C36_text_back_refuted`, `C36_text_exact` | C32_C36_Naming.v |
| C37 | Merging validations | partial | `C37_merge_partial`, `C37_idempotent`, `C37_associative`, `C37_required_lost_refuted`, `C37_zero_loses_refuted`, `C37_required_exact`, `C37_bound_exact` | C37_C39_Validations.v |
| C38 | omitempty decision | partial | `C38_omitempty`, `C38_key_partial`, `C38_key_exact`, `C38_key_refuted` | C37_C39_Validations.v |
| C39 | Validation tags express the schema constraints | partial | `C39_directives_partial`, `C39_says`, `C39_exact`, `C39_zero_bound_refuted`, `C39_required_refuted`, `C39_separator_refuted` | C37_C39_Validations.v |
| C40 | Composition merges properties | partial | `C40_properties`, `C40_required`, `C40_allof`, `C40_alternatives`, `C40_chain_refuted` | C40_C41_Schema.v |
| C41 | A merged property is required exactly when it is required in its origin | partial | `C41_mandatory`, `C41_flag_refuted`, `C41_reference_refuted`, `C41_flags` | C40_C41_Schema.v, C84_Process.v |
| C42 | References resolve or fail cleanly | partial | `C42_schema_exact`, `C42_message_exact`, `C42_other_exact`, `C42_behind_refuted`, `C42_component3_partial`, `C42_component2_partial`, `C42_schema_crash_exactly`, `C42_crash_refuted` | C42_C43_Reference.v |
| C43 | Dependency lookup ignores a leading ./ | partial | `C43_found_partial`, `C43_other`, `C43_local`, `C43_exact`, `C43_one_file`, `C43_doubled_refuted` | C42_C43_Reference.v |
| C44 | Following references terminates at the definition | partial | `C44_v2_follow`, `C44_v2_cycle_refuted`, `C44_message_one_step`, `C44_schema_one_step`, `C44_v3_chain_refuted`, `C44_merge_cycle_refuted` | C44_C45_Message.v |
| C45 | Traits never override and always contribute | partial | `C45_fields`, `C45_operation_fields`, `C45_headers`, `C45_bindings_refuted`, `C45_payload_refuted`, `C45_description_refuted`, `C45_correlation_refuted` | C44_C45_Message.v |
| C46 | Application and user sides are dual | partial | `C46_received_partial`, `C46_dual_partial`, `C46_reply_partial`, `C46_exact`, `C46_reply_refuted`, `C46_dual_refuted`, `C46_reference_refuted`, `C46_v2` | C46_Operations.v |
| C47 | Custom imports conflict detection | proved | `C47_conflict`, `C47_exactly_once`, `C47_order` | C47_Imports.v |
| C48 | Unsupported AsyncAPI versions are rejected | proved | `C48_accepted`, `C48_forced`, `C48_files`, `C48_no_panic` | C48_Parser.v |
| C49 | Generation flags | proved | `C49_flag`, `C49_written` | C49_C50_Options.v |
| C50 | Generations are independent | partial | `C50_refuted`, `C50_settings`, `C50_independent_partial`, `C50_independent_exact` | C49_C50_Options.v |
| C51 | Structured logs keep the last value of every key | proved | `C51_last_value`, `C51_functional` | C51_Logs.v |
| C52 | Duplicate removal keeps first occurrences | proved | `C52_first_occurrences`, `C52_keys`, `C52_search` | C52_Slices.v |
| C53 | Additional properties are serialised as valid JSON | partial | `C53_v3_partial`, `C53_v3_only_clean`, `C53_v3_refuted`, `C53_once`, `C53_v2_partial`, `C53_v2_only`, `C53_v2_refuted` | C53_Additional.v |
| C54 | A correlation ID location always designates a field | partial | `C54_processed`, `C54_flag_refuted`, `C54_designates`, `C54_idempotent`, `C54_required`, `C54_intermediate_refuted`, `C54_crash_refuted`, `C54_payload_reference_refuted` | C54_Later.v, C54_Location.v |
| C55 | Field search by name | proved | `C55_true`, `C55_panic`, `C55_ends` | C55_Reflect.v |
| C56 | Replies consumed by a request are settled | partial | `C56_uncorrelated_never_settled_refuted`, `C56_correlated_settled_partial` | C19_C21_Request.v |
| C57 | A request subscribes before it sends and releases on return | proved | `C57_subscribe_send_release` | C19_C21_Request.v |
| C58 | A malformed payload never crashes the receiver | partial | `C58_short_payload_refuted`, `C58_panics_exactly_partial`, `C58_decoder_exact` | C22_C24_Codec.v, C97_Survive.v |
| C59 | Object and date headers survive the wire | partial | `C59_optional_object_header_refuted`, `C59_reading_exact`, `C59_exact` | C22_C24_Codec.v |
| C60 | Processing does not depend on map order | partial | `C60_order_refuted`, `C60_plain_partial`, `C60_references_refuted` | C40_C41_Schema.v, C60_Order.v |
| C61 | Generated accessors designate the located field | partial | `C61_accessor`, `C61_exact`, `C61_names_refuted` | C54_Location.v |
| C62 | Headers may be given by reference | partial | `C62_v3_refuted`, `C62_v2_accepted` | C44_C45_Message.v |
| C63 | A message gets the fields of all its alternatives | partial | `C63_alternatives`, `C63_reference_refuted` | C44_C45_Message.v |
| C64 | Applying a trait to a message affects that message only | partial | `C64_own_headers_partial`, `C64_refuted` | C44_C45_Message.v |
| C65 | A dependency of another major version is refused | partial | `C65_refuted`, `C65_same_major`, `C65_exact` | C48_Parser.v |
| C66 | ECS log lines always carry level, message, time and context | proved | `C66_ecs`, `C66_caller_entries` | C51_Logs.v |
| C67 | The library's middlewares are transparent | proved | `C67_recovery`, `C67_no_panic`, `C67_logging` | C67_Recovery.v |
| C68 | A field search considers any field of the name | partial | `C68_any_refuted`, `C68_found_partial` | C55_Reflect.v |
| C69 | Additional properties survive the round trip | partial | `C69_roundtrip_partial`, `C69_fails`, `C69_refuted`, `C69_case_refuted` | C69_AdditionalDecode.v |
| C70 | Every custom import is written | partial | `C70_written_partial`, `C70_written_refuted`, `C70_parameters_refuted` | C47_Imports.v |
| C71 | Replies never make the generator panic | partial | `C71_replies_partial`, `C71_replies_refuted` | C46_Operations.v |
| C72 | The message of an operation is determined | partial | `C72_message_partial`, `C72_exact`, `C72_reply_refuted` | C46_Operations.v |
| C73 | Every generated type that is used is defined, once | partial | `C73_defined_partial`, `C73_names_exact`, `C73_once_partial`, `C73_nested_refuted`, `C73_reference_refuted` | C73_Types.v |
| C74 | Date types have encoding functions that compile | partial | `C74_time_partial`, `C74_date_refuted` | C73_Types.v |
| C75 | Every schema has generated definitions | partial | `C75_fails_exact`, `C75_definitions_partial`, `C75_items_refuted`, `C75_null_refuted` | C73_Types.v |
| C76 | No generated type contains itself | proved | `C76_layout` | C73_Types.v |
| C77 | Generated types do not depend on map order | partial | `C77_order_partial`, `C77_order_refuted` | C73_Types.v |
| C78 | A component that is a reference encodes like its target | partial | `C78_alias_partial`, `C78_exact`, `C78_alias_refuted` | C73_Types.v |
| C79 | Generated types have distinct names | partial | `C79_named`, `C79_distinct_partial`, `C79_headers_refuted`, `C79_alternatives_refuted`, `C79_contains_refuted`, `C79_from_refuted` | C79_Names.v |
| C80 | Traits do not duplicate tags and security schemes | partial | `C80_all_kept`, `C80_merged_partial`, `C80_merged_refuted`, `C80_operation_refuted` | C80_Labels.v |
| C81 | Component schemas become types defined once | partial | `C81_once_partial`, `C81_defined_partial`, `C81_fields`, `C81_allof_refuted`, `C81_order_refuted` | C81_Pipeline.v |
| C82 | Requests made at once each get their own answer | proved | `C82_own_reply`, `C82_everyone` | C82_System.v |
| C83 | Requests made at once return also with queue groups | partial | `C83_group_partial`, `C83_group_refuted` | C82_System.v |
| C84 | Every reference of a document is resolved, or the document is refused | partial | `C84_resolved`, `C84_component`, `C84_ends`, `C84_beside_refuted` | C84_Process.v |
| C85 | The generated package declares nothing twice | partial | `C85_apart`, `C85_once_partial`, `C85_constructor_refuted`, `C85_channel_reference_refuted`, `C85_channel_keys_refuted`, `C85_operation_keys_refuted`, `C85_reply_name_refuted`, `C85_alternatives_refuted` | C85_Package.v |
| C86 | Everything the generated code uses is declared, with the types it is used with | partial | `C86_backed_partial`, `C86_shared_reply_refuted`, `C86_clashing_key_refuted`, `C86_two_addresses_refuted`, `C86_no_address_refuted`, `C86_reply_parameters_refuted`, `C86_request_nowhere_refuted`, `C86_uncorrelated_refuted`, `C86_many_messages_refuted`, `C86_no_message_refuted` | C86_Package.v |
| C87 | Version 2: everything the generated code uses is declared, with the types it is used with | partial | `C87_backed_partial`, `C87_parameters_refuted`, `C87_no_payload_refuted`, `C87_own_correlation_refuted`, `C87_component_refuted` | C87_Package2.v |
| C88 | Version 2: both sides of a channel exchange the same message | partial | `C88_agree_partial`, `C88_user`, `C88_both_refuted`, `C88_chat_refuted` | C87_Package2.v |
| C89 | Version 2: the generated package declares nothing twice | partial | `C89_once_partial`, `C89_all_refuted`, `C89_channels_refuted`, `C89_operation_id_refuted`, `C89_message_refuted`, `C89_schema_refuted` | C87_Package2.v |
| C90 | The conversion functions of a message compile | partial | `C90_exact_partial`, `C90_plain`, `C90_payload_never`, `C90_date_never`, `C90_header_never`, `C90_header_reference`, `C90_no_header_never`, `C90_two_objects_never`, `C90_listed_never`, `C90_forced_date_never`, `C90_all_refuted` | C90_Conversion.v |
| C91 | The accessors of locations compile | partial | `C91_exact`, `C91_flags`, `C91_forced_never`, `C91_type_never`, `C91_forced_refuted` | C91_Accessors.v |
| C92 | The accessors of locations read what was written and do not crash | partial | `C92_written`, `C92_total`, `C92_new`, `C92_new_others`, `C92_response`, `C92_address`, `C92_new_refuted` | C91_Accessors.v |
| C93 | Every reference of a processed document is linked to what it designates | partial | `C93_linked`, `C93_correlations`, `C93_only`, `C93_accepted`, `C93_panic`, `C93_example_never`, `C93_server_never`, `C93_correlation_never`, `C93_reply_never`, `C93_address_never`, `C93_every_refuted`, `C93_checked_refuted` | C93_Linking.v |
| C94 | A message has accessors for its correlation identifier exactly when it declares one | partial | `C94_exact`, `C94_reference_never`, `C94_reference_refuted` | C93_Linking.v |
| C95 | The address of a reply is read as its field is declared | partial | `C95_required`, `C95_channel`, `C95_existing`, `C95_listed_never`, `C95_listed_refuted`, `C95_reference_never` | C95_ReplyAddress.v |
| C96 | A line of the text logger can be read back | partial | `C96_read`, `C96_context`, `C96_nested_refuted`, `C96_forged_refuted` | C96_TextLog.v |
| C97 | A message that is sent comes back as it was | partial | `C97_encoder`, `C97_decoder`, `C97_undeclared`, `C97_survives`, `C97_strings`, `C97_object_header`, `C97_integer_refuted`, `C97_panic_refuted` | C97_Survive.v |
| C98 | The imports of a generated file are accepted by the compiler | partial | `C98_unformatted_refuted`, `C98_imported`, `C98_custom`, `C98_formatted`, `C98_plain`, `C98_math`, `C98_binary`, `C98_uuid`, `C98_fmt`, `C98_context`, `C98_extensions`, `C98_no_dates`, `C98_clash_never`, `C98_clash_refuted` | C98_FileImports.v |
| C99 | AsyncAPI documents are read completely | partial | `C99_read`, `C99_parsed`, `C99_stored`, `C99_unread_refuted`, `C99_refused`, `C99_valid_refused_refuted` | C99_Decoding.v |
| C100 | Calls made at once on one controller leave no stray subscription | partial | `C100_subscribe_race_refuted`, `C100_unsubscribe_race_refuted`, `C100_stray_forever`, `C100_access`, `C100_data_race_refuted`, `C100_as_in_sequence_partial`, `C100_no_stray_partial` | C100_Concurrent.v |
| C101 | The context a party is given describes the operation it takes part in | partial | `C101_published`, `C101_published_only_refuted`, `C101_text`, `C101_text_refuted`, `C101_tag`, `C101_received`, `C101_received_id_refuted`, `C101_subscribed`, `C101_subscribed_only_refuted`, `C101_requested`, `C101_awaited`, `C101_logging`, `C101_logging_replies_refuted`, `C101_wrapper_message`, `C101_wrapper_text_refuted`, `C101_wrapper_version_refuted`, `C101_wrapper_memory_refuted`, `C101_wrapper_direction_refuted` | C101_Contexts.v |
| C102 | Version 2: a document is processed exactly when its references, locations and headers are good, and the code generated after it is complete | partial | `C102_accepted`, `C102_headers_error`, `C102_linked`, `C102_placed`, `C102_named`, `C102_same_name`, `C102_followed`, `C102_backed_partial`, `C102_foreign_refuted`, `C102_dotted_refuted`, `C102_short_refuted`, `C102_waitfor_refuted`, `C102_cycle_refuted` | C102_Document2.v |
| C103 | What a schema admits, the generated type reads, and what is written comes back | partial | `C103_same_types`, `C103_read`, `C103_arrives`, `C103_back`, `C103_admitted`, `C103_written`, `C103_empty_slice_refuted`, `C103_additional_case_refuted`, `C103_case_refuted`, `C103_integers_refuted`, `C103_declared_additional_refuted`, `C103_null_refuted`, `C103_undeclared_refuted`, `C103_lost_refuted` | C103_Wire.v |
| C104 | Version 3: from the processed document to code that is complete and declares nothing twice | partial | `C104_named`, `C104_written`, `C104_operation`, `C104_backed`, `C104_once`, `C104_listed_refuted`, `C104_channel_refuted`, `C104_components_refuted`, `C104_file_refuted` | C104_Document3.v |
| C105 | The text of a broker message tells the message; reception ends exactly when the channel is closed and empty | proved | `C105_tells`, `C105_one_text_refuted`, `C105_nil_refuted`, `C105_json`, `C105_json_refuted`, `C105_uninitialized`, `C105_stops`, `C105_drained` | C105_Show.v |
| C106 | What is written as JSON is read as it was, if it is UTF-8 and not nested too deep | proved | `C106_back`, `C106_read`, `C106_tells`, `C106_same_refuted`, `C106_tells_refuted` | C106_Text.v |
| C107 | What is sent is what arrives | partial | `C107_through`, `C107_package`, `C107_all_refuted` | C107_Typed.v |
| C108 | Headers over NATS arrive as they were sent | partial | `C108_arrives`, `C108_same`, `C108_json`, `C108_same_refuted` | C108_Transport.v |
| C109 | A typed message arrives the same through the version wrapper and every broker | partial | `C109_through`, `C109_nats_refuted`, `C109_version_refuted` | C108_Transport.v |
| C110 | Typed requests return with the answer of the application | partial | `C110_own_reply`, `C110_everyone`, `C110_nats_refuted` | C110_TypedRequests.v |
| C111 | The generated controllers have exactly the methods that the document calls for | partial | `C111_controllers2`, `C111_handlers2`, `C111_controllers3_partial`, `C111_handlers3_partial`, `C111_shared_reply_refuted` | C111_Offered.v |
| C112 | The command succeeds exactly when everything did, and otherwise leaves the files as they were | partial | `C112_success`, `C112_kept_partial`, `C112_crash`, `C112_cut_refuted`, `C112_empty_input_refuted`, `C112_over_refuted`, `C112_only_output` | C112_Command.v |
| C113 | The texts of a document stand in the string literals of the generated code as they are | partial | `C113_one`, `C113_address`, `C113_exact_partial`, `C113_agree`, `C113_backslash_refuted`, `C113_code_refuted` | C113_Literals.v |
| C114 | Doing it again changes nothing | partial | `C114_process_partial`, `C114_beside_refuted`, `C114_merge`, `C114_traits`, `C114_about`, `C114_operation`, `C114_payload_refuted`, `C114_late_refuted`, `C114_flag_refuted`, `C114_growth_refuted` | C114_Process.v, C114_Twice.v |
| C115 | Which empty entries of a document crash the generator | proved | `C115_v2`, `C115_v3_locations`, `C115_v3_composed`, `C115_v3_imports`, `C115_v3_operations`, `C115_full2`, `C115_full3` | C115_Nulls.v |
| C116 | Dates and times arrive as they were sent | partial | `C116_calendar`, `C116_day_number`, `C116_rfc3339`, `C116_read`, `C116_written`, `C116_arrives`, `C116_exact`, `C116_instant`, `C116_headers`, `C116_seconds_refuted`, `C116_years_refuted`, `C116_zones_refuted`, `C116_json_written`, `C116_json_exact`, `C116_json_again`, `C116_json_stamp`, `C116_json_text`, `C116_civil_read`, `C116_civil_exact`, `C116_civil_text` | C116_Dates.v |
| C117 | Every JSON text of another producer is read as the value it denotes | partial | `C117_exact`, `C117_standard`, `C117_one`, `C117_utf8`, `C117_written`, `C117_written_same`, `C117_producer`, `C117_white`, `C117_only_refuted`, `C117_all_refuted` | C117_Grammar.v |
| C118 | A producer that follows the document is understood | partial | `C118_accepted`, `C118_meant`, `C118_document`, `C118_times`, `C118_dates`, `C118_objects_refuted`, `C118_integers_refuted`, `C118_strings_refuted` | C118_Foreign.v |
| C119 | A listener handles every message of its subscription | proved | `C119_in_order`, `C119_every_message`, `C119_settled` | C119_Listening.v |
| C120 | Documentation comments name messages and channels without their suffix | partial | `C120_exact`, `C120_names`, `C120_joined_refuted` | C120_Suffix.v |
| C121 | Kafka: a restarted subscriber goes on with the first message that was not settled | partial | `C121_nothing_skipped`, `C121_resumes_exact`, `C121_poison`, `C121_auto_exact`, `C121_replayed`, `C121_skipped_refuted`, `C121_lost_refuted`, `C121_no_group_refuted`, `C121_refused_refuted` | C121_Redelivery.v |
| C122 | JetStream: a message is given again until its callback succeeded, and not afterwards | partial | `C122_acknowledged`, `C122_exact`, `C122_given_again`, `C122_start_refuted` | C122_Durable.v |

## Seeded faults

`seeded/LOG.jsonl` has one line for each realistic fault put in a copy of the model: the definition, the edit, the
claim that becomes false, the theorems that no longer prove, and what was tightened when none failed. Refutations
are tested too: an edit that repairs the code must break the refutation.
