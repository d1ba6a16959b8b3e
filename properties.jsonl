{"id": "C01", "title": "A received message is settled at most once", "statement": "However many times and in whatever order Ack and Nak are called on a received message, the broker is told at most once, and what it is told is the kind of the first call.", "quantifier": "every finite sequence of Ack/Nak calls on one message", "why_tests_cant": "tests try a couple of call orders; the claim is about all sequences of any length", "anchors": ["pkg/extensions/broker.go: AcknowledgeableBrokerMessage.Ack, Nak"]}
{"id": "C02", "title": "Middleware chain runs each stage at most once and in order", "statement": "For any list of middlewares (including ones that call next several times, ignore it, fail, or panic) one message passes through every middleware at most once, stages start strictly in registration order without gaps, and the operation (callback/publish) runs at most once and only after every middleware has started.", "quantifier": "every middleware list, every middleware behaviour expressed as an arbitrary interaction tree over next-calls, message reads/writes, error returns and panics", "why_tests_cant": "the space of middleware behaviours is infinite; tests use two or three hand-written ones", "anchors": ["pkg/codegen/generators/v3/templates/controller.tmpl: wrapMiddlewares, executeMiddlewares", "pkg/codegen/generators/v2/templates/controller.tmpl: wrapMiddlewares, executeMiddlewares"]}
{"id": "C03", "title": "Middlewares that do not refuse never suppress the operation", "statement": "If no middleware returns an error or panics by itself, then the operation is executed exactly once, whether or not the middlewares call next explicitly, and if it neither fails nor panics the whole chain returns no error.", "quantifier": "every list of middlewares that propagate or ignore next but never originate an error", "why_tests_cant": "same as C02", "anchors": ["pkg/codegen/generators/v3/templates/controller.tmpl: wrapMiddlewares lines 57-77"]}
{"id": "C04", "title": "A refusing middleware blocks everything after it", "statement": "If a middleware returns an error without having called next, no later middleware and no operation runs for that message and the error is what the chain returns when the earlier middlewares just delegate.", "quantifier": "every prefix of delegating middlewares, every refusing middleware and every suffix", "why_tests_cant": "the number and behaviour of stages is unbounded", "anchors": ["pkg/codegen/generators/v3/templates/controller.tmpl: wrapMiddlewares", "README.md: Stopping message processing"]}
{"id": "C05", "title": "A failure of the operation is reported", "statement": "If the operation fails, executing the chain reports a failure (so that the error handler and Nak run, or the publisher gets the error).", "quantifier": "every middleware list and every failing operation", "why_tests_cant": "depends on which middleware swallows the result; cannot be enumerated", "anchors": ["pkg/codegen/generators/v3/templates/controller.tmpl: wrapMiddlewares, listenTo...NextMessage, Send", "pkg/extensions/middlewares/recovery.go: Recovery"]}
{"id": "C06", "title": "Every consumed message is settled exactly once", "statement": "Every message taken from a subscription by a generated subscriber is acknowledged or negatively acknowledged exactly once by the time processing of that message is over: acknowledged if the callback succeeded, otherwise handed to the error handler and then negatively acknowledged.", "quantifier": "every message, decoder result, callback behaviour, middleware list and error handler", "why_tests_cant": "needs all combinations of middleware/callback/error-handler behaviours, including panics", "anchors": ["pkg/codegen/generators/v3/templates/controller.tmpl: listenTo...NextMessage 195-249", "pkg/extensions/broker.go: Ack, Nak", "pkg/extensions/middlewares/recovery.go"]}
{"id": "C07", "title": "Cancel returns only after clean-up", "statement": "When cancelling a subscription returns before its context is done, the broker-side clean-up has run and the message stream has been closed.", "quantifier": "every interleaving of the canceller(s), the clean-up goroutine, the broker and the consumer", "why_tests_cant": "the race window is a few instructions wide; tests essentially never hit it", "anchors": ["pkg/extensions/broker.go: BrokerChannelSubscription.Cancel, WaitForCancellationAsync"]}
{"id": "C08", "title": "Clean-up runs at most once and cancelling is safe to repeat", "statement": "Under any number of concurrent or repeated Cancel calls the clean-up function runs at most once and no call crashes the process.", "quantifier": "every number of cancellers and every interleaving", "why_tests_cant": "depends on schedules of several goroutines", "anchors": ["pkg/extensions/broker.go: Cancel, WaitForCancellationAsync"]}
{"id": "C09", "title": "A subscription is a lossless FIFO until cancelled", "statement": "The sequence of messages the consumer receives is always a prefix of the sequence the broker transmitted, the difference is exactly what is still buffered, the buffer never exceeds its capacity, and end-of-stream is reported only after clean-up and only once every buffered message has been delivered.", "quantifier": "every interleaving of transmissions, receptions and cancellation, of any length", "why_tests_cant": "all histories and schedules", "anchors": ["pkg/extensions/broker.go: TransmitReceivedMessage, MessagesChannel, WaitForCancellationAsync", "pkg/extensions/brokers/common.go: BrokerMessagesQueueSize"]}
{"id": "C10", "title": "Transmitting never crashes", "statement": "A broker goroutine that transmits a received message while the user cancels the subscription does not crash the process.", "quantifier": "every interleaving of transmission and cancellation", "why_tests_cant": "race between close and send", "anchors": ["pkg/extensions/broker.go: TransmitReceivedMessage 29-31, WaitForCancellationAsync 50", "pkg/extensions/brokers/kafka/kafka.go: messages handlers", "pkg/extensions/brokers/nats/nats.go: messagesHandler"]}
{"id": "C11", "title": "Version routing", "statement": "With a version wrapper, a message whose version header is v (or, when missing or empty, the configured default version) is delivered to the subscriber of version v on that channel, never to a subscriber of another version or another channel; order per version is preserved.", "quantifier": "every sequence of subscriptions, cancellations and incoming messages, any versions and channels", "why_tests_cant": "unbounded histories and version sets", "anchors": ["pkg/extensions/versioning/wrapper.go: Subscribe", "pkg/extensions/versioning/broker_subscription.go: launchListener, createVersionListener, removeVersionListener"]}
{"id": "C12", "title": "One subscriber per channel and version", "statement": "Subscribing twice to the same channel with the same version is refused with an 'already subscribed' error and changes nothing; a subscription without version is refused and changes nothing; after cancelling, the pair can be subscribed again.", "quantifier": "every reachable state of the wrapper", "why_tests_cant": "all operation histories", "anchors": ["pkg/extensions/versioning/wrapper.go: Subscribe 90-121", "pkg/extensions/versioning/broker_subscription.go: createVersionListener"]}
{"id": "C13", "title": "The wrapper holds a broker subscription exactly while some version needs it", "statement": "The wrapper keeps one underlying broker subscription per channel, existing exactly when at least one version is subscribed to that channel; it is cancelled when the last version leaves.", "quantifier": "every sequence of subscribe and cancel operations with arbitrary broker failures", "why_tests_cant": "all histories, including broker errors", "anchors": ["pkg/extensions/versioning/wrapper.go: Subscribe, createBrokerChannels", "pkg/extensions/versioning/broker_subscription.go: removeVersionListener"]}
{"id": "C14", "title": "The version wrapper never gets stuck", "statement": "Whatever messages arrive and whatever subscriptions and cancellations run concurrently, no operation on the version wrapper blocks forever.", "quantifier": "every interleaving of listener, subscribers and cancellers; every incoming message", "why_tests_cant": "deadlocks depend on schedules and on unexpected message versions", "anchors": ["pkg/extensions/versioning/broker_subscription.go: launchListener 101-117 (missing unlock), removeVersionListener 52-74", "pkg/extensions/versioning/wrapper.go: Subscribe 102-118 (lock order)"]}
{"id": "C15", "title": "Version tagging on publication", "statement": "Publishing through the wrapper with a version in the context sends the same payload and headers plus exactly the configured version header set to that version, so a wrapper receiving it routes it to that version; without version in the context nothing is added.", "quantifier": "every message, header set, header key and version", "why_tests_cant": "all header maps", "anchors": ["pkg/extensions/versioning/wrapper.go: Publish 79-87", "pkg/extensions/context.go: IfContextSetWith"]}
{"id": "C16", "title": "Controller subscriptions behave like a set of addresses", "statement": "For any sequence of subscribe/unsubscribe calls on a controller, a subscribe succeeds exactly when the address is not currently subscribed and the broker accepts, a refused subscribe leaves the broker untouched, each unsubscribe cancels at most one broker subscription, and the broker subscriptions that are alive are exactly one per subscribed address.", "quantifier": "every sequence of operations, arbitrary broker answers", "why_tests_cant": "all histories", "anchors": ["pkg/codegen/generators/v3/templates/controller.tmpl: SubscribeTo 143-193, UnsubscribeFrom 286-311", "pkg/codegen/generators/v2/templates/controller.tmpl: Subscribe, Unsubscribe"]}
{"id": "C17", "title": "Closing a controller releases every subscription", "statement": "After Close (or UnsubscribeFromAllChannels) no broker subscription made through the controller's subscribe operations remains.", "quantifier": "every history of subscriptions before Close, channels with and without parameters", "why_tests_cant": "all histories and all specifications", "anchors": ["pkg/codegen/generators/v3/templates/controller.tmpl: Close 95-102, UnsubscribeFromAllChannels 125-131", "pkg/codegen/generators/v2/templates/controller.tmpl: Close, UnsubscribeAll"]}
{"id": "C18", "title": "Subscribing to all channels is all-or-nothing", "statement": "If SubscribeToAllChannels returns an error, the controller is left with the subscriptions it had before the call; if it succeeds every channel without parameters is subscribed.", "quantifier": "every broker failure point", "why_tests_cant": "a crash point at each channel", "anchors": ["pkg/codegen/generators/v3/templates/controller.tmpl: SubscribeToAllChannels 108-122"]}
{"id": "C19", "title": "A request returns only the matching reply", "statement": "A request on an operation with a correlation ID returns only a reply whose correlation ID (as received from the broker) equals the one that was sent; non-matching replies received before are consumed, acknowledged and dropped, and the first matching decodable reply is the one returned when the middlewares accept it.", "quantifier": "every stream of incoming replies", "why_tests_cant": "unbounded streams of unrelated replies", "anchors": ["pkg/codegen/generators/v3/templates/controller.tmpl: Request 386-456, waitFor...NextResponse 458-526"]}
{"id": "C20", "title": "A request ends when its context ends", "statement": "A request whose context is done, or whose subscription has been closed, eventually returns with an error.", "quantifier": "every stream of replies and every instant at which the context ends", "why_tests_cant": "infinite executions cannot be observed by a test", "anchors": ["pkg/codegen/generators/v3/templates/controller.tmpl: Request loop 442-455, waitFor 475-525", "pkg/codegen/generators/v2/templates/controller.tmpl: WaitFor"]}
{"id": "C21", "title": "A reply carries the correlation ID of the request", "statement": "ReplyTo builds a reply with the correlation ID of the received message, refuses to send a reply without correlation ID, and together with C19 the requester gets it; a sent message without correlation ID gets a fresh non-empty one and a given one is kept.", "quantifier": "every request, reply and identifier", "why_tests_cant": "all identifiers and histories", "anchors": ["pkg/codegen/generators/v3/templates/controller.tmpl: ReplyTo 251-280, Send 340-350", "pkg/codegen/generators/v3/templates/message.tmpl: CorrelationID, SetCorrelationID, SetAsResponseFrom"]}
{"id": "C22", "title": "Scalar payloads survive the wire", "statement": "Encoding a message with an integer payload and decoding the result on the other side gives back the same integer.", "quantifier": "every int32/int64 value", "why_tests_cant": "2^64 values; palindromic byte patterns pass by accident", "anchors": ["pkg/codegen/generators/v3/templates/message.tmpl: brokerMessageTo 75-81, toBrokerMessage 191-199", "pkg/codegen/generators/v2/templates/message.tmpl"]}
{"id": "C23", "title": "String payloads and headers survive the wire", "statement": "Encoding then decoding a message with string payload and (required or optional) string headers gives back the same message.", "quantifier": "every header specification, every header assignment and payload", "why_tests_cant": "all header sets", "anchors": ["pkg/codegen/generators/v3/templates/message.tmpl: brokerMessageTo 107-167, toBrokerMessage 217-271"]}
{"id": "C24", "title": "Broker header conversion is a round trip", "statement": "Headers published through the Kafka, NATS or JetStream controllers arrive as the same key/value map (for NATS-like brokers: one value per key).", "quantifier": "every header map and every iteration order of the map", "why_tests_cant": "Go randomises map iteration; all maps", "anchors": ["pkg/extensions/brokers/kafka/kafka.go: Publish 160-169, handlers 297-301", "pkg/extensions/brokers/nats/nats.go: Publish 88-92, messagesHandler 129-135"]}
{"id": "C25", "title": "Subject matching follows NATS rules", "statement": "A JetStream subscription pattern matches a subject exactly when the NATS token rules say so: '*' matches one non-empty token, a final '>' matches one or more tokens, other tokens match themselves; '>' elsewhere never matches.", "quantifier": "every pattern and subject string", "why_tests_cant": "infinitely many strings", "anchors": ["pkg/extensions/brokers/natsjetstream/natsjetstream.go: MatchSubjectSubscription 354-391"]}
{"id": "C26", "title": "JetStream dispatch", "statement": "An incoming JetStream message is handed to exactly one live subscription whose pattern matches its subject, whatever the map iteration order, and is acknowledged and dropped exactly when no subscription matches.", "quantifier": "every set of subscriptions, subject and map iteration order", "why_tests_cant": "map order is random; all subscription sets", "anchors": ["pkg/extensions/brokers/natsjetstream/natsjetstream.go: ConsumeMessage 324-351"]}
{"id": "C27", "title": "JetStream consumption lifetime", "statement": "The JetStream consumer is running exactly while at least one subscription is alive, also after failed subscribe attempts, and cancelling any subscription never crashes.", "quantifier": "every sequence of subscribe/cancel with arbitrary broker failures", "why_tests_cant": "all histories", "anchors": ["pkg/extensions/brokers/natsjetstream/natsjetstream.go: Subscribe 226-258, ConsumeIfNeeded, StopConsumeIfNeeded"]}
{"id": "C28", "title": "Connection ownership", "statement": "The JetStream controller closes every connection it opened itself exactly once by the end of its life and never closes a connection provided by the user.", "quantifier": "every list of options followed by Close", "why_tests_cant": "all option orders", "anchors": ["pkg/extensions/brokers/natsjetstream/natsjetstream.go: NewController, WithConnection, WithConnectionOpts, setNatsConnection 164-170, Close 291-295", "pkg/extensions/brokers/nats/nats.go: WithConnectionOpts 73-82, Close"]}
{"id": "C29", "title": "Kafka controllers are configured independently", "statement": "The TLS/SASL configuration of a Kafka controller is the one given by its own options, whatever other controllers were created before or after.", "quantifier": "every sequence of controller creations", "why_tests_cant": "process-wide history", "anchors": ["pkg/extensions/brokers/kafka/kafka.go: NewController 48-83, WithTLS 122-126, WithSasl 129-133"]}
{"id": "C30", "title": "Kafka publish retries only on a missing topic", "statement": "Kafka Publish returns success exactly after one successful write, never writes again after a success, retries only after 'unknown topic' and after the topic check succeeded, and otherwise returns the first other error.", "quantifier": "every sequence of broker answers", "why_tests_cant": "unbounded sequences of answers", "anchors": ["pkg/extensions/brokers/kafka/kafka.go: Publish 171-193, checkTopicExistOrCreateIt 236-274"]}
{"id": "C31", "title": "Kafka commits only what was settled", "statement": "In manual-commit mode every committed offset belongs to a message that was transmitted to and settled by the subscriber, at most one commit per message; a failed (Nak'ed) message is not committed.", "quantifier": "every history of fetches and settlements", "why_tests_cant": "all interleavings of settle calls", "anchors": ["pkg/extensions/brokers/kafka/kafka.go: manualCommitMessagesHandler 316-351, BrokerAcknowledgment 358-370"]}
{"id": "C32", "title": "Generated names are valid exported Go identifiers", "statement": "The default naming function returns either the empty string or an identifier made of ASCII letters and digits starting with an upper-case letter, and is idempotent.", "quantifier": "every string, including invalid UTF-8", "why_tests_cant": "all strings", "anchors": ["pkg/utils/template/helpers.go: DefaultNamifier 42-72"]}
{"id": "C33", "title": "Names keep every ASCII letter and digit", "statement": "The generated name is obtained by upper-casing word starts, dropping other characters and leading digits; in particular distinct letters or digits of the input are neither lost, duplicated nor reordered.", "quantifier": "every string", "why_tests_cant": "non-ASCII inputs shift byte offsets; tests only use ASCII", "anchors": ["pkg/utils/template/helpers.go: DefaultNamifier 48-55"]}
{"id": "C34", "title": "Distinct names stay distinct", "statement": "Two different keys of one object, channel list or component list never get the same generated Go identifier.", "quantifier": "every pair of strings", "why_tests_cant": "pairs of arbitrary strings", "anchors": ["pkg/utils/template/helpers.go: DefaultNamifier, NamifyWithoutParams 33-39"]}
{"id": "C35", "title": "Channel addresses are built by substituting parameters", "statement": "The address expression generated for a channel evaluates to the channel address with each {parameter} replaced by the value of that parameter, in order, everything else unchanged.", "quantifier": "every address and parameter values", "why_tests_cant": "all addresses, including ones containing '%' or braces", "anchors": ["pkg/codegen/generators/v3/templates/helpers.go: GenerateChannelAddr 108-128", "pkg/codegen/generators/v2/templates/helpers.go: GenerateChannelPath 108-125"]}
{"id": "C36", "title": "Descriptions stay inside comments", "statement": "A description rendered after '// ' in the generated file never leaves the comment: every line of the result is a comment line, and removing the comment prefixes gives the description back.", "quantifier": "every description string", "why_tests_cant": "all strings", "anchors": ["pkg/utils/template/helpers.go: MultiLineComment 130-133"]}
{"id": "C37", "title": "Merging validations", "statement": "Merging referenced validations into a schema keeps every constraint: a constraint is afterwards present if it was present on either side, the referenced one winning; merging is idempotent and associative.", "quantifier": "every pair/triple of validation sets", "why_tests_cant": "combinatorial in 21 fields and all values", "anchors": ["pkg/asyncapi/schema.go: Validations.Merge 35-99"]}
{"id": "C38", "title": "omitempty decision", "statement": "A generated field has omitempty exactly when x-omitempty says so, defaulting to 'optional'; the JSON key of the generated field is the (converted) property key.", "quantifier": "every property key and validation set", "why_tests_cant": "keys are arbitrary strings", "anchors": ["pkg/codegen/generators/helpers.go: GenerateJSONTags 19-29, shouldAddOmitEmpty 31-37"]}
{"id": "C39", "title": "Validation tags express the schema constraints", "statement": "Reading back the generated validate tag yields exactly one directive for each constraint declared in the schema (required, lengths, bounds, uniqueness, string enum, string const), and nothing else.", "quantifier": "every validation set", "why_tests_cant": "zero-valued bounds and values with separators are corner cases of an infinite domain", "anchors": ["pkg/codegen/generators/helpers.go: GenerateValidateTags 41-75, appendEnumDirectives 82-98"]}
{"id": "C40", "title": "Composition merges properties", "statement": "Merging a schema into another yields an object whose properties are the union of both (own definition winning) including those of the referenced schema, and whose required list is the duplicate-free union.", "quantifier": "every pair of schemas and every map iteration order", "why_tests_cant": "all schemas", "anchors": ["pkg/asyncapi/v3/schema.go: MergeWith 318-336, mergeWithSchemaProperties, mergeWithSchemaReferenceProperties", "pkg/asyncapi/v2/schema.go: same"]}
{"id": "C41", "title": "A merged property is required exactly when it is required in its origin", "statement": "After merging, a property that is required in a merged (anyOf/oneOf/allOf or referenced) schema is required in the result, and none becomes required otherwise.", "quantifier": "every pair of schemas", "why_tests_cant": "all schemas", "anchors": ["pkg/asyncapi/v3/schema.go: MergeWith, mergeWithSchemaReferenceProperties", "pkg/asyncapi/v2/schema.go: same"]}
{"id": "C42", "title": "References resolve or fail cleanly", "statement": "Resolving a $ref returns the designated component when it exists and an error otherwise; it never crashes.", "quantifier": "every specification and reference string", "why_tests_cant": "all strings and specifications", "anchors": ["pkg/asyncapi/v3/specification.go: reference 681-752, getDependencyBasedOnRef 653-678", "pkg/asyncapi/v3/schema.go: referenceFrom", "pkg/asyncapi/v2/specification.go: reference 227-255"]}
{"id": "C43", "title": "Dependency lookup ignores a leading ./", "statement": "A file given as dependency with or without leading './' is found by references written with or without leading './', and only by references naming the same file.", "quantifier": "every path", "why_tests_cant": "all paths", "anchors": ["pkg/asyncapi/v3/specification.go: AddDependency 63-79, getDependencyBasedOnRef", "pkg/asyncapi/v2/specification.go: AddDependency 49-65, getDependencyBasedOnRef 200-225"]}
{"id": "C44", "title": "Following references terminates at the definition", "statement": "Following a chain of references ends at the message/schema that carries the definition, for chains of any length, and terminates on every specification.", "quantifier": "every reference graph, including cyclic ones", "why_tests_cant": "infinite executions; arbitrary graphs", "anchors": ["pkg/asyncapi/v2/message.go: Follow 411-416, MergeWith 322-408", "pkg/asyncapi/v3/message.go: Follow 490-495, MergeWith 401-487", "pkg/asyncapi/v3/schema.go: Follow"]}
{"id": "C45", "title": "Traits never override and always contribute", "statement": "Applying a trait keeps every field the message/operation defines itself and fills those it does not; header traits extend the headers and payload traits extend the payload.", "quantifier": "every message and trait list", "why_tests_cant": "all combinations of set/unset fields", "anchors": ["pkg/asyncapi/v3/message.go: ApplyTrait 500-556, mergeHeaders, mergePayload 578-596", "pkg/asyncapi/v3/operation.go: ApplyTrait 195-235"]}
{"id": "C46", "title": "Application and user sides are dual", "statement": "Every operation received by the generated application is sent by the generated user and vice versa, and each operation expecting a reply gives the responding side an operation to send that reply.", "quantifier": "every specification", "why_tests_cant": "all sets of operations", "anchors": ["pkg/codegen/generators/v3/common.go: NewActionOperations 17-52", "pkg/codegen/generators/v3/controller.go: isController..., shouldControllerRespondToReply", "pkg/codegen/generators/v2/controller.go: isSubscribeChannel, isPublishChannel"]}
{"id": "C47", "title": "Custom imports conflict detection", "statement": "Generation reports an import conflict exactly when two collected schemas give different names to one import path, independently of map iteration order; otherwise every collected path is imported exactly once.", "quantifier": "every specification and iteration order", "why_tests_cant": "random iteration order", "anchors": ["pkg/asyncapi/v3/extensions.go: goTypeImports 40-69, CustomImports 75-101, importsMapToList"]}
{"id": "C48", "title": "Unsupported AsyncAPI versions are rejected", "statement": "Parsing without forced major version succeeds only for documents whose asyncapi field is one of the supported version strings, and selects the v2 or v3 model according to it.", "quantifier": "every document", "why_tests_cant": "all documents", "anchors": ["pkg/asyncapi/parser/parse.go: FromJSON 111-140, versionFromJSON, majorVersionFromJSON", "pkg/asyncapi/versions.go"]}
{"id": "C49", "title": "Generation flags", "statement": "The command line accepts exactly comma-separated lists of application, user and types, and generates exactly the listed parts.", "quantifier": "every flag string", "why_tests_cant": "all strings", "anchors": ["cmd/asyncapi-codegen/config.go: ToCodegenOptions 73-101"]}
{"id": "C50", "title": "Generations are independent", "statement": "The output of a generation depends only on its specification and options, not on generations done earlier in the same process.", "quantifier": "every sequence of Generate calls", "why_tests_cant": "history of arbitrary length", "anchors": ["pkg/codegen/codegen.go: Generate 84-130", "pkg/utils/template/helpers.go: SetConvertKeyFn, SetNamifyFn, DisableDateOrTimeGeneration", "pkg/codegen/generators/v3/templates/helpers.go: ForcePointerOnFields"]}
{"id": "C51", "title": "Structured logs keep the last value of every key", "statement": "Looking up a dotted key in the structured log gives the value of the last entry logged under that key, unless a later entry used a key that is a strict prefix or extension of it.", "quantifier": "every list of log entries", "why_tests_cant": "all key sets", "anchors": ["pkg/extensions/loggers/common.go: insertLogIntoStruct 10-39, structureLogs 41-47"]}
{"id": "C52", "title": "Duplicate removal keeps first occurrences", "statement": "Removing duplicates from a slice (strings, tags, security schemes) yields the elements in order of first occurrence, each key once.", "quantifier": "every slice", "why_tests_cant": "all lists", "anchors": ["pkg/utils/slice.go: RemoveDuplicateFromSlice", "pkg/asyncapi/v3/tag.go: RemoveDuplicateTags", "pkg/asyncapi/v3/security_scheme.go: RemoveDuplicateSecuritySchemes"]}
{"id": "C53", "title": "Additional properties are serialised as valid JSON", "statement": "Marshalling a generated struct with additional properties yields a valid JSON object containing the declared properties and every additional property once.", "quantifier": "every set of declared and additional properties", "why_tests_cant": "all maps", "anchors": ["pkg/codegen/generators/v3/templates/marshaling/additional_properties.tmpl", "pkg/codegen/generators/v2/templates/marshaling/additional_properties.tmpl"]}
{"id": "C54", "title": "A correlation ID location always designates a field", "statement": "After processing, the path given as correlation ID location exists in the headers or payload of the message, existing fields are unchanged, and asking twice changes nothing more.", "quantifier": "every message schema and every location", "why_tests_cant": "all schema trees and paths", "anchors": ["pkg/asyncapi/v3/message.go: createTreeUntilLocation 305-383", "pkg/asyncapi/v2/message.go: 149-304"]}
{"id": "C55", "title": "Field search by name", "statement": "Searching a nested structure for a field answers according to the breadth-first first field of that name and type, and terminates on every finite value.", "quantifier": "every nested value", "why_tests_cant": "all structures", "anchors": ["pkg/utils/reflect.go: FieldValueExists"]}
{"id": "C56", "title": "Replies consumed by a request are settled", "statement": "Every message a request takes from its reply subscription is acknowledged (or not acknowledged) exactly once with the broker.", "quantifier": "every stream of incoming replies, operations with and without correlation ID", "why_tests_cant": "unbounded streams; an unacknowledged reply is only visible later, as a redelivery", "anchors": ["pkg/codegen/generators/v3/templates/controller.tmpl: waitFor...NextResponse 458-526", "pkg/codegen/generators/v2/templates/controller.tmpl: waitFor...NextMessage"]}
{"id": "C57", "title": "A request subscribes before it sends and releases on return", "statement": "A request subscribes to the reply channel before sending, so that no reply can be missed, sends exactly once, and whenever it returns (reply, error or panic) its reply subscription has been cancelled exactly once.", "quantifier": "every broker and middleware behaviour, every stream of replies", "why_tests_cant": "all failure points and reply streams", "anchors": ["pkg/codegen/generators/v3/templates/controller.tmpl: Request 386-456", "pkg/codegen/generators/v2/templates/controller.tmpl: WaitFor"]}
{"id": "C58", "title": "A malformed payload never crashes the receiver", "statement": "Decoding a broker message with an arbitrary payload returns a message or an error; it never panics.", "quantifier": "every payload, of any length", "why_tests_cant": "all byte strings", "anchors": ["pkg/codegen/generators/v3/templates/message.tmpl: brokerMessageTo 75-81", "pkg/codegen/generators/v2/templates/message.tmpl"]}
{"id": "C59", "title": "Object and date headers survive the wire", "statement": "Encoding then decoding a message with object or date headers gives back the same message, provided JSON and RFC3339 round-trip on the values.", "quantifier": "every header specification, assignment and map order", "why_tests_cant": "all header sets", "anchors": ["pkg/codegen/generators/v3/templates/message.tmpl: brokerMessageTo 121-161, toBrokerMessage 230-267"]}
{"id": "C60", "title": "Processing does not depend on map order", "statement": "The processed specification (properties, required lists) is the same whatever order Go iterates over the maps of components and properties.", "quantifier": "every specification and every pair of iteration orders", "why_tests_cant": "Go randomises map order: a test run sees one order per run and passes or fails by chance.", "anchors": ["pkg/asyncapi/v3/components.go: setDependencies 64-78", "pkg/asyncapi/v3/schema.go: setDependencies 172-288, MergeWith 318-336", "pkg/asyncapi/v2/schema.go: same"]}
{"id": "C61", "title": "Generated accessors designate the located field", "statement": "The struct attribute path generated for a location (correlation ID, reply address) is the path of the field that the location designates in the processed schema.", "quantifier": "every location: header or payload, any names, any depth", "why_tests_cant": "Tests use one or two sample locations with simple names; the path is recomputed by a different splitting function than the one that created the field.", "anchors": ["pkg/codegen/generators/v3/templates/helpers.go: referenceToSlicePath, ReferenceToStructAttributePath 49-72", "pkg/codegen/generators/v2/templates/helpers.go: same", "pkg/asyncapi/v3/message.go: downToLocation 352-380"]}
{"id": "C62", "title": "Headers may be given by reference", "statement": "A message whose headers are a $ref to an object schema is read like one whose headers are that object.", "quantifier": "every document and every such message, v2 and v3", "why_tests_cant": "all documents and map orders", "anchors": ["pkg/asyncapi/v3/message.go: generateHeadersMetadata 222-240", "pkg/asyncapi/v2/message.go: 131-150"]}
{"id": "C63", "title": "A message gets the fields of all its alternatives", "statement": "The payload of a message with oneOf alternatives has exactly the fields of the alternatives, written in place or by reference, and reading it leaves the alternatives unchanged.", "quantifier": "every list of alternatives of any length, every map iteration order", "why_tests_cant": "all lists of alternatives and schema graphs", "anchors": ["pkg/asyncapi/v3/message.go: setDependencies 122-163, MergeWith 401-487", "pkg/asyncapi/v2/message.go: 320-408"]}
{"id": "C64", "title": "Applying a trait to a message affects that message only", "statement": "Applying traits to a message changes neither the traits nor any other message.", "quantifier": "every document, every list of traits", "why_tests_cant": "aliasing between arbitrary messages and traits", "anchors": ["pkg/asyncapi/v3/message.go: ApplyTrait 500-556, mergeHeaders 558-576"]}
{"id": "C65", "title": "A dependency of another major version is refused", "statement": "When a specification is read with its dependencies, a dependency that declares another major AsyncAPI version than the specification is refused, and all are read with the version the specification declares.", "quantifier": "every specification, every list of dependencies", "why_tests_cant": "arbitrary lists of documents and declared versions", "anchors": ["pkg/codegen/codegen.go: FromFile 29-54", "pkg/asyncapi/parser/parse.go: FromFile, FromYAML, FromJSON"]}
{"id": "C66", "title": "ECS log lines always carry level, message, time and context", "statement": "Whatever entries the caller logs, the structure printed by the ECS logger says the level, the message, the time and the provider, channel, message and correlation ID of the context.", "quantifier": "every list of entries, every context", "why_tests_cant": "all key sets, including keys that clash with the logger's own", "anchors": ["pkg/extensions/loggers/ecs.go: setInfoFromContext 21-63, logWithLevel 84-91", "pkg/extensions/loggers/common.go: insertLogIntoStruct 10-39, structureLogs 41-47"]}
{"id": "C67", "title": "The library's middlewares are transparent", "statement": "A chain behind the Recovery middleware runs exactly as without it, its error is given back and a panic is turned into a success, so nothing panics; Logging and Intercepter in front of a chain change nothing.", "quantifier": "every chain of middlewares, every operation, every message", "why_tests_cant": "arbitrary middlewares that call next any number of times, change the message or panic", "anchors": ["pkg/extensions/middlewares/recovery.go 12-24", "pkg/extensions/middlewares/logging.go 10-25", "pkg/extensions/middlewares/intercepter.go 10-18", "pkg/codegen/generators/v3/templates/controller.tmpl: wrapMiddlewares 31-78"]}
{"id": "C68", "title": "A field search considers any field of the name", "statement": "As its comment says, FieldValueExists answers true exactly when any field with the given name has the given value.", "quantifier": "every nested value", "why_tests_cant": "all structures; the tests only use flat ones", "anchors": ["pkg/utils/reflect.go: FieldValueExists 5-36"]}
{"id": "C69", "title": "Additional properties survive the round trip", "statement": "Unmarshalling what MarshalJSON writes for a structure with additional properties gives the structure back.", "quantifier": "every schema with additional properties, every value", "why_tests_cant": "all combinations of property types, names and map orders", "anchors": ["pkg/codegen/generators/v3/templates/marshaling/additional_properties.tmpl: MarshalJSON 4-35, UnmarshalJSON 38-69"]}
{"id": "C70", "title": "Every custom import is written", "statement": "Every x-go-type-import found anywhere in a schema of the specification appears among the imports of the generated file.", "quantifier": "every specification", "why_tests_cant": "all shapes of schemas; the tests use properties only", "anchors": ["pkg/asyncapi/v3/extensions.go: goTypeImports 40-69, CustomImports 75-101", "pkg/codegen/generators/v3/templates/schema_name.tmpl", "pkg/asyncapi/v2/extensions.go: CustomImports 75-107"]}
{"id": "C71", "title": "Replies never make the generator panic", "statement": "Processing the operations of a specification never panics on their reply objects, whichever optional fields are present.", "quantifier": "every set of operations", "why_tests_cant": "all shapes of replies; the tests always give the channel in place", "anchors": ["pkg/asyncapi/v3/operation.go: generateReply 170-183", "pkg/asyncapi/v3/operation_reply.go"]}
{"id": "C72", "title": "The message of an operation is determined", "statement": "The message used for an operation, or for its reply, is the one it declares and is the same at every evaluation during a generation.", "quantifier": "every operation, channel and iteration order", "why_tests_cant": "random map iteration", "anchors": ["pkg/asyncapi/v3/operation.go: GetMessage 186-192, generateReply 170-183", "pkg/asyncapi/v3/channel.go: GetMessage 156-161"]}
{"id": "C73", "title": "Every generated type that is used is defined, once", "statement": "Every named Go type used in a generated definition is itself defined in the generated code, and no name is defined twice.", "quantifier": "all component schemas, all nestings, all map orders", "why_tests_cant": "depends on arbitrary nesting of objects, arrays and references", "anchors": ["pkg/codegen/generators/v3/templates/schema_definition.tmpl", "pkg/codegen/generators/v3/templates/schema_name.tmpl", "pkg/codegen/generators/v3/templates/helpers.go:17-41", "pkg/codegen/generators/v3/templates/types.tmpl:83-85"]}
{"id": "C74", "title": "Date types have encoding functions that compile", "statement": "The encoding functions written for a type with a date format compile, and are written for every type defined from time.Time.", "quantifier": "all schemas, with dates enabled or not", "why_tests_cant": "tests only use date formats inside objects", "anchors": ["pkg/codegen/generators/v3/templates/marshaling/time.tmpl", "pkg/codegen/generators/v3/templates/schema_definition.tmpl:36-42", "pkg/utils/template/helpers.go:147-154"]}
{"id": "C75", "title": "Every schema has generated definitions", "statement": "The generation of types succeeds for every schema and every written field or definition has a Go type.", "quantifier": "all schemas of any nesting", "why_tests_cant": "unbounded nesting; arrays without items and null types are valid schemas absent from the tests", "anchors": ["pkg/codegen/generators/v3/templates/schema_name.tmpl", "pkg/codegen/generators/v3/templates/schema_definition.tmpl"]}
{"id": "C76", "title": "No generated type contains itself", "statement": "When the schemas that are referred to have values and names identify schemas, no generated Go type has an infinite layout: recursion always passes through a pointer, a slice or a map.", "quantifier": "all sets of mutually recursive components", "why_tests_cant": "recursion through any number of components and nested objects", "anchors": ["pkg/codegen/generators/v3/templates/helpers.go:130-132", "pkg/codegen/generators/v3/templates/schema_definition.tmpl:11-27"]}
{"id": "C77", "title": "Generated types do not depend on map order", "statement": "Two generations of the same document write the same type definitions in the same order.", "quantifier": "all schemas and all orders of map iteration", "why_tests_cant": "map iteration order is random at run time", "anchors": ["pkg/codegen/generators/v3/templates/helpers.go:17-41", "pkg/utils/map.go:4-10"]}
{"id": "C78", "title": "A component that is a reference encodes like its target", "statement": "When a component schema refers to another one whose type has its own JSON functions, the type of the first has them too.", "quantifier": "all components", "why_tests_cant": "no test has a component that is a reference to a date or to an object with additional properties", "anchors": ["pkg/codegen/generators/v3/templates/schema_definition.tmpl:34-42", "pkg/codegen/generators/v3/templates/schema_name.tmpl:70-81"]}
{"id": "C79", "title": "Generated types have distinct names", "statement": "Every schema and message of a document gets a name that is an exported Go identifier, and no two of them get the same name.", "quantifier": "all documents, with schemas of any nesting, messages with alternatives and channels", "why_tests_cant": "names are built from paths of any length, and collisions need keys that no test combines", "anchors": ["pkg/asyncapi/v3/utils.go:11-29", "pkg/asyncapi/v3/schema.go:170-290", "pkg/asyncapi/v3/message.go:66-110", "pkg/asyncapi/v3/message.go:335-345", "pkg/asyncapi/v3/components.go", "pkg/asyncapi/v3/channel.go"]}
{"id": "C80", "title": "Traits do not duplicate tags and security schemes", "statement": "After the traits are applied, a message or operation has its own tags and security schemes followed by those of its traits whose name it does not have yet.", "quantifier": "all lists of tags and all lists of traits", "why_tests_cant": "any number of traits and tags; the tests only compare lists without metadata", "anchors": ["pkg/asyncapi/v3/tag.go:20-31", "pkg/asyncapi/v3/tag.go:57-75", "pkg/asyncapi/v3/security_scheme.go:54-62", "pkg/asyncapi/v3/message.go:542-544", "pkg/asyncapi/v3/operation.go:216-222", "pkg/asyncapi/v3/message_trait.go:34-58"]}
{"id": "C81", "title": "Component schemas become types defined once", "statement": "After naming and processing, the types generated for the component schemas of a document have different names, whatever the order of maps, and every type they use is defined.", "quantifier": "all documents and all orders of map iteration", "why_tests_cant": "needs the composition of naming, reference resolution, merging and templates on documents of any size; the faulty outcomes depend on map order or on compositions of arrays", "anchors": ["pkg/asyncapi/v3/schema.go:438-469", "pkg/asyncapi/v3/components.go:33-78", "pkg/codegen/generators/v3/templates/helpers.go:17-41", "pkg/codegen/generators/v3/templates/types.tmpl:83-85"]}
{"id": "C82", "title": "Requests made at once each get their own answer", "statement": "Any number of requests made at once to one responder, over a broker that gives each reply to every subscription of the reply channel, all return, each with the responder's answer to the message it sent.", "quantifier": "all numbers of requests, all messages, all interleavings of subscriptions, sendings, answers, deliveries and receptions", "why_tests_cant": "the number of interleavings is unbounded; the tests of the repository make one request at a time", "anchors": ["pkg/codegen/generators/v3/templates/controller.tmpl:254-280", "pkg/codegen/generators/v3/templates/controller.tmpl:386-526", "pkg/extensions/brokers/nats/nats.go:103-127"]}
{"id": "C83", "title": "Requests made at once return also with queue groups", "statement": "The same as C82 when the broker gives each reply to one of the subscriptions: a NATS queue group, a Kafka consumer group, or JetStream, where the subscriptions of a channel share a Go channel.", "quantifier": "all numbers of requests, all messages, all interleavings and all choices of the broker", "why_tests_cant": "the failure needs two requests at once and a choice of the broker that no test controls", "anchors": ["pkg/codegen/generators/v3/templates/controller.tmpl:458-526", "pkg/extensions/brokers/nats/nats.go:112", "pkg/extensions/brokers/kafka/kafka.go:209", "pkg/extensions/brokers/natsjetstream/natsjetstream.go:232-246"]}
{"id": "C84", "title": "Every reference of a document is resolved, or the document is refused", "statement": "When the processing of a document succeeds, every component schema and every schema written inside of one, however deep and in whatever place, is linked with the schema its reference designates; when one of them designates nothing, the processing fails.", "quantifier": "all schema graphs, all orders in which Go lists maps, versions 2 and 3", "why_tests_cant": "a place that is not visited leaves a nil pointer that shows only in documents with a reference exactly there; the examples cover few places and depths", "anchors": ["pkg/asyncapi/v3/schema.go:172-304", "pkg/asyncapi/v2/schema.go:110-300", "pkg/asyncapi/v3/components.go:64-78", "pkg/asyncapi/v3/specification.go:653-752"]}
{"id": "C85", "title": "The generated package declares nothing twice", "statement": "For every document that can be generated, the code generated for version 3 declares no name twice at the top of the package and no method twice on a type.", "quantifier": "all documents, operations, channels, messages, replies and schemas, every Unicode table", "why_tests_cant": "names are made by gluing words before and after the names of the document; whether two of them meet depends on the keys of the document, of which the examples have a few", "anchors": ["pkg/codegen/generators/v3/templates/controller.tmpl:1-527", "pkg/codegen/generators/v3/templates/subscriber.tmpl:1-16", "pkg/codegen/generators/v3/templates/message.tmpl:1-155", "pkg/codegen/generators/v3/templates/types.tmpl:1-100", "pkg/asyncapi/v3/utils.go:11-29"]}
{"id": "C86", "title": "Everything the generated code uses is declared, with the types it is used with", "statement": "For every document that can be generated, every method, function, constant and named type of the package that the code generated for version 3 uses is declared by that code, and calls give the arguments and expect the results of the declaration.", "quantifier": "all sets of operations, channels, messages and replies, all orders in which Go lists maps, every Unicode table", "why_tests_cant": "calls and declarations are written by different parts of the templates under different conditions (reply, parameters, address, correlation ID); the examples compile a few combinations out of all", "anchors": ["pkg/codegen/generators/v3/templates/controller.tmpl:105-527", "pkg/codegen/generators/v3/templates/subscriber.tmpl:1-16", "pkg/codegen/generators/v3/templates/message.tmpl:1-155", "pkg/codegen/generators/v3/templates/types.tmpl:1-100", "pkg/codegen/generators/v3/templates/helpers.go:70-96"]}
{"id": "C87", "title": "Version 2: everything the generated code uses is declared, with the types it is used with", "statement": "For every document of version 2 that can be generated, every method, function, constant and named type of the package that the generated code uses is declared by that code, and calls give the arguments and expect the results of the declaration.", "quantifier": "all sets of channels, operations, messages and schemas, all orders in which Go lists maps, every Unicode table", "why_tests_cant": "calls and declarations are written by different templates from the key or from the name of a channel, from a message or from the one it refers to; no example has parameters, and few have messages of each shape", "anchors": ["pkg/codegen/generators/v2/templates/controller.tmpl:1-439", "pkg/codegen/generators/v2/templates/subscriber.tmpl:1-9", "pkg/codegen/generators/v2/templates/types.tmpl:1-100", "pkg/codegen/generators/v2/templates/helpers.go:76-142"]}
{"id": "C88", "title": "Version 2: both sides of a channel exchange the same message", "statement": "For every channel of a document of version 2, the message type that a side handles when it subscribes is the one that the other side publishes, which is the one that the document gives to the operation.", "quantifier": "all documents, all channels, both sides, every Unicode table", "why_tests_cant": "the message is chosen by a function that looks at which operations a channel has and at a word that the template passes for both sides alike; a test sees one channel of one shape", "anchors": ["pkg/codegen/generators/v2/templates/helpers.go:76-100", "pkg/codegen/generators/v2/templates/controller.tmpl:139-330", "pkg/codegen/generators/v2/templates/subscriber.tmpl:1-9", "test/v2/issues/49/asyncapi.yaml"]}
{"id": "C89", "title": "Version 2: the generated package declares nothing twice", "statement": "For every document of version 2 that can be generated, the generated code declares no name twice at the top of the package and no method twice on a type.", "quantifier": "all documents, channels, operations, messages and schemas, every Unicode table", "why_tests_cant": "names are made by gluing words before and after the names of the document; whether two of them meet depends on the keys of the document, of which the examples have a few", "anchors": ["pkg/codegen/generators/v2/templates/controller.tmpl:1-439", "pkg/codegen/generators/v2/templates/types.tmpl:1-100", "pkg/codegen/generators/v2/templates/message.tmpl:1-100", "pkg/codegen/generators/v2/templates/helpers.go:127-142"]}
{"id": "C90", "title": "The conversion functions of a message compile", "statement": "For every message, the generated functions brokerMessageToX and toBrokerMessage are accepted by the Go compiler: every conversion, assignment and method call is typed and no variable is declared without being used.", "quantifier": "all payloads and headers (type, format, reference, requirement), both versions, all options", "why_tests_cant": "the statements depend on the combination of the type, the format, the reference and the requirement of the payload and of each header; the examples compile a few combinations", "anchors": ["pkg/codegen/generators/v3/templates/message.tmpl:53-277", "pkg/codegen/generators/v2/templates/message.tmpl:44-259", "pkg/codegen/generators/v3/templates/schema_name.tmpl:1-81", "pkg/codegen/generators/v3/templates/helpers.go:130-139"]}
{"id": "C91", "title": "The accessors of locations compile", "statement": "The generated code that reads and writes the field of a location (correlation identifier, reply address) is accepted by the Go compiler: what it assigns and returns agrees with the type of the field and with whether it is a pointer.", "quantifier": "all type definitions, paths, requirements, with and without forced pointers", "why_tests_cant": "whether a field is a pointer and whether the accessor takes an address are decided by two different flags; the combinations with nesting and options are unbounded", "anchors": ["pkg/codegen/generators/v3/templates/message.tmpl:41-51", "pkg/codegen/generators/v3/templates/message.tmpl:279-305", "pkg/codegen/generators/v2/templates/message.tmpl:261-287", "pkg/codegen/generators/v3/templates/controller.tmpl:265-278", "pkg/codegen/generators/v3/templates/helpers.go:130-139"]}
{"id": "C92", "title": "The accessors of locations read what was written and do not crash", "statement": "After SetCorrelationID the identifier is read back and no other field has changed; SetAsResponseFrom gives a response the identifier of its request; NewX gives a message with an identifier; none of them dereferences a nil pointer.", "quantifier": "all type definitions, paths of any length, values of the message, requirements", "why_tests_cant": "paths of any length through optional and mandatory objects, all values of the message", "anchors": ["pkg/codegen/generators/v3/templates/message.tmpl:41-51", "pkg/codegen/generators/v3/templates/message.tmpl:279-305", "pkg/codegen/generators/v2/templates/message.tmpl:32-42", "pkg/codegen/generators/v2/templates/message.tmpl:261-287", "pkg/codegen/generators/v3/templates/controller.tmpl:265-278", "pkg/codegen/generators/v3/templates/controller.tmpl:393-405"]}
{"id": "C93", "title": "Every reference of a processed document is linked to what it designates", "statement": "When the processing of a document and of those it refers to succeeds, every object with a reference is linked to the object of its own kind that the reference designates, and nothing else is linked. The processing succeeds exactly when every reference designates such an object and every reply has a channel and a location that can be found; it crashes only for the listed reasons.", "quantifier": "all documents of any size and depth, with any number of dependency files, all references", "why_tests_cant": "twenty-two kinds of objects, nested to any depth over any number of files; the order of linking matters for locations", "anchors": ["pkg/asyncapi/v3/specification.go:127-175", "pkg/asyncapi/v3/components.go:64-101", "pkg/asyncapi/v3/message.go:113-300", "pkg/asyncapi/v3/operation.go:87-192", "pkg/asyncapi/v3/operation_reply.go:41-72", "pkg/asyncapi/v3/operation_reply_address.go:36-76", "pkg/asyncapi/v3/correlation_id.go:31-47"]}
{"id": "C94", "title": "A message has accessors for its correlation identifier exactly when it declares one", "statement": "The generated message has a correlation identifier exactly when the message it stands for declares one with a location, itself, through a trait, or by reference.", "quantifier": "all documents of any size, all messages", "why_tests_cant": "the identifier may come through a reference to a message, a trait, a reference to a trait, or a reference to an identifier, in several files", "anchors": ["pkg/asyncapi/v3/message.go:490-520", "pkg/asyncapi/v3/message.go:598-601", "pkg/asyncapi/v3/correlation_id.go:50-53"]}
{"id": "C95", "title": "The address of a reply is read as its field is declared", "statement": "When an operation replies at an address that stands in a field of the request, the generated code takes that field for required exactly when the schema that holds it requires it, so that it is read as a value or as a pointer as it is declared, and the field exists.", "quantifier": "every document, operation, message and location: headers or payload, any path, field there already or not, message listed by the operation (as it is or by reference) or taken from the channel, address given as it is or by reference", "why_tests_cant": "Tests use one document with one optional header; the result depends on which of several objects standing for the same message the field is looked for in, and on every way of writing the message, the field and the address.", "anchors": ["pkg/asyncapi/v3/operation_reply_address.go:36-75", "pkg/asyncapi/v3/operation.go:186-192", "pkg/asyncapi/v3/channel.go:156-161", "pkg/codegen/generators/v3/templates/controller.tmpl:265-278", "pkg/codegen/generators/v3/templates/controller.tmpl:393-405"]}
{"id": "C96", "title": "A line of the text logger can be read back", "statement": "The text logger prints the time and the message first, and below them every entry of the caller and of the context once, at the place its key gives it, so that reading by the indentation finds the last value of each key and nothing that was not logged.", "quantifier": "every list of entries (any depth of dotted keys), every context, message and time, every order in which Go walks the maps", "why_tests_cant": "Go's map order is random, the nesting depends on the keys of the caller, and the two keys that make the heading are recognised at every depth; a test sees one order of one log line.", "anchors": ["pkg/extensions/loggers/text.go:43-103", "pkg/extensions/loggers/common.go:10-47", "pkg/extensions/context.go:34-46"]}
{"id": "C97", "title": "A message that is sent comes back as it was", "statement": "For every message whose conversion functions compile: toBrokerMessage neither panics nor fails on a message whose mandatory headers are set, brokerMessageToX never panics, ignores the headers that are not declared and the order of the others, and gives back the message that was converted.", "quantifier": "every message whose functions compile (payload and any number of headers, any mix of types, formats, references, mandatory or not, pointers forced or not), every value of its fields, every broker message, every order of its headers, whatever JSON and RFC 3339 do", "why_tests_cant": "The statements depend on the type, the format, the reference, the list of the parent and the flag of each header and are generated anew for each document; the tests send a few messages, none with an object as optional header.", "anchors": ["pkg/codegen/generators/v3/templates/message.tmpl:53-277", "pkg/codegen/generators/v2/templates/message.tmpl:44-259", "pkg/codegen/generators/v3/helpers.go:130-139"]}
{"id": "C98", "title": "The imports of a generated file are accepted by the compiler", "statement": "For every document, every choice of parts and options: every package that the text of a generated file uses is imported, every import is used, and no name is imported twice.", "quantifier": "every document of version 2 or 3, every set of generated parts, every option", "why_tests_cant": "depends on which templates are reached by the payloads, headers, formats and identifiers of the document; no test generates without formatting", "anchors": ["pkg/codegen/generators/v3/templates/imports.tmpl", "pkg/codegen/generators/v2/templates/imports.tmpl", "pkg/codegen/generators/v3/generator.go: Generate 20-51", "pkg/codegen/codegen.go: Generate 96-113"]}
{"id": "C99", "title": "AsyncAPI documents are read completely", "statement": "Every document that follows the AsyncAPI specification (3.0.0 or 2.6.0) is read, and every field of it arrives in the structures with the value written.", "quantifier": "every JSON document, at every place in it", "why_tests_cant": "there are unboundedly many documents; the tests read a few that use only some of the fields", "anchors": ["pkg/asyncapi/v3/*.go: json tags and types", "pkg/asyncapi/v2/*.go: json tags and types", "pkg/asyncapi/schema.go: Validations 5-32", "pkg/asyncapi/parser/parse.go: FromJSON 111-140"]}
{"id": "C100", "title": "Calls made at once on one controller leave no stray subscription", "statement": "Whatever subscribe and unsubscribe calls are made on one controller by any number of goroutines at once, after they have returned every live subscription of the broker is known to the controller, at most one per address, so that unsubscribing or closing releases it.", "quantifier": "every number of goroutines, every sequence of calls, every interleaving, arbitrary broker answers", "why_tests_cant": "interleavings; the tests call one controller from one goroutine", "anchors": ["pkg/codegen/generators/v3/templates/controller.tmpl: SubscribeTo 143-193, UnsubscribeFrom 286-311", "pkg/codegen/generators/v2/templates/controller.tmpl: Subscribe 137-187, Unsubscribe 248-271"]}
{"id": "C101", "title": "The context a party is given describes the operation it takes part in", "statement": "Whatever context a controller is called with, every middleware, handler, error handler, logger and broker involved in an operation finds in its context the version, controller, address, direction, message and correlation identifier of that operation, and nothing of another one.", "quantifier": "every context of the caller, every chain of middlewares that keep the keys of the library, every message, operation and sequence of replies", "why_tests_cant": "contexts are passed on from handlers to publications in any combination; tests check single values for a single operation started from a fresh context", "anchors": ["pkg/extensions/context.go", "pkg/codegen/generators/v3/templates/controller.tmpl 80-92, 143-527", "pkg/codegen/generators/v2/templates/controller.tmpl 80-92, 138-436", "pkg/extensions/middlewares/logging.go", "pkg/extensions/versioning/wrapper.go 78-113", "pkg/extensions/versioning/broker_subscription.go 76-124"]}
{"id": "C102", "title": "Version 2: a document is processed exactly when its references, locations and headers are good, and the code generated after it is complete", "statement": "Process of a version 2 specification (with the files it depends on) succeeds exactly when every reference of a message or parameter leads to a component, the reference of an operation's message has at least three slashes, every correlation location in header or payload has a path, headers are objects, and schemas link and alternatives merge. After it every message and parameter is linked to what its reference designates (and to nothing else), every message has the location of its own correlation identifier or of the message it refers to, messages are named after component key or channel, following terminates when references do not lead back, and, for plain documents, everything the generated package uses is declared.", "quantifier": "every document (any channels, operations, messages with nested alternatives, components, files it depends on), every outcome of linking schemas and merging, any Unicode tables", "why_tests_cant": "The repository's tests run one document per issue; which documents are accepted, and that links, places and names are right for all of them, ranges over arbitrary trees of files, messages and references.", "anchors": ["pkg/asyncapi/v2/specification.go:68-110", "pkg/asyncapi/v2/message.go:57-223", "pkg/asyncapi/v2/operation.go:24-43", "pkg/asyncapi/v2/channel.go:23-81", "pkg/asyncapi/v2/components.go:17-64", "pkg/asyncapi/v2/parameter.go:22-40", "pkg/codegen/generators/v2/templates/types.tmpl:59-100"]}
{"id": "C103", "title": "What a schema admits, the generated type reads, and what is written comes back", "statement": "For the Go types generated from the schemas of a document, with the rules of encoding/json and the generated functions for additional properties and times: a type reads exactly the JSON that fits in it; every JSON that a schema admits (with integers of the size of their format and undeclared keys that differ from declared ones not only by case) is read by its type, each property arriving in its field, optional ones behind pointers, and the undeclared members as additional properties; every value without pointers to nil, omitted empty slices or clashing additional keys is written and read back the same; and what is written for a value with nothing nil but what is omitted is admitted by the schema.", "quantifier": "every set of schemas and type definitions without recursion through values, every JSON value and every value of the types, of any depth; any float, date and time parsing", "why_tests_cant": "The repository's tests round-trip a handful of fixed messages; agreement between a schema and the encoding of its type ranges over all schemas, all JSON and all values, with nesting, references, pointers and additional properties combined.", "anchors": ["pkg/codegen/generators/v3/templates/schema_definition.tmpl:11-42", "pkg/codegen/generators/v3/templates/schema_name.tmpl:1-81", "pkg/codegen/generators/v3/templates/marshaling/additional_properties.tmpl:1-70", "pkg/codegen/generators/v3/templates/marshaling/time.tmpl:1-25", "pkg/codegen/generators/helpers.go:19-37", "pkg/codegen/generators/v3/templates/helpers.go:130-139"]}
{"id": "C104", "title": "Version 3: from the processed document to code that is complete and declares nothing twice", "statement": "After Process of a version 3 document whose keys are in ASCII, every channel, operation and message of the document, its components and the files it depends on is named after its key (messages of a channel after their channel, too); types are made exactly for the messages written (not referred to) in its channels and components; each operation reaches the templates under its key with its action, its channel and the message it is about (the first one it lists, followed once, or the only one of its channel, followed twice). If every operation is on a channel written in the document and about a written message, and answered operations are answered on a written channel of their own, then for every order in which Go visits the messages the code is generated, everything it uses is declared with the same types, and, when names can be told apart, nothing is declared twice. That references leading to a channel and a message are enough is false in four ways that AsyncAPI allows.", "quantifier": "all documents of version 3 with any number of channels, operations, components, messages, references and files; all orders of visiting maps", "why_tests_cant": "Tests generate code for some documents; which of all documents, with any chains of references, give code that compiles is a statement about the linking, naming and the templates together.", "anchors": ["pkg/asyncapi/v3/specification.go:84-124", "pkg/asyncapi/v3/message.go:66-73", "pkg/asyncapi/v3/channel.go:45-58", "pkg/asyncapi/v3/operation.go:170-192", "pkg/codegen/generators/v3/templates/types.tmpl:57-100", "pkg/codegen/generators/v3/templates/helpers.go:72-96"]}
{"id": "C105", "title": "The text of a broker message tells the message; reception ends exactly when the channel is closed and empty", "statement": "BrokerMessage.String determines headers (as a map) and payload, for all strings including those that are not UTF-8 and whatever the order in which the map is gone through; when the payload is JSON the text is JSON exactly if all headers are strings that %q writes as JSON. A message has more than one text when it has more than one header, nil and empty look the same, and with a payload that is not JSON the text is not JSON (refuted). IsUninitialized holds of the zero value only; a generated subscriber stops exactly when the channel is closed and empty and handles everything that was in it, in order.", "quantifier": "all headers and payloads (any code points and invalid bytes), all iteration orders, all channel contents", "why_tests_cant": "That quoting makes the text unambiguous is a statement about all pairs of messages; tests compare a few.", "anchors": ["pkg/extensions/broker.go:72-96", "pkg/codegen/generators/v3/templates/controller.tmpl:206-213", "pkg/codegen/generators/v2/templates/controller.tmpl:200-207"]}
{"id": "C106", "title": "What is written as JSON is read as it was, if it is UTF-8 and not nested too deep", "statement": "The text that json.Marshal writes for a value (escapes, HTML characters, U+2028/2029, integers, fractions, arrays, objects) is read by json.Unmarshal as the same value exactly when all strings and keys are well-formed UTF-8 and the value is nested at most 10000 deep. Otherwise: every byte that is none of a character is read as U+FFFD, and what is deeper is not read at all although it was written. Two values of well-formed strings never have the same text; that is false of other strings (refuted).", "quantifier": "all JSON values whose fractions are decimal literals, of any size, depth and content", "why_tests_cant": "The claim is about all texts and all byte strings; tests use ASCII and two levels of nesting.", "anchors": ["pkg/codegen/generators/v3/templates/message.tmpl:91", "pkg/codegen/generators/v3/templates/message.tmpl:187", "pkg/codegen/generators/v2/templates/message.tmpl:82", "pkg/codegen/generators/v2/templates/message.tmpl:170"]}
{"id": "C107", "title": "What is sent is what arrives", "statement": "For every message whose payload is an object or an array and whose generated conversion functions compile: if the payload and the object headers are values of their generated types that JSON can tell apart (no pointer to nil, no omitted empty slice, no additional property that is a declared one up to case; UTF-8; not nested too deep), the mandatory headers are set, object headers are mandatory and times are those RFC 3339 can write, then toBrokerMessage gives a broker message whose payload is the JSON text of the value, and brokerMessageToX gives the same message back, whatever the order of the headers. Without the conditions it is false (refuted by a string that is not UTF-8).", "quantifier": "all type definitions that compile, all messages, all values of their types, all orders of headers", "why_tests_cant": "It composes the statements of the templates, the tags of the generated types and the text of JSON for all documents and values; tests send a handful of messages.", "anchors": ["pkg/codegen/generators/v3/templates/message.tmpl:53-277", "pkg/codegen/generators/v2/templates/message.tmpl:44-259", "pkg/codegen/generators/v3/templates/schema_definition.tmpl:11-42", "pkg/codegen/generators/v3/templates/marshaling/additional_properties.tmpl"]}
{"id": "C108", "title": "Headers over NATS arrive as they were sent", "statement": "For every set of headers of a broker message that the NATS or JetStream controller publishes, the headers with which the message arrives are the same. Where that is not so: exactly the headers whose names are tokens (RFC 7230) arrive, each newline in a value being a space and the white space at the ends of the value being gone; so the headers arrive unchanged exactly when all names are tokens and all values are lines without white space at their ends. JSON objects in headers are such values.", "quantifier": "all header maps, all orders in which maps are walked", "why_tests_cant": "Headers are arbitrary byte strings with arbitrary names; tests use a few short identifiers.", "anchors": ["pkg/extensions/brokers/nats/nats.go:84-146", "pkg/extensions/brokers/natsjetstream/natsjetstream.go:207-290"]}
{"id": "C109", "title": "A typed message arrives the same through the version wrapper and every broker", "statement": "For every message declaration whose conversion functions compile, every sendable message (C107), every broker (Kafka, NATS, JetStream) and every version with which it is published: the message is converted, tagged, carried and converted back to the same message, and the receiving wrapper finds the version it was published with - provided that the message declares no header with the name of the version header and that, over NATS, header names are tokens and string headers are lines without white space at their ends.", "quantifier": "all type environments, messages, brokers, versions and header orders", "why_tests_cant": "It composes six layers (generated conversion, JSON, text, version tagging, header encoding, transport), each with infinite inputs; integration tests check a handful of messages.", "anchors": ["pkg/codegen/generators/v3/templates/message.tmpl:53-277", "pkg/extensions/versioning/wrapper.go:79-87", "pkg/extensions/brokers/nats/nats.go:84-146", "pkg/extensions/brokers/kafka/kafka.go:159-169"]}
{"id": "C110", "title": "Typed requests return with the answer of the application", "statement": "A request made with a message of a generated type, through the version wrapper and a broker, returns with the message of the generated reply type that the application answered to it: the application is given a message with the fields of the request, and the requester one with the fields of the answer and the identifier of its request, however many requests are made at once and however they interleave. Nobody waits forever.", "quantifier": "every pair of message types with a correlation identifier in a header, every sendable message, every answering function, every schedule of any number of requests, Kafka and NATS, every version tag", "why_tests_cant": "unbounded schedules, messages and types", "anchors": ["pkg/codegen/generators/v3/templates/controller.tmpl: 254-280, 323-372, 386-526", "pkg/codegen/generators/v3/templates/message.tmpl: 41-51, 54-305", "pkg/extensions/versioning/wrapper.go: 79-87", "pkg/extensions/brokers/kafka/kafka.go", "pkg/extensions/brokers/nats/nats.go"]}
{"id": "C111", "title": "The generated controllers have exactly the methods that the document calls for", "statement": "For every document that can be generated, the methods that programs can call on the controller of a side are exactly these, with these types of arguments and results: to subscribe to and unsubscribe from each thing that the side receives, to publish or send each thing that it sends, to answer and to request what is answered (version 3), to wait for the answers that can be correlated (version 2, user), to subscribe to and unsubscribe from all together when the side receives something, and to close. The methods that a program has to write are exactly the handlers of what its side receives, each given the message of the document.", "quantifier": "all documents of version 2 and 3 that can be generated (version 3: whose messages are determined), both sides, all names, all types, every Unicode table, every order of iteration", "why_tests_cant": "a test calls the methods it knows on the documents it has; that no other method is there, and that none is missing for any document, is about all documents and all names", "anchors": ["pkg/codegen/generators/v2/templates/controller.tmpl:104-439", "pkg/codegen/generators/v2/templates/subscriber.tmpl:1-9", "pkg/codegen/generators/v3/templates/controller.tmpl:105-527", "pkg/codegen/generators/v3/templates/subscriber.tmpl:1-9", "pkg/codegen/generators/v3/common.go:17-52"]}
{"id": "C112", "title": "The command succeeds exactly when everything did, and otherwise leaves the files as they were", "statement": "A run of the command succeeds exactly when its flags exist and have values of their kind, every input can be read and is a document of the version of the first, the options are accepted, the code is generated and formatted, and the output can be written; the output then has exactly that text (the last value of each flag counts, inputs accumulate). A run that does not succeed leaves every file as it was; in no case does anything but the output change; and it always ends with success or an error message.", "quantifier": "all sequences of flags and values, all contents of files, all generators and formatters, all ways writing can fail", "why_tests_cant": "the failures are at every step of the run and of every file, and combinations of flags are without bound", "anchors": ["cmd/asyncapi-codegen/main.go:12-47", "cmd/asyncapi-codegen/config.go:17-101", "pkg/codegen/codegen.go:29-54", "pkg/codegen/codegen.go:84-124"]}
{"id": "C113", "title": "The texts of a document stand in the string literals of the generated code as they are", "statement": "For every document, the string literal that the generated code has for its version, for the address of a channel, for the name of a header and for the tags of a field is read by the Go compiler as the text of the document, and around it stands what the templates say; in particular the constant of a channel is the address that the code subscribes to.", "quantifier": "all texts: all code points, bytes that are not UTF-8, any length, and every table of printable characters", "why_tests_cant": "which characters break a literal, and how, is about all texts; generated code of the tests has plain names only", "anchors": ["pkg/codegen/generators/v3/templates/types.tmpl:2", "pkg/codegen/generators/v3/templates/types.tmpl:87-93", "pkg/codegen/generators/v3/templates/controller.tmpl:89", "pkg/codegen/generators/v3/templates/message.tmpl:121", "pkg/codegen/generators/v3/templates/message.tmpl:246-263", "pkg/codegen/generators/v3/templates/schema_definition.tmpl:18", "pkg/codegen/generators/v3/templates/helpers.go:108-115", "pkg/codegen/generators/v2/templates/helpers.go:105-112"]}
{"id": "C114", "title": "Doing it again changes nothing", "statement": "Generating twice from one CodeGen, which processes its specification twice, gives the same schemas and messages as generating once: merging the parts of a schema again, and applying the traits of a message or of an operation again, changes nothing.", "quantifier": "for all schema graphs, all numbers of merged schemas and traits, and all map orders", "why_tests_cant": "The tests generate each file once from a fresh CodeGen; the result of a second pass depends on what the first pass left in shared schemas, for graphs of any shape.", "anchors": ["pkg/codegen/codegen.go:84-124", "pkg/asyncapi/v3/schema.go:318-469", "pkg/asyncapi/v3/message.go:500-596", "pkg/asyncapi/v3/operation.go:195-235"]}
{"id": "C115", "title": "Which empty entries of a document crash the generator", "statement": "The walks over a document whose maps and lists may have null entries (in YAML, a key with nothing after it) panic exactly if: in version 2 (metadata), the null is a channel, parameter, component schema, component message, property or alternative that is reached, or a message reference has less than three slashes, or a correlation identifier location has no path; in version 3, the null is a property that a location goes through, or the location has no path (metadata), the null is a trait or an alternative (dependencies), a component schema or message or a property of one (imports, for any generation), or an operation (application or user). Null values of the other keys do not make these walks panic, and neither do null entries elsewhere.", "quantifier": "for all JSON documents that fit the structures and have no duplicate keys, of any size and depth", "why_tests_cant": "The tests give complete documents; a null can be at any of unboundedly many places of a document, and whether it crashes depends on the path of keys that leads to it.", "anchors": ["pkg/asyncapi/v2/specification.go:76-91", "pkg/asyncapi/v2/channel.go:22-55", "pkg/asyncapi/v2/operation.go:25-38", "pkg/asyncapi/v2/message.go:58-306", "pkg/asyncapi/v2/components.go:16-38", "pkg/asyncapi/v2/schema.go:63-291", "pkg/asyncapi/v3/message.go:66-380", "pkg/asyncapi/v3/schema.go:171-290", "pkg/asyncapi/v3/extensions.go:37-102", "pkg/asyncapi/v3/specification.go:84-195"]}
{"id": "C116", "title": "Dates and times arrive as they were sent", "statement": "A time or a date that is sent as a payload, as a header or inside an object is the one that arrives: every time.Time that Format(time.RFC3339) writes is read back by time.Parse(time.RFC3339, ...) as the same instant, and every RFC 3339 text of another producer is read as the instant it denotes.", "quantifier": "every instant, zone offset and calendar date, every text", "why_tests_cant": "unbounded instants; parts of a second, years beyond 9999, leap days of centuries and zones with odd offsets are rarely sampled", "anchors": ["pkg/codegen/generators/v3/templates/message.tmpl:67,129,149,211,248,261", "pkg/codegen/generators/v2/templates/message.tmpl:58,120,136,194,230,243", "pkg/codegen/generators/v3/templates/schema_name.tmpl:19-22"]}
{"id": "C117", "title": "Every JSON text of another producer is read as the value it denotes", "statement": "json.Unmarshal, as the generated code calls it on payloads, reads exactly the texts of RFC 8259 in UTF-8, whatever their white space, escapes and forms of numbers, each as the one value it denotes; and what json.Marshal writes is such a text.", "quantifier": "all byte strings and all JSON values, of any size and depth", "why_tests_cant": "Tests read back what the same program wrote: one spelling of each value; the texts of other producers are unbounded.", "anchors": ["pkg/codegen/generators/v3/templates/message.tmpl:144", "pkg/codegen/generators/v3/templates/message.tmpl:187", "pkg/codegen/generators/v3/templates/message.tmpl:255", "pkg/codegen/generators/v2/templates/message.tmpl:131", "pkg/codegen/generators/v2/templates/message.tmpl:170"]}
{"id": "C118", "title": "A producer that follows the document is understood", "statement": "Every broker message whose payload and headers are written as the schemas of the document say, objects and arrays as JSON (RFC 8259) and times as RFC 3339, by any program, is read without an error, and the application is given the message that these texts denote, whatever headers come besides.", "quantifier": "all documents, all messages whose conversions compile, all texts of JSON and RFC 3339, all lists of headers", "why_tests_cant": "Tests decode what the generated encoder wrote; the messages of other programs are unbounded in spelling, size and depth.", "anchors": ["pkg/codegen/generators/v3/templates/message.tmpl:50-160", "pkg/codegen/generators/v2/templates/message.tmpl:45-145"]}
{"id": "C119", "title": "A listener handles every message of its subscription", "statement": "The goroutine started by SubscribeTo… handles the messages of its subscription one after the other, in order, each as if it were the only one, messages without headers and payload included; it ends exactly when the subscription is closed and all its messages were handled, and only a panic keeps the rest from being handled.", "quantifier": "all sequences of messages of any length, all middlewares, decoders, callbacks and error handlers", "why_tests_cant": "Tests send a few non-empty messages; the positions of failures among unboundedly many messages cannot be enumerated.", "anchors": ["pkg/codegen/generators/v3/templates/controller.tmpl:173-186", "pkg/codegen/generators/v3/templates/controller.tmpl:195-249", "pkg/codegen/generators/v2/templates/controller.tmpl:167-180"]}
{"id": "C120", "title": "Documentation comments name messages and channels without their suffix", "statement": "CutSuffix takes the given suffix off a name, together with the '_' before it if there is one, and leaves every other name as it is.", "quantifier": "all names and all non-empty suffixes; all documents for the names of types", "why_tests_cant": "Tests try a few names; the suffix may be repeated, joined with '_' or be the whole name in unboundedly many ways.", "anchors": ["pkg/utils/template/helpers.go:141-145", "pkg/codegen/generators/v3/templates/controller.tmpl:135", "pkg/codegen/generators/v3/templates/subscriber.tmpl:5"]}
{"id": "C121", "title": "Kafka: a restarted subscriber goes on with the first message that was not settled", "statement": "After any number of starts of a Kafka subscriber of a group, every message in front of the place where the next one starts was settled, and no acknowledged message is handled again.", "quantifier": "all topics, all callbacks, error handlers and middlewares, all numbers of messages read and handled in each life of the program, panics included", "why_tests_cant": "Tests do not kill the program between two messages, let alone in every place and any number of times.", "anchors": ["pkg/extensions/brokers/kafka/kafka.go:196-234", "pkg/extensions/brokers/kafka/kafka.go:282-352", "pkg/extensions/brokers/kafka/kafka.go:363-373", "pkg/codegen/generators/v3/templates/controller.tmpl:173-249"]}
{"id": "C122", "title": "JetStream: a message is given again until its callback succeeded, and not afterwards", "statement": "A message of a JetStream stream is acknowledged only once its callback succeeded or the error handler acknowledged it; until then it is handled whenever it is given, and afterwards never again.", "quantifier": "all streams, all sequences of subscriptions, cancellations, deliveries and restarts, all middlewares, error handlers and callbacks (a different one for each delivery)", "why_tests_cant": "The order of subscriptions, deliveries and restarts is unbounded, and the moment between two subscriptions is not tested.", "anchors": ["pkg/extensions/brokers/natsjetstream/natsjetstream.go:226-288", "pkg/extensions/brokers/natsjetstream/natsjetstream.go:324-350", "pkg/codegen/generators/v3/templates/controller.tmpl:108-122"]}
