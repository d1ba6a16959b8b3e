-Q theories Verif
theories/Model/Ack.v
theories/Model/Middleware.v
theories/Model/Listener.v
theories/Spec/MiddlewareSpec.v
theories/Proof/AckProof.v
theories/Proof/MiddlewareProof.v
theories/Spec/ListenerSpec.v
theories/Proof/ListenerProof.v
theories/Properties/C01_C06_Middleware.v
theories/Model/SubMachine.v
theories/Proof/SubMachineProof.v
theories/Properties/C07_C10_Subscription.v
theories/Model/BrokerMessage.v
theories/Model/Versioning.v
theories/Spec/VersioningSpec.v
theories/Proof/VersioningProof.v
theories/Model/VersioningLocks.v
theories/Proof/VersioningLocksProof.v
theories/Properties/C11_C15_Versioning.v
theories/Model/Controller.v
theories/Spec/ControllerSpec.v
theories/Proof/ControllerProof.v
theories/Model/Request.v
theories/Spec/RequestSpec.v
theories/Proof/RequestProof.v
theories/Properties/C16_C18_Controller.v
theories/Properties/C19_C21_Request.v
theories/Model/Codec.v
theories/Spec/CodecSpec.v
theories/Proof/CodecProof.v
theories/Properties/C22_C24_Codec.v
theories/Model/JetStream.v
theories/Spec/JetStreamSpec.v
theories/Proof/JetStreamProof.v
theories/Proof/JetStreamExactProof.v
theories/Properties/C25_C28_JetStream.v
theories/Model/Kafka.v
theories/Spec/KafkaSpec.v
theories/Proof/KafkaProof.v
theories/Properties/C29_C31_Kafka.v
theories/Model/Naming.v
theories/Model/Address.v
theories/Spec/NamingSpec.v
theories/Proof/NamingProof.v
theories/Properties/C32_C36_Naming.v
theories/Model/Validations.v
theories/Spec/ValidationsSpec.v
theories/Proof/ValidationsProof.v
theories/Properties/C37_C39_Validations.v
theories/Model/GoStrings.v
theories/Model/Reference.v
theories/Spec/ReferenceSpec.v
theories/Proof/GoStringsProof.v
theories/Proof/ReferenceProof.v
theories/Properties/C42_C43_Reference.v
theories/Model/Slices.v
theories/Spec/SlicesSpec.v
theories/Proof/SlicesProof.v
theories/Model/Schema.v
theories/Spec/SchemaSpec.v
theories/Proof/SchemaProof.v
theories/Properties/C40_C41_Schema.v
theories/Properties/C52_Slices.v
theories/Model/Location.v
theories/Spec/LocationSpec.v
theories/Proof/LocationProof.v
theories/Properties/C54_Location.v
theories/Model/Message.v
theories/Spec/MergeSpec.v
theories/Spec/MessageSpec.v
theories/Proof/MergeProof.v
theories/Spec/CopySpec.v
theories/Proof/CopyProof.v
theories/Proof/MessageProof.v
theories/Properties/C44_C45_Message.v
theories/Model/Parser.v
theories/Spec/ParserSpec.v
theories/Proof/ParserProof.v
theories/Properties/C48_Parser.v
theories/Model/Options.v
theories/Spec/OptionsSpec.v
theories/Proof/OptionsProof.v
theories/Properties/C49_C50_Options.v
theories/Model/Logs.v
theories/Spec/LogsSpec.v
theories/Proof/LogsProof.v
theories/Properties/C51_Logs.v
theories/Proof/RecoveryProof.v
theories/Properties/C67_Recovery.v
theories/Model/Reflect.v
theories/Spec/ReflectSpec.v
theories/Proof/ReflectProof.v
theories/Properties/C55_Reflect.v
theories/Model/Additional.v
theories/Spec/JsonSpec.v
theories/Proof/AdditionalProof.v
theories/Properties/C53_Additional.v
theories/Model/AdditionalDecode.v
theories/Proof/AdditionalDecodeProof.v
theories/Properties/C69_AdditionalDecode.v
theories/Model/Imports.v
theories/Spec/ImportsSpec.v
theories/Proof/ImportsProof.v
theories/Properties/C47_Imports.v
theories/Model/Operations.v
theories/Spec/OperationsSpec.v
theories/Proof/OperationsProof.v
theories/Properties/C46_Operations.v
theories/Model/Types.v
theories/Spec/TypesSpec.v
theories/Proof/TypesProof.v
theories/Properties/C73_Types.v
theories/Model/Names.v
theories/Spec/NamesSpec.v
theories/Proof/NamesProof.v
theories/Properties/C79_Names.v
theories/Model/Labels.v
theories/Spec/LabelsSpec.v
theories/Proof/LabelsProof.v
theories/Properties/C80_Labels.v
theories/Model/Pipeline.v
theories/Spec/PipelineSpec.v
theories/Proof/PipelineProof.v
theories/Properties/C81_Pipeline.v
theories/Model/System.v
theories/Spec/SystemSpec.v
theories/Proof/SystemProof.v
theories/Properties/C82_System.v
theories/Spec/ProcessSpec.v
theories/Proof/ProcessProof.v
theories/Proof/ProcessEndProof.v
theories/Properties/C84_Process.v
theories/Proof/OrderProof.v
theories/Proof/AgainProof.v
theories/Properties/C60_Order.v
theories/Properties/C114_Process.v
theories/Model/Package.v
theories/Spec/PackageSpec.v
theories/Proof/PackageProof.v
theories/Properties/C86_Package.v
theories/Proof/PackageOnceProof.v
theories/Properties/C85_Package.v
theories/Model/Package2.v
theories/Spec/Package2Spec.v
theories/Spec/OfferedSpec.v
theories/Proof/Package2Proof.v
theories/Proof/Package2OnceProof.v
theories/Proof/OfferedProof.v
theories/Properties/C87_Package2.v
theories/Model/Conversion.v
theories/Spec/ConversionSpec.v
theories/Proof/ConversionProof.v
theories/Properties/C90_Conversion.v
theories/Model/Accessors.v
theories/Spec/AccessorsSpec.v
theories/Proof/AccessorsProof.v
theories/Properties/C91_Accessors.v
theories/Model/Linking.v
theories/Spec/LinkingSpec.v
theories/Proof/LinkingProof.v
theories/Proof/LinkingCheck.v
theories/Properties/C93_Linking.v
theories/Proof/LaterProof.v
theories/Properties/C54_Later.v
theories/Model/ReplyAddress.v
theories/Spec/ReplyAddressSpec.v
theories/Proof/ReplyAddressProof.v
theories/Properties/C95_ReplyAddress.v
theories/Model/TextLog.v
theories/Spec/TextLogSpec.v
theories/Proof/TextLogProof.v
theories/Properties/C96_TextLog.v
theories/Spec/GoRun.v
theories/Spec/SurviveSpec.v
theories/Proof/GoRunProof.v
theories/Properties/C97_Survive.v
theories/Model/FileImports.v
theories/Spec/FileImportsSpec.v
theories/Proof/FileImportsProof.v
theories/Properties/C98_FileImports.v
theories/Model/Decoding.v
theories/Spec/DecodingSpec.v
theories/Proof/DecodingProof.v
theories/Properties/C99_Decoding.v
theories/Model/Concurrent.v
theories/Spec/ConcurrentSpec.v
theories/Proof/ConcurrentProof.v
theories/Properties/C100_Concurrent.v
theories/Model/Contexts.v
theories/Model/Document2.v
theories/Spec/ContextsSpec.v
theories/Spec/Document2Spec.v
theories/Proof/ContextsProof.v
theories/Proof/Document2Proof.v
theories/Proof/Document2ServedProof.v
theories/Properties/C101_Contexts.v
theories/Properties/C102_Document2.v
theories/Model/Wire.v
theories/Spec/WireSpec.v
theories/Proof/WireProof.v
theories/Properties/C103_Wire.v
theories/Model/Document3.v
theories/Spec/Document3Spec.v
theories/Proof/Document3Proof.v
theories/Proof/Document3Check.v
theories/Properties/C104_Document3.v
theories/Model/Show.v
theories/Spec/ShowSpec.v
theories/Proof/ShowProof.v
theories/Properties/C105_Show.v
theories/Model/JsonText.v
theories/Spec/JsonTextSpec.v
theories/Proof/JsonTextProof.v
theories/Properties/C106_Text.v
theories/Model/Typed.v
theories/Spec/TypedSpec.v
theories/Properties/C107_Typed.v
theories/Model/Transport.v
theories/Spec/TransportSpec.v
theories/Spec/WaySpec.v
theories/Proof/TransportProof.v
theories/Proof/PrintProof.v
theories/Model/TypedRequest.v
theories/Spec/TypedRequestSpec.v
theories/Properties/C108_Transport.v
theories/Properties/C110_TypedRequests.v
theories/Properties/C111_Offered.v
theories/Model/Command.v
theories/Spec/CommandSpec.v
theories/Proof/CommandProof.v
theories/Properties/C112_Command.v
theories/Model/Literals.v
theories/Spec/LiteralSpec.v
theories/Proof/LiteralProof.v
theories/Properties/C113_Literals.v
theories/Proof/TwiceProof.v
theories/Properties/C114_Twice.v
theories/Model/Nulls.v
theories/Spec/NullsSpec.v
theories/Proof/NullsProof.v
theories/Properties/C115_Nulls.v
theories/Model/Dates.v
theories/Spec/DatesSpec.v
theories/Proof/DatesProof.v
theories/Proof/DateTextProof.v
theories/Proof/TimeTextProof.v
theories/Properties/C116_Dates.v
theories/Spec/JsonGrammar.v
theories/Proof/GrammarProof.v
theories/Proof/GrammarValueProof.v
theories/Proof/GrammarWrittenProof.v
theories/Properties/C117_Grammar.v
theories/Spec/ForeignSpec.v
theories/Properties/C118_Foreign.v
theories/Properties/C119_Listening.v
theories/Model/Suffix.v
theories/Spec/SuffixSpec.v
theories/Proof/SuffixProof.v
theories/Properties/C120_Suffix.v
theories/Model/Redelivery.v
theories/Proof/RedeliveryProof.v
theories/Properties/C121_Redelivery.v
theories/Model/Durable.v
theories/Spec/DurableSpec.v
theories/Proof/DurableProof.v
theories/Properties/C122_Durable.v
