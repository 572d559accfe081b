-Q theories Verif
theories/GoBase.v
theories/Binary.v
theories/Utf8.v
theories/Encoder.v
theories/Decoder.v
theories/Sizeof.v
theories/Spec.v
theories/GoLemmas.v
theories/EncProofs.v
theories/DecProofs.v
theories/VarProofs.v
theories/Utf8Proofs.v
theories/SizeProofs.v
theories/SchemaSpec.v
theories/Schema.v
theories/Link.v
theories/Msg01.v
theories/Msg02.v
theories/Msg03.v
theories/Msg04.v
theories/Msg05.v
theories/Msg06.v
theories/Msg07.v
theories/Msg08.v
theories/Msg09.v
theories/Msg10.v
theories/AllMessages.v
theories/Calls.v
theories/MsgProofs.v
theories/PrimProofs.v
theories/CodecProps.v
theories/P_Codec.v
theories/MsgProps.v
theories/P_Messages.v
theories/BrokerTable.v
theories/Broker.v
theories/BrokerSpec.v
theories/BrokerProofs.v
theories/P_Broker.v
theories/Ring.v
theories/RingSpec.v
theories/RingProofs.v
theories/RingProps.v
theories/RingSeq.v
theories/P_Ring.v
theories/BufIO.v
theories/BufIOProofs.v
theories/Conn.v
theories/ConnSpec.v
theories/ConnProofs.v
theories/ConnProps.v
theories/P_Conn.v
theories/ConnFrames.v
theories/Alias.v
theories/ConnAlias.v
theories/ConnRing.v
theories/ConnRingSpec.v
theories/ConnRingProofs.v
theories/ConnRingProps.v
theories/ConnClose.v
theories/P_Framing.v
theories/P_ConnLife.v
theories/Options.v
theories/Client.v
theories/ClientSpec.v
theories/ClientProofs.v
theories/P_Client.v
theories/RecordBatch.v
theories/RecordSpec.v
theories/RecordProofs.v
theories/P_Record.v
theories/GrammarSpec.v
theories/GrammarProofs.v
theories/P_Grammar.v
theories/RepoTests.v
theories/FlexSpec.v
theories/FlexProofs.v
theories/P_Flexible.v
theories/KafkaSpec.v
theories/KafkaProofs.v
theories/P_Kafka.v
theories/ConnTable.v
theories/P_Table.v
theories/KafkaNames.v
theories/P_Names.v
theories/EndSpec.v
theories/ConnEnd.v
theories/P_End.v
theories/Memory.v
theories/MemorySpec.v
theories/MemoryProofs.v
theories/P_Memory.v
theories/FlexRespSpec.v
theories/FlexRespProofs.v
theories/P_FlexResponse.v
theories/KafkaRecordSpec.v
theories/KafkaRecordProofs.v
theories/P_KafkaRecord.v
theories/SentSpec.v
theories/SentProofs.v
theories/P_Sent.v
theories/RaceSpec.v
theories/RaceProofs.v
theories/P_Race.v
theories/Platform.v
theories/PlatformSpec.v
theories/PlatformProofs.v
theories/P_Platform.v
theories/CallerSpec.v
theories/CallerProofs.v
theories/P_Caller.v
theories/ConnRaceSpec.v
theories/ConnRaceProofs.v
theories/P_ConnRace.v
theories/Context.v
theories/P_Context.v
theories/SizesSpec.v
theories/SizesProofs.v
theories/P_Sizes.v
theories/WholeSpec.v
theories/WholeProofs.v
theories/P_Whole.v
theories/LiveSpec.v
theories/LiveProofs.v
theories/P_Live.v
theories/ServeSpec.v
theories/ServeProofs.v
theories/P_Serve.v
theories/ClusterSpec.v
theories/ClusterProofs.v
theories/P_Cluster.v
theories/DialSpec.v
theories/DialProofs.v
theories/P_Dial.v
theories/Scratch.v
theories/ScratchProofs.v
theories/P_Scratch.v
theories/OrderlySpec.v
theories/OrderlyProofs.v
theories/OrderlyLive.v
theories/OrderlyBound.v
theories/OrderlyEnd.v
theories/P_Orderly.v
theories/EndlessSpec.v
theories/EndlessProofs.v
theories/P_Endless.v
theories/GoLang.v
theories/Source.v
theories/SourceSpec.v
theories/SourceBase.v
theories/SourceDecoder.v
theories/SourceLoops.v
theories/SourceEncoder.v
theories/SourceSizeof.v
theories/SourceWire.v
theories/P_Source.v
theories/SourceMessages.v
theories/SourceLayout.v
theories/SourceTable.v
theories/SourceMsgSpec.v
theories/SourceMsg.v
theories/SourceMsgAll.v
theories/P_SourceMsg.v
theories/GoConc.v
theories/SourceRing.v
theories/SourceRingSpec.v
theories/SourceRingProof.v
theories/SourceRingAll.v
theories/P_SourceRing.v
theories/GoFlow.v
theories/GoShare.v
theories/SourceClient.v
theories/SourceConn.v
theories/SourceConnSpec.v
theories/SourceConnPoints.v
theories/SourceConnSim.v
theories/SourceConnCalls.v
theories/SourceConnLoop.v
theories/SourceConnRing.v
theories/SourceConnStart.v
theories/SourceConnProofs.v
theories/SourceConnAll.v
theories/P_SourceConn.v
theories/SourceClientSpec.v
theories/SourceClientProofs.v
theories/SourceClientAll.v
theories/P_SourceClient.v
theories/SourceBrokerSpec.v
theories/SourceBrokerProofs.v
theories/P_SourceBroker.v
theories/SourceRecords.v
theories/SourceRecordsSpec.v
theories/SourceRecordsProofs.v
theories/SourceRecordsAll.v
theories/SourceRecordsEnc.v
theories/P_SourceRecords.v
