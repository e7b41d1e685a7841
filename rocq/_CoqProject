-Q theories Verif
theories/Base.v
theories/BitOps.v
theories/Encode7.v
theories/Values.v
theories/Schema.v
theories/Helpers.v
theories/Props.v
theories/Message.v
theories/MessageTable.v
theories/SpecLayout.v
theories/SpecFixed.v
theories/BitLemmas.v
theories/ListLemmas.v
theories/PropLemmas.v
theories/PropWrite.v
theories/PropValidate.v
theories/Stripes.v
theories/MessageLemmas.v
theories/InitLemmas.v
theories/FixedLemmas.v
theories/ConvertLemmas.v
theories/FixedProofs.v
theories/PropertiesFixed.v
theories/ConvertProofs.v
theories/PropertiesConvert.v
theories/Sysex.v
theories/Splice.v
theories/SpecSysex.v
theories/ByteView.v
theories/SysexLayout.v
theories/SysexEdit.v
theories/SpliceLemmas.v
theories/SysexLaws.v
theories/SysexBytes.v
theories/SysexRead.v
theories/SysexBridge.v
theories/SysexHold.v
theories/SysexMore.v
theories/SysexNth.v
theories/SysexInit.v
theories/SpecEdits.v
theories/SysexClient.v
theories/SysexHistory.v
theories/SysexTail.v
theories/SysexConvert.v
theories/SysexCompact.v
theories/SysexIds.v
theories/SysexLoose.v
theories/SysexFixedBytes.v
theories/PropertiesSysex.v
theories/Text.v
theories/SpecText.v
theories/TextLemmas.v
theories/TextHeader.v
theories/TextFlex.v
theories/TextFlexMore.v
theories/TextFlexInit.v
theories/TextStream.v
theories/TextStreamMore.v
theories/TextUtf8.v
theories/TextParse.v
theories/TextClient.v
theories/TextHistory.v
theories/TextFresh.v
theories/PropertiesText.v
theories/Aggregate.v
theories/SpecAggregate.v
theories/AggregateLemmas.v
theories/AggregateMore.v
theories/PropertiesAggregate.v
theories/Packet.v
theories/SpecPacket.v
theories/PacketLemmas.v
theories/PacketMore.v
theories/PacketRead.v
theories/PropertiesPacket.v
theories/Ci.v
theories/SpecCi.v
theories/CiLemmas.v
theories/PropertiesCi.v
theories/StreamClient.v
theories/SpecStream.v
theories/StreamLemmas.v
theories/PropertiesStream.v
theories/SpecCopies.v
theories/CopyLemmas.v
theories/PropertiesCopies.v
theories/Receiver.v
theories/SpecReceiver.v
theories/ReceiverLemmas.v
theories/PropertiesReceiver.v
theories/Features.v
theories/SpecFeatures.v
theories/PropertiesFeatures.v
theories/Clients.v
theories/PropertiesClients.v
theories/Show.v
theories/SpecShow.v
theories/ShowLemmas.v
theories/PropertiesShow.v
theories/Gateway.v
theories/SpecGateway.v
theories/PropertiesGateway.v
theories/Reader.v
theories/SpecReader.v
theories/PropertiesReader.v
theories/BoundedSplice.v
theories/CustomBuffer.v
theories/SpecCustom.v
theories/CustomLemmas.v
theories/CustomMore.v
theories/RepoTests.v
theories/RepoTestsCi.v
theories/RepoTestsDocs.v
theories/RepoTestsFlex.v
theories/RepoTestsMessages.v
theories/RepoTestsStream.v
theories/RepoTestsSysex7.v
theories/RepoTestsSysex8.v
theories/RepoTestsSystem.v
theories/RepoTestsVoice1.v
theories/RepoTestsVoice2.v
theories/PropertiesCustom.v
theories/PropertiesCustomSysex.v
theories/PropertiesCustomStream.v
theories/SpecRebuild.v
theories/RebuildLemmas.v
theories/PropertiesRebuild.v
theories/SpecSysexWire.v
theories/RebuildSysex.v
theories/PropertiesRebuildSysex.v
theories/Generator.v
theories/SpecGenerator.v
theories/GeneratorLemmas.v
theories/PropertiesGenerator.v
theories/Machine.v
theories/MachineSysex.v
theories/MachineLemmas.v
theories/MachineOps.v
theories/MachineSplice.v
theories/MachineClient.v
theories/SpecMachine.v
theories/MachineEdits.v
theories/MachineRelease.v
theories/PropertiesMachine.v
theories/MachineConvert.v
theories/PropertiesMachineConvert.v
theories/MachineText.v
theories/MachineTextLemmas.v
theories/SpecMachineText.v
theories/PropertiesMachineText.v
theories/Feed.v
theories/SpecFeed.v
theories/FeedLemmas.v
theories/PropertiesFeed.v
theories/SpecJourney.v
theories/Journey.v
theories/JourneyLemmas.v
theories/PropertiesJourney.v
theories/SpecJourney8.v
theories/Journey8.v
theories/JourneyLemmas8.v
theories/PropertiesJourney8.v
theories/SpecBehind.v
theories/SysexBehind.v
theories/PropertiesBehind.v
theories/Unwind.v
theories/SpecUnwind.v
theories/UnwindLemmas.v
theories/UnwindLaws.v
theories/PropertiesUnwind.v
theories/SpecUnannounced.v
theories/SpliceUnannounced.v
theories/UnannouncedLemmas.v
theories/PropertiesUnannounced.v
theories/BytesCrowded.v
theories/PropertiesUnannouncedBytes.v
theories/SpecOrder.v
theories/OrderLemmas.v
theories/PropertiesOrder.v
theories/PropertiesOrderMore.v
theories/Pipes.v
theories/SpecPipes.v
theories/PipesLemmas.v
theories/PropertiesPipes.v
theories/Letters.v
theories/SpecLetters.v
theories/PropertiesLetters.v
theories/LettersFixed.v
theories/SpecLettersFixed.v
theories/PropertiesLettersFixed.v
theories/SpecErrors.v
theories/ErrorLemmas.v
theories/ErrorSysex.v
theories/ErrorAggregate.v
theories/PropertiesErrors.v
theories/SpecLoss.v
theories/LossLemmas.v
theories/LossMore.v
theories/PropertiesLoss.v
theories/SpecDamage.v
theories/SpecDamageText.v
theories/DamageLemmas.v
theories/DamageSysex.v
theories/DamageText.v
theories/PropertiesDamage.v
theories/PropertiesDamageSysex.v
theories/PropertiesDamageText.v
theories/SpecErrorsMore.v
theories/ErrorBytes.v
theories/PropertiesErrorsMore.v
theories/InquiryClient.v
theories/SpecInquiry.v
theories/PropertiesInquiry.v
theories/SpecCost.v
theories/Meter.v
theories/CostLemmas.v
theories/PropertiesCost.v
theories/SpecJoin.v
theories/JoinClient.v
theories/PropertiesJoin.v
theories/PropertiesMask.v
theories/OctetSchema.v
theories/PropertiesMaskOctet.v
theories/Pretty.v
theories/SpecPretty.v
theories/PropertiesPretty.v
theories/SpecReuse.v
theories/PropertiesReuse.v
theories/PropertiesReuseMore.v
theories/SpecTextJourney.v
theories/TextJourney.v
theories/PropertiesTextJourney.v
theories/SpecCable.v
theories/CableClient.v
theories/PropertiesCable.v
theories/PropertiesCablePackets.v
theories/PropertiesCustomBytes.v
theories/RebuildArrays.v
theories/PropertiesRebuildArrays.v
theories/PropertiesArraysMore.v
theories/PropertiesLossMixed.v
theories/CostArrays.v
theories/PropertiesCostArrays.v
