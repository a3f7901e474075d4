-Q theories Verif
theories/Answering.v
theories/AnsweringFacts.v
theories/Areas.v
theories/AreasFacts.v
theories/Attrs.v
theories/AttrsFacts.v
theories/Buffers.v
theories/BuffersFacts.v
theories/BuffersProofs.v
theories/BuffersSpec.v
theories/Catalogue.v
theories/ChokeFacts.v
theories/Client.v
theories/ClientFacts.v
theories/ClientProofs.v
theories/ClientSpec.v
theories/Clients.v
theories/ClientsFacts.v
theories/CommandsFacts.v
theories/Constants.v
theories/ConstantsFacts.v
theories/ConstantsSpec.v
theories/Controls.v
theories/ControlsFacts.v
theories/Crowd.v
theories/CrowdFacts.v
theories/CrowdProofs.v
theories/Custom.v
theories/CustomFacts.v
theories/CustomSpec.v
theories/Cut.v
theories/CutFacts.v
theories/Declarations.v
theories/DefaultFacts.v
theories/Derive.v
theories/DeriveFacts.v
theories/DeriveProofs.v
theories/DeriveRun.v
theories/DeriveSpec.v
theories/DeriveStruct.v
theories/DeriveStructFacts.v
theories/Display.v
theories/DisplayFacts.v
theories/Drops.v
theories/DropsFacts.v
theories/DropsSpec.v
theories/EndToEnd.v
theories/EndToEndFacts.v
theories/Endian.v
theories/EndianFacts.v
theories/Equality.v
theories/EqualityFacts.v
theories/Errors.v
theories/ErrorsFacts.v
theories/FillFacts.v
theories/FinalFacts.v
theories/FixedFacts.v
theories/Foreign.v
theories/ForeignFacts.v
theories/ForeignSpec.v
theories/Frail.v
theories/FrailFacts.v
theories/FrailProofs.v
theories/GoneFacts.v
theories/GoneSpec.v
theories/Handwritten.v
theories/Hearing.v
theories/HearingFacts.v
theories/Helpers.v
theories/HelpersFacts.v
theories/HelpersSpec.v
theories/Hinting.v
theories/HintingFacts.v
theories/IntegersFacts.v
theories/InteropFacts.v
theories/Interrupts.v
theories/InterruptsFacts.v
theories/Layout.v
theories/LayoutCFacts.v
theories/LayoutFacts.v
theories/LayoutProofs.v
theories/LeavingFacts.v
theories/LeavingSpec.v
theories/Limits.v
theories/LimitsFacts.v
theories/ListSpec.v
theories/Marshal.v
theories/MarshalFacts.v
theories/MarshalProofs.v
theories/MarshalWrite.v
theories/Meagre.v
theories/MeagreFacts.v
theories/NoPanicFacts.v
theories/OnceFacts.v
theories/OutcomeFacts.v
theories/OverflowFacts.v
theories/Own.v
theories/OwnFacts.v
theories/Part2.v
theories/Part2Constants.v
theories/Part2Selectors.v
theories/Part3.v
theories/PiecesFacts.v
theories/Portable.v
theories/PortableFacts.v
theories/PortableNet.v
theories/PortableNetFacts.v
theories/Prelude.v
theories/PropertiesAnswering.v
theories/PropertiesAreas.v
theories/PropertiesAttrs.v
theories/PropertiesBuffers.v
theories/PropertiesChoke.v
theories/PropertiesClient.v
theories/PropertiesClients.v
theories/PropertiesCommands.v
theories/PropertiesConstants.v
theories/PropertiesControls.v
theories/PropertiesCrowd.v
theories/PropertiesCustom.v
theories/PropertiesCut.v
theories/PropertiesDefault.v
theories/PropertiesDerive.v
theories/PropertiesDeriveStruct.v
theories/PropertiesDisplay.v
theories/PropertiesDrops.v
theories/PropertiesEndToEnd.v
theories/PropertiesEndian.v
theories/PropertiesEquality.v
theories/PropertiesErrors.v
theories/PropertiesFill.v
theories/PropertiesFinal.v
theories/PropertiesFixed.v
theories/PropertiesForeign.v
theories/PropertiesFrail.v
theories/PropertiesGone.v
theories/PropertiesHearing.v
theories/PropertiesHelpers.v
theories/PropertiesHinting.v
theories/PropertiesIntegers.v
theories/PropertiesInterop.v
theories/PropertiesInterrupts.v
theories/PropertiesLayout.v
theories/PropertiesLayoutC.v
theories/PropertiesLeaving.v
theories/PropertiesLimits.v
theories/PropertiesMarshal.v
theories/PropertiesMeagre.v
theories/PropertiesNoPanic.v
theories/PropertiesOnce.v
theories/PropertiesOutcome.v
theories/PropertiesOverflow.v
theories/PropertiesOwn.v
theories/PropertiesPieces.v
theories/PropertiesPortable.v
theories/PropertiesPortableNet.v
theories/PropertiesRandom.v
theories/PropertiesRemote.v
theories/PropertiesReported.v
theories/PropertiesResent.v
theories/PropertiesResponse.v
theories/PropertiesReuse.v
theories/PropertiesSecrecy.v
theories/PropertiesSelectors.v
theories/PropertiesServer.v
theories/PropertiesSessions.v
theories/PropertiesSever.v
theories/PropertiesShared.v
theories/PropertiesSplice.v
theories/PropertiesStart.v
theories/PropertiesStop.v
theories/PropertiesStrangers.v
theories/PropertiesTcp.v
theories/PropertiesTelling.v
theories/PropertiesTpm2b.v
theories/PropertiesTpml.v
theories/PropertiesTrickle.v
theories/PropertiesUnambiguous.v
theories/PropertiesVariant.v
theories/RandomFacts.v
theories/Remote.v
theories/RemoteFacts.v
theories/ReportedFacts.v
theories/ResentFacts.v
theories/ResponseFacts.v
theories/ReuseFacts.v
theories/Samples.v
theories/SecrecyFacts.v
theories/SelectorsFacts.v
theories/Server.v
theories/ServerFacts.v
theories/ServerProofs.v
theories/ServerSpec.v
theories/Sessions.v
theories/SessionsFacts.v
theories/SeverFacts.v
theories/Shared.v
theories/SharedFacts.v
theories/SimulatorProofs.v
theories/SpliceFacts.v
theories/StartFacts.v
theories/StopFacts.v
theories/Strangers.v
theories/StrangersFacts.v
theories/Tcp.v
theories/TcpFacts.v
theories/TcpProofs.v
theories/TcpSpec.v
theories/Telling.v
theories/TellingFacts.v
theories/Tpm2b.v
theories/Tpm2bFacts.v
theories/Tpml.v
theories/TpmlFacts.v
theories/Trickle.v
theories/TrickleFacts.v
theories/Types.v
theories/UnambiguousFacts.v
theories/VariantFacts.v
theories/VariantSpec.v
theories/WireSpec.v
theories/WriteSpec.v
