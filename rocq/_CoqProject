-Q theories Verif
theories/Prelude.v
theories/PyFloat.v
theories/PyStruct.v
theories/MsgTypes.v
theories/Values.v
theories/Datatypes.v
theories/Packer.v
theories/Template.v
theories/Printing.v
theories/TemplateDict.v
theories/MessageXml.v
theories/MessageXmlFile.v
theories/Serializer.v
theories/Deserializer.v
theories/Events.v
theories/Circuit.v
theories/Dispatcher.v
theories/PyRegex.v
theories/TemplateParser.v
theories/TemplateFile.v
theories/Helpers.v
theories/Llsd.v
theories/Caps.v
theories/EventQueue.v
theories/Builder.v
theories/Settings.v
theories/Wiring.v
theories/Manager.v
theories/Lib.v
theories/SpecCodec.v
theories/CodecProofs.v
theories/FieldProofs.v
theories/FloatProofs.v
theories/SpecFloats.v
theories/FloatRound.v
theories/FloatField.v
theories/Prop_Codec.v
theories/SpecWire.v
theories/ZeroProofs.v
theories/HeaderProofs.v
theories/Prop_Wire.v
theories/SpecLayout.v
theories/LayoutProofs.v
theories/DecodeProofs.v
theories/PacketProofs.v
theories/PacketMore.v
theories/PacketForms.v
theories/PacketRules.v
theories/Samples.v
theories/Prop_Packet.v
theories/SpecEvents.v
theories/EventsProofs.v
theories/Prop_Events.v
theories/EventsLive.v
theories/SpecLive.v
theories/LiveProofs.v
theories/Prop_Live.v
theories/SpecText.v
theories/TextProofs.v
theories/Prop_Text.v
theories/SpecMessages.v
theories/MessageProofs.v
theories/Prop_Messages.v
theories/SpecWeb.v
theories/WebProofs.v
theories/Prop_Web.v
theories/SpecDispatch.v
theories/DispatchProofs.v
theories/DispatchMore.v
theories/Prop_Dispatch.v
theories/Greenlets.v
theories/SpecGreenlets.v
theories/GreenletProofs.v
theories/GreenletAcks.v
theories/GreenletMore.v
theories/GreenletSeq.v
theories/GreenletFlush.v
theories/Prop_Greenlets.v
theories/Monitors.v
theories/SpecMonitors.v
theories/MonitorProofs.v
theories/MonitorQueue.v
theories/Prop_Monitors.v
theories/SpecManager.v
theories/ManagerProofs.v
theories/Prop_Manager.v
theories/LiveManager.v
theories/SpecLiveManager.v
theories/LiveManagerProofs.v
theories/LiveManagerMore.v
theories/LiveManagerAcks.v
theories/LiveManagerSeq.v
theories/Prop_LiveManager.v
theories/LiveQueue.v
theories/SpecLiveQueue.v
theories/LiveQueueProofs.v
theories/LiveQueueMore.v
theories/LiveQueueStop.v
theories/LiveQueueRunning.v
theories/LiveQueueDrive.v
theories/Prop_LiveQueue.v
theories/ShippedTemplates.v
theories/SpecTemplate.v
theories/TemplateCheck.v
theories/Prop_Template.v
theories/Prop_Wiring.v
theories/SpecRoundTrip.v
theories/RoundTripProofs.v
theories/Prop_RoundTrip.v
theories/SpecCut.v
theories/CutProofs.v
theories/Prop_Cut.v
theories/SpecTemplateText.v
theories/TemplateTextProofs.v
theories/Prop_TemplateText.v
theories/SpecNetwork.v
theories/NetworkProofs.v
theories/StormProofs.v
theories/DeliveryProofs.v
theories/Prop_Network.v
theories/Objects.v
theories/SpecObjects.v
theories/ObjectTextProofs.v
theories/ObjectProofs.v
theories/Prop_Objects.v
theories/FloatText.v
theories/SpecFloatText.v
theories/FloatReadProofs.v
theories/FloatShowProofs.v
theories/FloatTripProofs.v
theories/Prop_FloatText.v
theories/Waiting.v
theories/SpecWaiting.v
theories/WaitingProofs.v
theories/Prop_Waiting.v
theories/Describe.v
theories/SpecDescribe.v
theories/IntTextProofs.v
theories/DescribeProofs.v
theories/Prop_Describe.v
theories/SpecTraffic.v
theories/TrafficProofs.v
theories/Prop_Traffic.v
theories/Exceptions.v
theories/SpecExceptions.v
theories/ExceptionProofs.v
theories/Prop_Exceptions.v
theories/SpecValues.v
theories/ValueProofs.v
theories/Prop_Values.v
theories/Logging.v
theories/SpecLogging.v
theories/LoggingProofs.v
theories/LogReasons.v
theories/Prop_Logging.v
theories/WebLogging.v
theories/SpecWebLogging.v
theories/WebLoggingProofs.v
theories/Prop_WebLogging.v
theories/Identity.v
theories/Prop_Identity.v
theories/Prop_Exhaust.v
theories/SpecTemplateAny.v
theories/TemplateAnyProofs.v
theories/TemplateLastLine.v
theories/Prop_TemplateAny.v
theories/SpecCopies.v
theories/CopiesProofs.v
theories/Prop_Copies.v
theories/Listing.v
theories/SpecListing.v
theories/ListingProofs.v
theories/Prop_Listing.v
theories/Whole.v
theories/SpecWhole.v
theories/WholeProofs.v
theories/Prop_Whole.v
theories/SpecHanding.v
theories/HandingProofs.v
theories/Prop_Handing.v
theories/SpecCrowd.v
theories/CrowdProofs.v
theories/AnnouncedProofs.v
theories/Prop_Crowd.v
theories/SpecMesh.v
theories/MeshProofs.v
theories/MeshMore.v
theories/MeshSource.v
theories/MeshSaga.v
theories/MeshHosts.v
theories/MeshFinal.v
theories/Prop_Mesh.v
theories/TidyProofs.v
theories/TidyMore.v
theories/SpecTidy.v
theories/TidyFinal.v
theories/Prop_Tidy.v
theories/SpecEnds.v
theories/EndProofs.v
theories/UnprintableDies.v
theories/LiveDies.v
theories/Prop_Ends.v
theories/SpecMeshEnds.v
theories/MeshEnds.v
theories/MeshEndsMore.v
theories/Prop_MeshEnds.v
theories/Prop_WholeAsked.v
