(** Generated by tools/gen_xml.py: the 'messages' map of
    pyogp/lib/base/message/data/message.xml (read by data/__init__.py:21), each
    name with the value of its 'flavor'. *)
From Verif Require Export MessageXml.
Open Scope string_scope.

Definition embedded_xml : xmltable := [
  ("PacketAck", Some "template");
  ("OpenCircuit", Some "template");
  ("CloseCircuit", Some "template");
  ("StartPingCheck", Some "template");
  ("CompletePingCheck", Some "template");
  ("AddCircuitCode", Some "template");
  ("UseCircuitCode", Some "template");
  ("CreateTrustedCircuit", Some "template");
  ("RequestTrustedCircuit", Some "template");
  ("ReportAutosaveCrash", Some "template");
  ("SetCPURatio", Some "template");
  ("CompleteAgentMovement", Some "template");
  ("EconomyDataRequest", Some "template");
  ("ViewerEffect", Some "template");
  ("RegionHandshakeReply", Some "template");
  ("AgentUpdate", Some "template");
  ("ImagePacket", Some "template");
  ("LayerData", Some "template");
  ("ObjectUpdateCached", Some "template");
  ("ObjectUpdateCompressed", Some "template");
  ("ObjectUpdate", Some "template");
  ("ImprovedTerseObjectUpdate", Some "template");
  ("AvatarAnimation", Some "template");
  ("AvatarAppearance", Some "template");
  ("GodKickUser", Some "llsd");
  ("RoutedMoneyBalanceReply", Some "llsd");
  ("EdgeDataPacket", Some "template");
  ("CoarseLocationUpdate", Some "template");
  ("SimulatorLoad", Some "template");
  ("EstablishAgentCommunication", Some "llsd");
  ("AgentGroupDataUpdate", Some "llsd");
  ("AgentDropGroup", Some "llsd");
  ("ChatterBoxSessionStartReply", Some "llsd");
  ("ChatterBoxSessionEventReply", Some "llsd");
  ("ForceCloseChatterBoxSession", Some "llsd");
  ("ChatterBoxSessionAgentListUpdates", Some "llsd");
  ("ChatterBoxSessionUpdate", Some "llsd");
  ("ChatterBoxInvitation", Some "llsd");
  ("ParcelVoiceInfoRequest", Some "llsd");
  ("ParcelVoiceInfo", Some "llsd");
  ("ParcelObjectOwnersReply", Some "llsd");
  ("ParcelProperties", Some "llsd");
  ("LandStatReply", Some "llsd");
  ("PlacesReply", Some "llsd");
  ("DirLandReply", Some "llsd");
  ("avatarnotesrequest", None);
  ("avatarclassifiedsrequest", None);
  ("avatarpicksrequest", None);
  ("pickinforequest", None);
  ("ProvisionVoiceAccountRequest", Some "llsd");
  ("RequiredVoiceVersion", Some "llsd");
  ("EnableSimulator", Some "llsd");
  ("TeleportFinish", Some "llsd");
  ("TeleportFailed", Some "llsd");
  ("CrossedRegion", Some "llsd");
  ("ScriptRunningReply", Some "llsd");
  ("StartGroupProposal", Some "llsd");
  ("FetchInventoryDescendents", Some "template");
  ("GroupProposalBallot", Some "llsd");
  ("RpcScriptRequestInboundForward", Some "llsd")].
