(** Generated by tools/gen_shipped.py: what Python's re module extracts from
    pyogp/lib/base/message/data/message_template.msg with the regular expressions
    of template_parser.py:61-67.  Used only to state C53_parsed. *)
From Verif Require Export Template.
Local Open Scope string_scope.

Local Definition V name ty size := {| tv_name := name; tv_type := Some ty; tv_size := Some size |}.
Local Definition B name ty n vars := {| tb_name := name; tb_type := Some ty; tb_number := n; tb_vars := vars |}.
Local Definition T name f n hex tr en de blocks := {| t_name := name; t_freq := Some f; t_num := n; t_hex := Some hex;
  t_trust := Some tr; t_enc := Some en; t_dep := Some de; t_blocks := blocks |}.

Definition shipped_0 : list template := [
  T "TestMessage" LOW 1 [xff; xff; x01] LL_NOTRUST LL_ZEROCODED LL_NOTDEPRECATED
    [B "TestBlock1" MBT_SINGLE 0 [V "Test1" MVT_U32 4];
     B "NeighborBlock" MBT_MULTIPLE 4 [V "Test0" MVT_U32 4; V "Test1" MVT_U32 4; V "Test2" MVT_U32 4]];
  T "PacketAck" FIXED 251 [xff; xff; xff; xfb] LL_NOTRUST LL_UNENCODED LL_NOTDEPRECATED
    [B "Packets" MBT_VARIABLE 0 [V "ID" MVT_U32 4]];
  T "OpenCircuit" FIXED 252 [xff; xff; xff; xfc] LL_NOTRUST LL_UNENCODED LL_NOTDEPRECATED
    [B "CircuitInfo" MBT_SINGLE 0 [V "IP" MVT_IP_ADDR 4; V "Port" MVT_IP_PORT 2]];
  T "CloseCircuit" FIXED 253 [xff; xff; xff; xfd] LL_NOTRUST LL_UNENCODED LL_NOTDEPRECATED
    [];
  T "StartPingCheck" HIGH 1 [x01] LL_NOTRUST LL_UNENCODED LL_NOTDEPRECATED
    [B "PingID" MBT_SINGLE 0 [V "PingID" MVT_U8 1; V "OldestUnacked" MVT_U32 4]];
  T "CompletePingCheck" HIGH 2 [x02] LL_NOTRUST LL_UNENCODED LL_NOTDEPRECATED
    [B "PingID" MBT_SINGLE 0 [V "PingID" MVT_U8 1]];
  T "AddCircuitCode" LOW 2 [xff; xff; x02] LL_TRUSTED LL_UNENCODED LL_NOTDEPRECATED
    [B "CircuitCode" MBT_SINGLE 0 [V "Code" MVT_U32 4; V "SessionID" MVT_LLUUID 16; V "AgentID" MVT_LLUUID 16]];
  T "UseCircuitCode" LOW 3 [xff; xff; x03] LL_NOTRUST LL_UNENCODED LL_NOTDEPRECATED
    [B "CircuitCode" MBT_SINGLE 0 [V "Code" MVT_U32 4; V "SessionID" MVT_LLUUID 16; V "ID" MVT_LLUUID 16]];
  T "NeighborList" HIGH 3 [x03] LL_TRUSTED LL_UNENCODED LL_NOTDEPRECATED
    [B "NeighborBlock" MBT_MULTIPLE 4 [V "IP" MVT_IP_ADDR 4; V "Port" MVT_IP_PORT 2; V "PublicIP" MVT_IP_ADDR 4; V "PublicPort" MVT_IP_PORT 2; V "RegionID" MVT_LLUUID 16; V "Name" MVT_VARIABLE 1; V "SimAccess" MVT_U8 1]];
  T "AvatarTextureUpdate" LOW 4 [xff; xff; x04] LL_TRUSTED LL_ZEROCODED LL_NOTDEPRECATED
    [B "AgentData" MBT_SINGLE 0 [V "AgentID" MVT_LLUUID 16; V "TexturesChanged" MVT_BOOL 1];
     B "WearableData" MBT_VARIABLE 0 [V "CacheID" MVT_LLUUID 16; V "TextureIndex" MVT_U8 1; V "HostName" MVT_VARIABLE 1];
     B "TextureData" MBT_VARIABLE 0 [V "TextureID" MVT_LLUUID 16]];
  T "SimulatorMapUpdate" LOW 5 [xff; xff; x05] LL_TRUSTED LL_UNENCODED LL_NOTDEPRECATED
    [B "MapData" MBT_SINGLE 0 [V "Flags" MVT_U32 4]];
  T "SimulatorSetMap" LOW 6 [xff; xff; x06] LL_TRUSTED LL_UNENCODED LL_NOTDEPRECATED
    [B "MapData" MBT_SINGLE 0 [V "RegionHandle" MVT_U64 8; V "Type" MVT_S32 4; V "MapImage" MVT_LLUUID 16]];
  T "SubscribeLoad" LOW 7 [xff; xff; x07] LL_TRUSTED LL_UNENCODED LL_NOTDEPRECATED
    [];
  T "UnsubscribeLoad" LOW 8 [xff; xff; x08] LL_TRUSTED LL_UNENCODED LL_NOTDEPRECATED
    [];
  T "SimulatorReady" LOW 9 [xff; xff; x09] LL_TRUSTED LL_ZEROCODED LL_NOTDEPRECATED
    [B "SimulatorBlock" MBT_SINGLE 0 [V "SimName" MVT_VARIABLE 1; V "SimAccess" MVT_U8 1; V "RegionFlags" MVT_U32 4; V "RegionID" MVT_LLUUID 16; V "EstateID" MVT_U32 4; V "ParentEstateID" MVT_U32 4];
     B "TelehubBlock" MBT_SINGLE 0 [V "HasTelehub" MVT_BOOL 1; V "TelehubPos" MVT_LLVector3 12]];
  T "TelehubInfo" LOW 10 [xff; xff; x0a] LL_TRUSTED LL_UNENCODED LL_NOTDEPRECATED
    [B "TelehubBlock" MBT_SINGLE 0 [V "ObjectID" MVT_LLUUID 16; V "ObjectName" MVT_VARIABLE 1; V "TelehubPos" MVT_LLVector3 12; V "TelehubRot" MVT_LLQuaternion 12];
     B "SpawnPointBlock" MBT_VARIABLE 0 [V "SpawnPointPos" MVT_LLVector3 12]];
  T "SimulatorPresentAtLocation" LOW 11 [xff; xff; x0b] LL_TRUSTED LL_UNENCODED LL_NOTDEPRECATED
    [B "SimulatorPublicHostBlock" MBT_SINGLE 0 [V "Port" MVT_IP_PORT 2; V "SimulatorIP" MVT_IP_ADDR 4; V "GridX" MVT_U32 4; V "GridY" MVT_U32 4];
     B "NeighborBlock" MBT_MULTIPLE 4 [V "IP" MVT_IP_ADDR 4; V "Port" MVT_IP_PORT 2];
     B "SimulatorBlock" MBT_SINGLE 0 [V "SimName" MVT_VARIABLE 1; V "SimAccess" MVT_U8 1; V "RegionFlags" MVT_U32 4; V "RegionID" MVT_LLUUID 16; V "EstateID" MVT_U32 4; V "ParentEstateID" MVT_U32 4];
     B "TelehubBlock" MBT_VARIABLE 0 [V "HasTelehub" MVT_BOOL 1; V "TelehubPos" MVT_LLVector3 12]];
  T "SimulatorLoad" LOW 12 [xff; xff; x0c] LL_TRUSTED LL_UNENCODED LL_NOTDEPRECATED
    [B "SimulatorLoad" MBT_SINGLE 0 [V "TimeDilation" MVT_F32 4; V "AgentCount" MVT_S32 4; V "CanAcceptAgents" MVT_BOOL 1];
     B "AgentList" MBT_VARIABLE 0 [V "CircuitCode" MVT_U32 4; V "X" MVT_U8 1; V "Y" MVT_U8 1]];
  T "SimulatorShutdownRequest" LOW 13 [xff; xff; x0d] LL_TRUSTED LL_UNENCODED LL_NOTDEPRECATED
    [];
  T "RegionPresenceRequestByRegionID" LOW 14 [xff; xff; x0e] LL_TRUSTED LL_UNENCODED LL_NOTDEPRECATED
    [B "RegionData" MBT_VARIABLE 0 [V "RegionID" MVT_LLUUID 16]];
  T "RegionPresenceRequestByHandle" LOW 15 [xff; xff; x0f] LL_TRUSTED LL_UNENCODED LL_NOTDEPRECATED
    [B "RegionData" MBT_VARIABLE 0 [V "RegionHandle" MVT_U64 8]];
  T "RegionPresenceResponse" LOW 16 [xff; xff; x10] LL_TRUSTED LL_ZEROCODED LL_NOTDEPRECATED
    [B "RegionData" MBT_VARIABLE 0 [V "RegionID" MVT_LLUUID 16; V "RegionHandle" MVT_U64 8; V "InternalRegionIP" MVT_IP_ADDR 4; V "ExternalRegionIP" MVT_IP_ADDR 4; V "RegionPort" MVT_IP_PORT 2; V "ValidUntil" MVT_F64 8; V "Message" MVT_VARIABLE 1]];
  T "UpdateSimulator" LOW 17 [xff; xff; x11] LL_TRUSTED LL_UNENCODED LL_NOTDEPRECATED
    [B "SimulatorInfo" MBT_SINGLE 0 [V "RegionID" MVT_LLUUID 16; V "SimName" MVT_VARIABLE 1; V "EstateID" MVT_U32 4; V "SimAccess" MVT_U8 1]];
  T "LogDwellTime" LOW 18 [xff; xff; x12] LL_TRUSTED LL_UNENCODED LL_NOTDEPRECATED
    [B "DwellInfo" MBT_SINGLE 0 [V "AgentID" MVT_LLUUID 16; V "SessionID" MVT_LLUUID 16; V "Duration" MVT_F32 4; V "SimName" MVT_VARIABLE 1; V "RegionX" MVT_U32 4; V "RegionY" MVT_U32 4; V "AvgAgentsInView" MVT_U8 1; V "AvgViewerFPS" MVT_U8 1]];
  T "FeatureDisabled" LOW 19 [xff; xff; x13] LL_TRUSTED LL_UNENCODED LL_NOTDEPRECATED
    [B "FailureInfo" MBT_SINGLE 0 [V "ErrorMessage" MVT_VARIABLE 1; V "AgentID" MVT_LLUUID 16; V "TransactionID" MVT_LLUUID 16]];
  T "LogFailedMoneyTransaction" LOW 20 [xff; xff; x14] LL_TRUSTED LL_UNENCODED LL_NOTDEPRECATED
    [B "TransactionData" MBT_SINGLE 0 [V "TransactionID" MVT_LLUUID 16; V "TransactionTime" MVT_U32 4; V "TransactionType" MVT_S32 4; V "SourceID" MVT_LLUUID 16; V "DestID" MVT_LLUUID 16; V "Flags" MVT_U8 1; V "Amount" MVT_S32 4; V "SimulatorIP" MVT_IP_ADDR 4; V "GridX" MVT_U32 4; V "GridY" MVT_U32 4; V "FailureType" MVT_U8 1]];
  T "UserReportInternal" LOW 21 [xff; xff; x15] LL_TRUSTED LL_ZEROCODED LL_NOTDEPRECATED
    [B "ReportData" MBT_SINGLE 0 [V "ReportType" MVT_U8 1; V "Category" MVT_U8 1; V "ReporterID" MVT_LLUUID 16; V "ViewerPosition" MVT_LLVector3 12; V "AgentPosition" MVT_LLVector3 12; V "ScreenshotID" MVT_LLUUID 16; V "ObjectID" MVT_LLUUID 16; V "OwnerID" MVT_LLUUID 16; V "LastOwnerID" MVT_LLUUID 16; V "CreatorID" MVT_LLUUID 16; V "RegionID" MVT_LLUUID 16; V "AbuserID" MVT_LLUUID 16; V "AbuseRegionName" MVT_VARIABLE 1; V "AbuseRegionID" MVT_LLUUID 16; V "Summary" MVT_VARIABLE 1; V "Details" MVT_VARIABLE 2; V "VersionString" MVT_VARIABLE 1]];
  T "SetSimStatusInDatabase" LOW 22 [xff; xff; x16] LL_TRUSTED LL_UNENCODED LL_NOTDEPRECATED
    [B "Data" MBT_SINGLE 0 [V "RegionID" MVT_LLUUID 16; V "HostName" MVT_VARIABLE 1; V "X" MVT_S32 4; V "Y" MVT_S32 4; V "PID" MVT_S32 4; V "AgentCount" MVT_S32 4; V "TimeToLive" MVT_S32 4; V "Status" MVT_VARIABLE 1]];
  T "SetSimPresenceInDatabase" LOW 23 [xff; xff; x17] LL_TRUSTED LL_UNENCODED LL_NOTDEPRECATED
    [B "SimData" MBT_SINGLE 0 [V "RegionID" MVT_LLUUID 16; V "HostName" MVT_VARIABLE 1; V "GridX" MVT_U32 4; V "GridY" MVT_U32 4; V "PID" MVT_S32 4; V "AgentCount" MVT_S32 4; V "TimeToLive" MVT_S32 4; V "Status" MVT_VARIABLE 1]];
  T "EconomyDataRequest" LOW 24 [xff; xff; x18] LL_NOTRUST LL_UNENCODED LL_NOTDEPRECATED
    [];
  T "EconomyData" LOW 25 [xff; xff; x19] LL_TRUSTED LL_ZEROCODED LL_NOTDEPRECATED
    [B "Info" MBT_SINGLE 0 [V "ObjectCapacity" MVT_S32 4; V "ObjectCount" MVT_S32 4; V "PriceEnergyUnit" MVT_S32 4; V "PriceObjectClaim" MVT_S32 4; V "PricePublicObjectDecay" MVT_S32 4; V "PricePublicObjectDelete" MVT_S32 4; V "PriceParcelClaim" MVT_S32 4; V "PriceParcelClaimFactor" MVT_F32 4; V "PriceUpload" MVT_S32 4; V "PriceRentLight" MVT_S32 4; V "TeleportMinPrice" MVT_S32 4; V "TeleportPriceExponent" MVT_F32 4; V "EnergyEfficiency" MVT_F32 4; V "PriceObjectRent" MVT_F32 4; V "PriceObjectScaleFactor" MVT_F32 4; V "PriceParcelRent" MVT_S32 4; V "PriceGroupCreate" MVT_S32 4]];
  T "AvatarPickerRequest" LOW 26 [xff; xff; x1a] LL_NOTRUST LL_UNENCODED LL_NOTDEPRECATED
    [B "AgentData" MBT_SINGLE 0 [V "AgentID" MVT_LLUUID 16; V "SessionID" MVT_LLUUID 16; V "QueryID" MVT_LLUUID 16];
     B "Data" MBT_SINGLE 0 [V "Name" MVT_VARIABLE 1]];
  T "AvatarPickerRequestBackend" LOW 27 [xff; xff; x1b] LL_TRUSTED LL_UNENCODED LL_NOTDEPRECATED
    [B "AgentData" MBT_SINGLE 0 [V "AgentID" MVT_LLUUID 16; V "SessionID" MVT_LLUUID 16; V "QueryID" MVT_LLUUID 16; V "GodLevel" MVT_U8 1];
     B "Data" MBT_SINGLE 0 [V "Name" MVT_VARIABLE 1]];
  T "AvatarPickerReply" LOW 28 [xff; xff; x1c] LL_TRUSTED LL_UNENCODED LL_NOTDEPRECATED
    [B "AgentData" MBT_SINGLE 0 [V "AgentID" MVT_LLUUID 16; V "QueryID" MVT_LLUUID 16];
     B "Data" MBT_VARIABLE 0 [V "AvatarID" MVT_LLUUID 16; V "FirstName" MVT_VARIABLE 1; V "LastName" MVT_VARIABLE 1]];
  T "PlacesQuery" LOW 29 [xff; xff; x1d] LL_NOTRUST LL_ZEROCODED LL_NOTDEPRECATED
    [B "AgentData" MBT_SINGLE 0 [V "AgentID" MVT_LLUUID 16; V "SessionID" MVT_LLUUID 16; V "QueryID" MVT_LLUUID 16];
     B "TransactionData" MBT_SINGLE 0 [V "TransactionID" MVT_LLUUID 16];
     B "QueryData" MBT_SINGLE 0 [V "QueryText" MVT_VARIABLE 1; V "QueryFlags" MVT_U32 4; V "Category" MVT_S8 1; V "SimName" MVT_VARIABLE 1]];
  T "PlacesReply" LOW 30 [xff; xff; x1e] LL_TRUSTED LL_ZEROCODED LL_UDPDEPRECATED
    [B "AgentData" MBT_SINGLE 0 [V "AgentID" MVT_LLUUID 16; V "QueryID" MVT_LLUUID 16];
     B "TransactionData" MBT_SINGLE 0 [V "TransactionID" MVT_LLUUID 16];
     B "QueryData" MBT_VARIABLE 0 [V "OwnerID" MVT_LLUUID 16; V "Name" MVT_VARIABLE 1; V "Desc" MVT_VARIABLE 1; V "ActualArea" MVT_S32 4; V "BillableArea" MVT_S32 4; V "Flags" MVT_U8 1; V "GlobalX" MVT_F32 4; V "GlobalY" MVT_F32 4; V "GlobalZ" MVT_F32 4; V "SimName" MVT_VARIABLE 1; V "SnapshotID" MVT_LLUUID 16; V "Dwell" MVT_F32 4; V "Price" MVT_S32 4]];
  T "DirFindQuery" LOW 31 [xff; xff; x1f] LL_NOTRUST LL_ZEROCODED LL_NOTDEPRECATED
    [B "AgentData" MBT_SINGLE 0 [V "AgentID" MVT_LLUUID 16; V "SessionID" MVT_LLUUID 16];
     B "QueryData" MBT_SINGLE 0 [V "QueryID" MVT_LLUUID 16; V "QueryText" MVT_VARIABLE 1; V "QueryFlags" MVT_U32 4; V "QueryStart" MVT_S32 4]];
  T "DirFindQueryBackend" LOW 32 [xff; xff; x20] LL_TRUSTED LL_ZEROCODED LL_NOTDEPRECATED
    [B "AgentData" MBT_SINGLE 0 [V "AgentID" MVT_LLUUID 16];
     B "QueryData" MBT_SINGLE 0 [V "QueryID" MVT_LLUUID 16; V "QueryText" MVT_VARIABLE 1; V "QueryFlags" MVT_U32 4; V "QueryStart" MVT_S32 4; V "EstateID" MVT_U32 4; V "Godlike" MVT_BOOL 1]];
  T "DirPlacesQuery" LOW 33 [xff; xff; x21] LL_NOTRUST LL_ZEROCODED LL_NOTDEPRECATED
    [B "AgentData" MBT_SINGLE 0 [V "AgentID" MVT_LLUUID 16; V "SessionID" MVT_LLUUID 16];
     B "QueryData" MBT_SINGLE 0 [V "QueryID" MVT_LLUUID 16; V "QueryText" MVT_VARIABLE 1; V "QueryFlags" MVT_U32 4; V "Category" MVT_S8 1; V "SimName" MVT_VARIABLE 1; V "QueryStart" MVT_S32 4]];
  T "DirPlacesQueryBackend" LOW 34 [xff; xff; x22] LL_TRUSTED LL_ZEROCODED LL_NOTDEPRECATED
    [B "AgentData" MBT_SINGLE 0 [V "AgentID" MVT_LLUUID 16];
     B "QueryData" MBT_SINGLE 0 [V "QueryID" MVT_LLUUID 16; V "QueryText" MVT_VARIABLE 1; V "QueryFlags" MVT_U32 4; V "Category" MVT_S8 1; V "SimName" MVT_VARIABLE 1; V "EstateID" MVT_U32 4; V "Godlike" MVT_BOOL 1; V "QueryStart" MVT_S32 4]]].

Definition shipped_1 : list template := [
  T "DirPlacesReply" LOW 35 [xff; xff; x23] LL_TRUSTED LL_ZEROCODED LL_NOTDEPRECATED
    [B "AgentData" MBT_SINGLE 0 [V "AgentID" MVT_LLUUID 16];
     B "QueryData" MBT_VARIABLE 0 [V "QueryID" MVT_LLUUID 16];
     B "QueryReplies" MBT_VARIABLE 0 [V "ParcelID" MVT_LLUUID 16; V "Name" MVT_VARIABLE 1; V "ForSale" MVT_BOOL 1; V "Auction" MVT_BOOL 1; V "Dwell" MVT_F32 4];
     B "StatusData" MBT_VARIABLE 0 [V "Status" MVT_U32 4]];
  T "DirPeopleReply" LOW 36 [xff; xff; x24] LL_TRUSTED LL_ZEROCODED LL_NOTDEPRECATED
    [B "AgentData" MBT_SINGLE 0 [V "AgentID" MVT_LLUUID 16];
     B "QueryData" MBT_SINGLE 0 [V "QueryID" MVT_LLUUID 16];
     B "QueryReplies" MBT_VARIABLE 0 [V "AgentID" MVT_LLUUID 16; V "FirstName" MVT_VARIABLE 1; V "LastName" MVT_VARIABLE 1; V "Group" MVT_VARIABLE 1; V "Online" MVT_BOOL 1; V "Reputation" MVT_S32 4]];
  T "DirEventsReply" LOW 37 [xff; xff; x25] LL_TRUSTED LL_ZEROCODED LL_NOTDEPRECATED
    [B "AgentData" MBT_SINGLE 0 [V "AgentID" MVT_LLUUID 16];
     B "QueryData" MBT_SINGLE 0 [V "QueryID" MVT_LLUUID 16];
     B "QueryReplies" MBT_VARIABLE 0 [V "OwnerID" MVT_LLUUID 16; V "Name" MVT_VARIABLE 1; V "EventID" MVT_U32 4; V "Date" MVT_VARIABLE 1; V "UnixTime" MVT_U32 4; V "EventFlags" MVT_U32 4];
     B "StatusData" MBT_VARIABLE 0 [V "Status" MVT_U32 4]];
  T "DirGroupsReply" LOW 38 [xff; xff; x26] LL_TRUSTED LL_ZEROCODED LL_NOTDEPRECATED
    [B "AgentData" MBT_SINGLE 0 [V "AgentID" MVT_LLUUID 16];
     B "QueryData" MBT_SINGLE 0 [V "QueryID" MVT_LLUUID 16];
     B "QueryReplies" MBT_VARIABLE 0 [V "GroupID" MVT_LLUUID 16; V "GroupName" MVT_VARIABLE 1; V "Members" MVT_S32 4; V "SearchOrder" MVT_F32 4]];
  T "DirClassifiedQuery" LOW 39 [xff; xff; x27] LL_NOTRUST LL_ZEROCODED LL_NOTDEPRECATED
    [B "AgentData" MBT_SINGLE 0 [V "AgentID" MVT_LLUUID 16; V "SessionID" MVT_LLUUID 16];
     B "QueryData" MBT_SINGLE 0 [V "QueryID" MVT_LLUUID 16; V "QueryText" MVT_VARIABLE 1; V "QueryFlags" MVT_U32 4; V "Category" MVT_U32 4; V "QueryStart" MVT_S32 4]];
  T "DirClassifiedQueryBackend" LOW 40 [xff; xff; x28] LL_TRUSTED LL_ZEROCODED LL_NOTDEPRECATED
    [B "AgentData" MBT_SINGLE 0 [V "AgentID" MVT_LLUUID 16];
     B "QueryData" MBT_SINGLE 0 [V "QueryID" MVT_LLUUID 16; V "QueryText" MVT_VARIABLE 1; V "QueryFlags" MVT_U32 4; V "Category" MVT_U32 4; V "EstateID" MVT_U32 4; V "Godlike" MVT_BOOL 1; V "QueryStart" MVT_S32 4]];
  T "DirClassifiedReply" LOW 41 [xff; xff; x29] LL_TRUSTED LL_ZEROCODED LL_NOTDEPRECATED
    [B "AgentData" MBT_SINGLE 0 [V "AgentID" MVT_LLUUID 16];
     B "QueryData" MBT_SINGLE 0 [V "QueryID" MVT_LLUUID 16];
     B "QueryReplies" MBT_VARIABLE 0 [V "ClassifiedID" MVT_LLUUID 16; V "Name" MVT_VARIABLE 1; V "ClassifiedFlags" MVT_U8 1; V "CreationDate" MVT_U32 4; V "ExpirationDate" MVT_U32 4; V "PriceForListing" MVT_S32 4];
     B "StatusData" MBT_VARIABLE 0 [V "Status" MVT_U32 4]];
  T "AvatarClassifiedReply" LOW 42 [xff; xff; x2a] LL_TRUSTED LL_UNENCODED LL_NOTDEPRECATED
    [B "AgentData" MBT_SINGLE 0 [V "AgentID" MVT_LLUUID 16; V "TargetID" MVT_LLUUID 16];
     B "Data" MBT_VARIABLE 0 [V "ClassifiedID" MVT_LLUUID 16; V "Name" MVT_VARIABLE 1]];
  T "ClassifiedInfoRequest" LOW 43 [xff; xff; x2b] LL_NOTRUST LL_ZEROCODED LL_NOTDEPRECATED
    [B "AgentData" MBT_SINGLE 0 [V "AgentID" MVT_LLUUID 16; V "SessionID" MVT_LLUUID 16];
     B "Data" MBT_SINGLE 0 [V "ClassifiedID" MVT_LLUUID 16]];
  T "ClassifiedInfoReply" LOW 44 [xff; xff; x2c] LL_TRUSTED LL_UNENCODED LL_NOTDEPRECATED
    [B "AgentData" MBT_SINGLE 0 [V "AgentID" MVT_LLUUID 16];
     B "Data" MBT_SINGLE 0 [V "ClassifiedID" MVT_LLUUID 16; V "CreatorID" MVT_LLUUID 16; V "CreationDate" MVT_U32 4; V "ExpirationDate" MVT_U32 4; V "Category" MVT_U32 4; V "Name" MVT_VARIABLE 1; V "Desc" MVT_VARIABLE 2; V "ParcelID" MVT_LLUUID 16; V "ParentEstate" MVT_U32 4; V "SnapshotID" MVT_LLUUID 16; V "SimName" MVT_VARIABLE 1; V "PosGlobal" MVT_LLVector3d 24; V "ParcelName" MVT_VARIABLE 1; V "ClassifiedFlags" MVT_U8 1; V "PriceForListing" MVT_S32 4]];
  T "ClassifiedInfoUpdate" LOW 45 [xff; xff; x2d] LL_NOTRUST LL_UNENCODED LL_NOTDEPRECATED
    [B "AgentData" MBT_SINGLE 0 [V "AgentID" MVT_LLUUID 16; V "SessionID" MVT_LLUUID 16];
     B "Data" MBT_SINGLE 0 [V "ClassifiedID" MVT_LLUUID 16; V "Category" MVT_U32 4; V "Name" MVT_VARIABLE 1; V "Desc" MVT_VARIABLE 2; V "ParcelID" MVT_LLUUID 16; V "ParentEstate" MVT_U32 4; V "SnapshotID" MVT_LLUUID 16; V "PosGlobal" MVT_LLVector3d 24; V "ClassifiedFlags" MVT_U8 1; V "PriceForListing" MVT_S32 4]];
  T "ClassifiedDelete" LOW 46 [xff; xff; x2e] LL_NOTRUST LL_UNENCODED LL_NOTDEPRECATED
    [B "AgentData" MBT_SINGLE 0 [V "AgentID" MVT_LLUUID 16; V "SessionID" MVT_LLUUID 16];
     B "Data" MBT_SINGLE 0 [V "ClassifiedID" MVT_LLUUID 16]];
  T "ClassifiedGodDelete" LOW 47 [xff; xff; x2f] LL_NOTRUST LL_UNENCODED LL_NOTDEPRECATED
    [B "AgentData" MBT_SINGLE 0 [V "AgentID" MVT_LLUUID 16; V "SessionID" MVT_LLUUID 16];
     B "Data" MBT_SINGLE 0 [V "ClassifiedID" MVT_LLUUID 16; V "QueryID" MVT_LLUUID 16]];
  T "DirLandQuery" LOW 48 [xff; xff; x30] LL_NOTRUST LL_ZEROCODED LL_NOTDEPRECATED
    [B "AgentData" MBT_SINGLE 0 [V "AgentID" MVT_LLUUID 16; V "SessionID" MVT_LLUUID 16];
     B "QueryData" MBT_SINGLE 0 [V "QueryID" MVT_LLUUID 16; V "QueryFlags" MVT_U32 4; V "SearchType" MVT_U32 4; V "Price" MVT_S32 4; V "Area" MVT_S32 4; V "QueryStart" MVT_S32 4]];
  T "DirLandQueryBackend" LOW 49 [xff; xff; x31] LL_TRUSTED LL_ZEROCODED LL_NOTDEPRECATED
    [B "AgentData" MBT_SINGLE 0 [V "AgentID" MVT_LLUUID 16];
     B "QueryData" MBT_SINGLE 0 [V "QueryID" MVT_LLUUID 16; V "QueryFlags" MVT_U32 4; V "SearchType" MVT_U32 4; V "Price" MVT_S32 4; V "Area" MVT_S32 4; V "QueryStart" MVT_S32 4; V "EstateID" MVT_U32 4; V "Godlike" MVT_BOOL 1]];
  T "DirLandReply" LOW 50 [xff; xff; x32] LL_TRUSTED LL_ZEROCODED LL_UDPDEPRECATED
    [B "AgentData" MBT_SINGLE 0 [V "AgentID" MVT_LLUUID 16];
     B "QueryData" MBT_SINGLE 0 [V "QueryID" MVT_LLUUID 16];
     B "QueryReplies" MBT_VARIABLE 0 [V "ParcelID" MVT_LLUUID 16; V "Name" MVT_VARIABLE 1; V "Auction" MVT_BOOL 1; V "ForSale" MVT_BOOL 1; V "SalePrice" MVT_S32 4; V "ActualArea" MVT_S32 4]];
  T "DirPopularQuery" LOW 51 [xff; xff; x33] LL_NOTRUST LL_ZEROCODED LL_DEPRECATED
    [B "AgentData" MBT_SINGLE 0 [V "AgentID" MVT_LLUUID 16; V "SessionID" MVT_LLUUID 16];
     B "QueryData" MBT_SINGLE 0 [V "QueryID" MVT_LLUUID 16; V "QueryFlags" MVT_U32 4]];
  T "DirPopularQueryBackend" LOW 52 [xff; xff; x34] LL_TRUSTED LL_ZEROCODED LL_DEPRECATED
    [B "AgentData" MBT_SINGLE 0 [V "AgentID" MVT_LLUUID 16];
     B "QueryData" MBT_SINGLE 0 [V "QueryID" MVT_LLUUID 16; V "QueryFlags" MVT_U32 4; V "EstateID" MVT_U32 4; V "Godlike" MVT_BOOL 1]];
  T "DirPopularReply" LOW 53 [xff; xff; x35] LL_TRUSTED LL_ZEROCODED LL_DEPRECATED
    [B "AgentData" MBT_SINGLE 0 [V "AgentID" MVT_LLUUID 16];
     B "QueryData" MBT_SINGLE 0 [V "QueryID" MVT_LLUUID 16];
     B "QueryReplies" MBT_VARIABLE 0 [V "ParcelID" MVT_LLUUID 16; V "Name" MVT_VARIABLE 1; V "Dwell" MVT_F32 4]];
  T "ParcelInfoRequest" LOW 54 [xff; xff; x36] LL_NOTRUST LL_UNENCODED LL_NOTDEPRECATED
    [B "AgentData" MBT_SINGLE 0 [V "AgentID" MVT_LLUUID 16; V "SessionID" MVT_LLUUID 16];
     B "Data" MBT_SINGLE 0 [V "ParcelID" MVT_LLUUID 16]];
  T "ParcelInfoReply" LOW 55 [xff; xff; x37] LL_TRUSTED LL_ZEROCODED LL_NOTDEPRECATED
    [B "AgentData" MBT_SINGLE 0 [V "AgentID" MVT_LLUUID 16];
     B "Data" MBT_SINGLE 0 [V "ParcelID" MVT_LLUUID 16; V "OwnerID" MVT_LLUUID 16; V "Name" MVT_VARIABLE 1; V "Desc" MVT_VARIABLE 1; V "ActualArea" MVT_S32 4; V "BillableArea" MVT_S32 4; V "Flags" MVT_U8 1; V "GlobalX" MVT_F32 4; V "GlobalY" MVT_F32 4; V "GlobalZ" MVT_F32 4; V "SimName" MVT_VARIABLE 1; V "SnapshotID" MVT_LLUUID 16; V "Dwell" MVT_F32 4; V "SalePrice" MVT_S32 4; V "AuctionID" MVT_S32 4]];
  T "ParcelObjectOwnersRequest" LOW 56 [xff; xff; x38] LL_NOTRUST LL_UNENCODED LL_NOTDEPRECATED
    [B "AgentData" MBT_SINGLE 0 [V "AgentID" MVT_LLUUID 16; V "SessionID" MVT_LLUUID 16];
     B "ParcelData" MBT_SINGLE 0 [V "LocalID" MVT_S32 4]];
  T "ParcelObjectOwnersReply" LOW 57 [xff; xff; x39] LL_TRUSTED LL_ZEROCODED LL_UDPDEPRECATED
    [B "Data" MBT_VARIABLE 0 [V "OwnerID" MVT_LLUUID 16; V "IsGroupOwned" MVT_BOOL 1; V "Count" MVT_S32 4; V "OnlineStatus" MVT_BOOL 1]];
  T "GroupNoticesListRequest" LOW 58 [xff; xff; x3a] LL_NOTRUST LL_UNENCODED LL_NOTDEPRECATED
    [B "AgentData" MBT_SINGLE 0 [V "AgentID" MVT_LLUUID 16; V "SessionID" MVT_LLUUID 16];
     B "Data" MBT_SINGLE 0 [V "GroupID" MVT_LLUUID 16]];
  T "GroupNoticesListReply" LOW 59 [xff; xff; x3b] LL_TRUSTED LL_UNENCODED LL_NOTDEPRECATED
    [B "AgentData" MBT_SINGLE 0 [V "AgentID" MVT_LLUUID 16; V "GroupID" MVT_LLUUID 16];
     B "Data" MBT_VARIABLE 0 [V "NoticeID" MVT_LLUUID 16; V "Timestamp" MVT_U32 4; V "FromName" MVT_VARIABLE 2; V "Subject" MVT_VARIABLE 2; V "HasAttachment" MVT_BOOL 1; V "AssetType" MVT_U8 1]];
  T "GroupNoticeRequest" LOW 60 [xff; xff; x3c] LL_NOTRUST LL_UNENCODED LL_NOTDEPRECATED
    [B "AgentData" MBT_SINGLE 0 [V "AgentID" MVT_LLUUID 16; V "SessionID" MVT_LLUUID 16];
     B "Data" MBT_SINGLE 0 [V "GroupNoticeID" MVT_LLUUID 16]];
  T "GroupNoticeAdd" LOW 61 [xff; xff; x3d] LL_TRUSTED LL_UNENCODED LL_NOTDEPRECATED
    [B "AgentData" MBT_SINGLE 0 [V "AgentID" MVT_LLUUID 16];
     B "MessageBlock" MBT_SINGLE 0 [V "ToGroupID" MVT_LLUUID 16; V "ID" MVT_LLUUID 16; V "Dialog" MVT_U8 1; V "FromAgentName" MVT_VARIABLE 1; V "Message" MVT_VARIABLE 2; V "BinaryBucket" MVT_VARIABLE 2]];
  T "TeleportRequest" LOW 62 [xff; xff; x3e] LL_NOTRUST LL_UNENCODED LL_NOTDEPRECATED
    [B "AgentData" MBT_SINGLE 0 [V "AgentID" MVT_LLUUID 16; V "SessionID" MVT_LLUUID 16];
     B "Info" MBT_SINGLE 0 [V "RegionID" MVT_LLUUID 16; V "Position" MVT_LLVector3 12; V "LookAt" MVT_LLVector3 12]];
  T "TeleportLocationRequest" LOW 63 [xff; xff; x3f] LL_NOTRUST LL_UNENCODED LL_NOTDEPRECATED
    [B "AgentData" MBT_SINGLE 0 [V "AgentID" MVT_LLUUID 16; V "SessionID" MVT_LLUUID 16];
     B "Info" MBT_SINGLE 0 [V "RegionHandle" MVT_U64 8; V "Position" MVT_LLVector3 12; V "LookAt" MVT_LLVector3 12]];
  T "TeleportLocal" LOW 64 [xff; xff; x40] LL_TRUSTED LL_UNENCODED LL_NOTDEPRECATED
    [B "Info" MBT_SINGLE 0 [V "AgentID" MVT_LLUUID 16; V "LocationID" MVT_U32 4; V "Position" MVT_LLVector3 12; V "LookAt" MVT_LLVector3 12; V "TeleportFlags" MVT_U32 4]];
  T "TeleportLandmarkRequest" LOW 65 [xff; xff; x41] LL_NOTRUST LL_ZEROCODED LL_NOTDEPRECATED
    [B "Info" MBT_SINGLE 0 [V "AgentID" MVT_LLUUID 16; V "SessionID" MVT_LLUUID 16; V "LandmarkID" MVT_LLUUID 16]];
  T "TeleportProgress" LOW 66 [xff; xff; x42] LL_TRUSTED LL_UNENCODED LL_NOTDEPRECATED
    [B "AgentData" MBT_SINGLE 0 [V "AgentID" MVT_LLUUID 16];
     B "Info" MBT_SINGLE 0 [V "TeleportFlags" MVT_U32 4; V "Message" MVT_VARIABLE 1]];
  T "DataHomeLocationRequest" LOW 67 [xff; xff; x43] LL_TRUSTED LL_ZEROCODED LL_NOTDEPRECATED
    [B "Info" MBT_SINGLE 0 [V "AgentID" MVT_LLUUID 16; V "KickedFromEstateID" MVT_U32 4]];
  T "DataHomeLocationReply" LOW 68 [xff; xff; x44] LL_TRUSTED LL_UNENCODED LL_NOTDEPRECATED
    [B "Info" MBT_SINGLE 0 [V "AgentID" MVT_LLUUID 16; V "RegionHandle" MVT_U64 8; V "Position" MVT_LLVector3 12; V "LookAt" MVT_LLVector3 12]];
  T "TeleportFinish" LOW 69 [xff; xff; x45] LL_TRUSTED LL_UNENCODED LL_UDPBLACKLISTED
    [B "Info" MBT_SINGLE 0 [V "AgentID" MVT_LLUUID 16; V "LocationID" MVT_U32 4; V "SimIP" MVT_IP_ADDR 4; V "SimPort" MVT_IP_PORT 2; V "RegionHandle" MVT_U64 8; V "SeedCapability" MVT_VARIABLE 2; V "SimAccess" MVT_U8 1; V "TeleportFlags" MVT_U32 4]];
  T "StartLure" LOW 70 [xff; xff; x46] LL_NOTRUST LL_UNENCODED LL_NOTDEPRECATED
    [B "AgentData" MBT_SINGLE 0 [V "AgentID" MVT_LLUUID 16; V "SessionID" MVT_LLUUID 16];
     B "Info" MBT_SINGLE 0 [V "LureType" MVT_U8 1; V "Message" MVT_VARIABLE 1];
     B "TargetData" MBT_VARIABLE 0 [V "TargetID" MVT_LLUUID 16]];
  T "TeleportLureRequest" LOW 71 [xff; xff; x47] LL_NOTRUST LL_UNENCODED LL_NOTDEPRECATED
    [B "Info" MBT_SINGLE 0 [V "AgentID" MVT_LLUUID 16; V "SessionID" MVT_LLUUID 16; V "LureID" MVT_LLUUID 16; V "TeleportFlags" MVT_U32 4]];
  T "TeleportCancel" LOW 72 [xff; xff; x48] LL_NOTRUST LL_UNENCODED LL_NOTDEPRECATED
    [B "Info" MBT_SINGLE 0 [V "AgentID" MVT_LLUUID 16; V "SessionID" MVT_LLUUID 16]];
  T "TeleportStart" LOW 73 [xff; xff; x49] LL_TRUSTED LL_UNENCODED LL_NOTDEPRECATED
    [B "Info" MBT_SINGLE 0 [V "TeleportFlags" MVT_U32 4]];
  T "TeleportFailed" LOW 74 [xff; xff; x4a] LL_TRUSTED LL_UNENCODED LL_NOTDEPRECATED
    [B "Info" MBT_SINGLE 0 [V "AgentID" MVT_LLUUID 16; V "Reason" MVT_VARIABLE 1];
     B "AlertInfo" MBT_VARIABLE 0 [V "Message" MVT_VARIABLE 1; V "ExtraParams" MVT_VARIABLE 1]]].

Definition shipped_2 : list template := [
  T "Undo" LOW 75 [xff; xff; x4b] LL_NOTRUST LL_UNENCODED LL_NOTDEPRECATED
    [B "AgentData" MBT_SINGLE 0 [V "AgentID" MVT_LLUUID 16; V "SessionID" MVT_LLUUID 16; V "GroupID" MVT_LLUUID 16];
     B "ObjectData" MBT_VARIABLE 0 [V "ObjectID" MVT_LLUUID 16]];
  T "Redo" LOW 76 [xff; xff; x4c] LL_NOTRUST LL_UNENCODED LL_NOTDEPRECATED
    [B "AgentData" MBT_SINGLE 0 [V "AgentID" MVT_LLUUID 16; V "SessionID" MVT_LLUUID 16; V "GroupID" MVT_LLUUID 16];
     B "ObjectData" MBT_VARIABLE 0 [V "ObjectID" MVT_LLUUID 16]];
  T "UndoLand" LOW 77 [xff; xff; x4d] LL_NOTRUST LL_UNENCODED LL_NOTDEPRECATED
    [B "AgentData" MBT_SINGLE 0 [V "AgentID" MVT_LLUUID 16; V "SessionID" MVT_LLUUID 16]];
  T "AgentPause" LOW 78 [xff; xff; x4e] LL_NOTRUST LL_UNENCODED LL_NOTDEPRECATED
    [B "AgentData" MBT_SINGLE 0 [V "AgentID" MVT_LLUUID 16; V "SessionID" MVT_LLUUID 16; V "SerialNum" MVT_U32 4]];
  T "AgentResume" LOW 79 [xff; xff; x4f] LL_NOTRUST LL_UNENCODED LL_NOTDEPRECATED
    [B "AgentData" MBT_SINGLE 0 [V "AgentID" MVT_LLUUID 16; V "SessionID" MVT_LLUUID 16; V "SerialNum" MVT_U32 4]];
  T "AgentUpdate" HIGH 4 [x04] LL_NOTRUST LL_ZEROCODED LL_NOTDEPRECATED
    [B "AgentData" MBT_SINGLE 0 [V "AgentID" MVT_LLUUID 16; V "SessionID" MVT_LLUUID 16; V "BodyRotation" MVT_LLQuaternion 12; V "HeadRotation" MVT_LLQuaternion 12; V "State" MVT_U8 1; V "CameraCenter" MVT_LLVector3 12; V "CameraAtAxis" MVT_LLVector3 12; V "CameraLeftAxis" MVT_LLVector3 12; V "CameraUpAxis" MVT_LLVector3 12; V "Far" MVT_F32 4; V "ControlFlags" MVT_U32 4; V "Flags" MVT_U8 1]];
  T "ChatFromViewer" LOW 80 [xff; xff; x50] LL_NOTRUST LL_ZEROCODED LL_NOTDEPRECATED
    [B "AgentData" MBT_SINGLE 0 [V "AgentID" MVT_LLUUID 16; V "SessionID" MVT_LLUUID 16];
     B "ChatData" MBT_SINGLE 0 [V "Message" MVT_VARIABLE 2; V "Type" MVT_U8 1; V "Channel" MVT_S32 4]];
  T "AgentThrottle" LOW 81 [xff; xff; x51] LL_NOTRUST LL_ZEROCODED LL_NOTDEPRECATED
    [B "AgentData" MBT_SINGLE 0 [V "AgentID" MVT_LLUUID 16; V "SessionID" MVT_LLUUID 16; V "CircuitCode" MVT_U32 4];
     B "Throttle" MBT_SINGLE 0 [V "GenCounter" MVT_U32 4; V "Throttles" MVT_VARIABLE 1]];
  T "AgentFOV" LOW 82 [xff; xff; x52] LL_NOTRUST LL_UNENCODED LL_NOTDEPRECATED
    [B "AgentData" MBT_SINGLE 0 [V "AgentID" MVT_LLUUID 16; V "SessionID" MVT_LLUUID 16; V "CircuitCode" MVT_U32 4];
     B "FOVBlock" MBT_SINGLE 0 [V "GenCounter" MVT_U32 4; V "VerticalAngle" MVT_F32 4]];
  T "AgentHeightWidth" LOW 83 [xff; xff; x53] LL_NOTRUST LL_UNENCODED LL_NOTDEPRECATED
    [B "AgentData" MBT_SINGLE 0 [V "AgentID" MVT_LLUUID 16; V "SessionID" MVT_LLUUID 16; V "CircuitCode" MVT_U32 4];
     B "HeightWidthBlock" MBT_SINGLE 0 [V "GenCounter" MVT_U32 4; V "Height" MVT_U16 2; V "Width" MVT_U16 2]];
  T "AgentSetAppearance" LOW 84 [xff; xff; x54] LL_NOTRUST LL_ZEROCODED LL_NOTDEPRECATED
    [B "AgentData" MBT_SINGLE 0 [V "AgentID" MVT_LLUUID 16; V "SessionID" MVT_LLUUID 16; V "SerialNum" MVT_U32 4; V "Size" MVT_LLVector3 12];
     B "WearableData" MBT_VARIABLE 0 [V "CacheID" MVT_LLUUID 16; V "TextureIndex" MVT_U8 1];
     B "ObjectData" MBT_SINGLE 0 [V "TextureEntry" MVT_VARIABLE 2];
     B "VisualParam" MBT_VARIABLE 0 [V "ParamValue" MVT_U8 1]];
  T "AgentAnimation" HIGH 5 [x05] LL_NOTRUST LL_UNENCODED LL_NOTDEPRECATED
    [B "AgentData" MBT_SINGLE 0 [V "AgentID" MVT_LLUUID 16; V "SessionID" MVT_LLUUID 16];
     B "AnimationList" MBT_VARIABLE 0 [V "AnimID" MVT_LLUUID 16; V "StartAnim" MVT_BOOL 1];
     B "PhysicalAvatarEventList" MBT_VARIABLE 0 [V "TypeData" MVT_VARIABLE 1]];
  T "AgentRequestSit" HIGH 6 [x06] LL_NOTRUST LL_ZEROCODED LL_NOTDEPRECATED
    [B "AgentData" MBT_SINGLE 0 [V "AgentID" MVT_LLUUID 16; V "SessionID" MVT_LLUUID 16];
     B "TargetObject" MBT_SINGLE 0 [V "TargetID" MVT_LLUUID 16; V "Offset" MVT_LLVector3 12]];
  T "AgentSit" HIGH 7 [x07] LL_NOTRUST LL_UNENCODED LL_NOTDEPRECATED
    [B "AgentData" MBT_SINGLE 0 [V "AgentID" MVT_LLUUID 16; V "SessionID" MVT_LLUUID 16]];
  T "AgentQuitCopy" LOW 85 [xff; xff; x55] LL_NOTRUST LL_UNENCODED LL_NOTDEPRECATED
    [B "AgentData" MBT_SINGLE 0 [V "AgentID" MVT_LLUUID 16; V "SessionID" MVT_LLUUID 16];
     B "FuseBlock" MBT_SINGLE 0 [V "ViewerCircuitCode" MVT_U32 4]];
  T "RequestImage" HIGH 8 [x08] LL_NOTRUST LL_UNENCODED LL_NOTDEPRECATED
    [B "AgentData" MBT_SINGLE 0 [V "AgentID" MVT_LLUUID 16; V "SessionID" MVT_LLUUID 16];
     B "RequestImage" MBT_VARIABLE 0 [V "Image" MVT_LLUUID 16; V "DiscardLevel" MVT_S8 1; V "DownloadPriority" MVT_F32 4; V "Packet" MVT_U32 4; V "Type" MVT_U8 1]];
  T "ImageNotInDatabase" LOW 86 [xff; xff; x56] LL_TRUSTED LL_UNENCODED LL_NOTDEPRECATED
    [B "ImageID" MBT_SINGLE 0 [V "ID" MVT_LLUUID 16]];
  T "RebakeAvatarTextures" LOW 87 [xff; xff; x57] LL_TRUSTED LL_UNENCODED LL_NOTDEPRECATED
    [B "TextureData" MBT_SINGLE 0 [V "TextureID" MVT_LLUUID 16]];
  T "SetAlwaysRun" LOW 88 [xff; xff; x58] LL_NOTRUST LL_UNENCODED LL_NOTDEPRECATED
    [B "AgentData" MBT_SINGLE 0 [V "AgentID" MVT_LLUUID 16; V "SessionID" MVT_LLUUID 16; V "AlwaysRun" MVT_BOOL 1]];
  T "ObjectAdd" MEDIUM 1 [xff; x01] LL_NOTRUST LL_ZEROCODED LL_NOTDEPRECATED
    [B "AgentData" MBT_SINGLE 0 [V "AgentID" MVT_LLUUID 16; V "SessionID" MVT_LLUUID 16; V "GroupID" MVT_LLUUID 16];
     B "ObjectData" MBT_SINGLE 0 [V "PCode" MVT_U8 1; V "Material" MVT_U8 1; V "AddFlags" MVT_U32 4; V "PathCurve" MVT_U8 1; V "ProfileCurve" MVT_U8 1; V "PathBegin" MVT_U16 2; V "PathEnd" MVT_U16 2; V "PathScaleX" MVT_U8 1; V "PathScaleY" MVT_U8 1; V "PathShearX" MVT_U8 1; V "PathShearY" MVT_U8 1; V "PathTwist" MVT_S8 1; V "PathTwistBegin" MVT_S8 1; V "PathRadiusOffset" MVT_S8 1; V "PathTaperX" MVT_S8 1; V "PathTaperY" MVT_S8 1; V "PathRevolutions" MVT_U8 1; V "PathSkew" MVT_S8 1; V "ProfileBegin" MVT_U16 2; V "ProfileEnd" MVT_U16 2; V "ProfileHollow" MVT_U16 2; V "BypassRaycast" MVT_U8 1; V "RayStart" MVT_LLVector3 12; V "RayEnd" MVT_LLVector3 12; V "RayTargetID" MVT_LLUUID 16; V "RayEndIsIntersection" MVT_U8 1; V "Scale" MVT_LLVector3 12; V "Rotation" MVT_LLQuaternion 12; V "State" MVT_U8 1]];
  T "ObjectDelete" LOW 89 [xff; xff; x59] LL_NOTRUST LL_ZEROCODED LL_NOTDEPRECATED
    [B "AgentData" MBT_SINGLE 0 [V "AgentID" MVT_LLUUID 16; V "SessionID" MVT_LLUUID 16; V "Force" MVT_BOOL 1];
     B "ObjectData" MBT_VARIABLE 0 [V "ObjectLocalID" MVT_U32 4]];
  T "ObjectDuplicate" LOW 90 [xff; xff; x5a] LL_NOTRUST LL_ZEROCODED LL_NOTDEPRECATED
    [B "AgentData" MBT_SINGLE 0 [V "AgentID" MVT_LLUUID 16; V "SessionID" MVT_LLUUID 16; V "GroupID" MVT_LLUUID 16];
     B "SharedData" MBT_SINGLE 0 [V "Offset" MVT_LLVector3 12; V "DuplicateFlags" MVT_U32 4];
     B "ObjectData" MBT_VARIABLE 0 [V "ObjectLocalID" MVT_U32 4]];
  T "ObjectDuplicateOnRay" LOW 91 [xff; xff; x5b] LL_NOTRUST LL_ZEROCODED LL_NOTDEPRECATED
    [B "AgentData" MBT_SINGLE 0 [V "AgentID" MVT_LLUUID 16; V "SessionID" MVT_LLUUID 16; V "GroupID" MVT_LLUUID 16; V "RayStart" MVT_LLVector3 12; V "RayEnd" MVT_LLVector3 12; V "BypassRaycast" MVT_BOOL 1; V "RayEndIsIntersection" MVT_BOOL 1; V "CopyCenters" MVT_BOOL 1; V "CopyRotates" MVT_BOOL 1; V "RayTargetID" MVT_LLUUID 16; V "DuplicateFlags" MVT_U32 4];
     B "ObjectData" MBT_VARIABLE 0 [V "ObjectLocalID" MVT_U32 4]];
  T "MultipleObjectUpdate" MEDIUM 2 [xff; x02] LL_NOTRUST LL_ZEROCODED LL_NOTDEPRECATED
    [B "AgentData" MBT_SINGLE 0 [V "AgentID" MVT_LLUUID 16; V "SessionID" MVT_LLUUID 16];
     B "ObjectData" MBT_VARIABLE 0 [V "ObjectLocalID" MVT_U32 4; V "Type" MVT_U8 1; V "Data" MVT_VARIABLE 1]];
  T "RequestMultipleObjects" MEDIUM 3 [xff; x03] LL_NOTRUST LL_ZEROCODED LL_NOTDEPRECATED
    [B "AgentData" MBT_SINGLE 0 [V "AgentID" MVT_LLUUID 16; V "SessionID" MVT_LLUUID 16];
     B "ObjectData" MBT_VARIABLE 0 [V "CacheMissType" MVT_U8 1; V "ID" MVT_U32 4]];
  T "ObjectPosition" MEDIUM 4 [xff; x04] LL_NOTRUST LL_ZEROCODED LL_DEPRECATED
    [B "AgentData" MBT_SINGLE 0 [V "AgentID" MVT_LLUUID 16; V "SessionID" MVT_LLUUID 16];
     B "ObjectData" MBT_VARIABLE 0 [V "ObjectLocalID" MVT_U32 4; V "Position" MVT_LLVector3 12]];
  T "ObjectScale" LOW 92 [xff; xff; x5c] LL_NOTRUST LL_ZEROCODED LL_DEPRECATED
    [B "AgentData" MBT_SINGLE 0 [V "AgentID" MVT_LLUUID 16; V "SessionID" MVT_LLUUID 16];
     B "ObjectData" MBT_VARIABLE 0 [V "ObjectLocalID" MVT_U32 4; V "Scale" MVT_LLVector3 12]];
  T "ObjectRotation" LOW 93 [xff; xff; x5d] LL_NOTRUST LL_ZEROCODED LL_NOTDEPRECATED
    [B "AgentData" MBT_SINGLE 0 [V "AgentID" MVT_LLUUID 16; V "SessionID" MVT_LLUUID 16];
     B "ObjectData" MBT_VARIABLE 0 [V "ObjectLocalID" MVT_U32 4; V "Rotation" MVT_LLQuaternion 12]];
  T "ObjectFlagUpdate" LOW 94 [xff; xff; x5e] LL_NOTRUST LL_ZEROCODED LL_NOTDEPRECATED
    [B "AgentData" MBT_SINGLE 0 [V "AgentID" MVT_LLUUID 16; V "SessionID" MVT_LLUUID 16; V "ObjectLocalID" MVT_U32 4; V "UsePhysics" MVT_BOOL 1; V "IsTemporary" MVT_BOOL 1; V "IsPhantom" MVT_BOOL 1; V "CastsShadows" MVT_BOOL 1]];
  T "ObjectClickAction" LOW 95 [xff; xff; x5f] LL_NOTRUST LL_ZEROCODED LL_NOTDEPRECATED
    [B "AgentData" MBT_SINGLE 0 [V "AgentID" MVT_LLUUID 16; V "SessionID" MVT_LLUUID 16];
     B "ObjectData" MBT_VARIABLE 0 [V "ObjectLocalID" MVT_U32 4; V "ClickAction" MVT_U8 1]];
  T "ObjectImage" LOW 96 [xff; xff; x60] LL_NOTRUST LL_ZEROCODED LL_NOTDEPRECATED
    [B "AgentData" MBT_SINGLE 0 [V "AgentID" MVT_LLUUID 16; V "SessionID" MVT_LLUUID 16];
     B "ObjectData" MBT_VARIABLE 0 [V "ObjectLocalID" MVT_U32 4; V "MediaURL" MVT_VARIABLE 1; V "TextureEntry" MVT_VARIABLE 2]];
  T "ObjectMaterial" LOW 97 [xff; xff; x61] LL_NOTRUST LL_ZEROCODED LL_NOTDEPRECATED
    [B "AgentData" MBT_SINGLE 0 [V "AgentID" MVT_LLUUID 16; V "SessionID" MVT_LLUUID 16];
     B "ObjectData" MBT_VARIABLE 0 [V "ObjectLocalID" MVT_U32 4; V "Material" MVT_U8 1]];
  T "ObjectShape" LOW 98 [xff; xff; x62] LL_NOTRUST LL_ZEROCODED LL_NOTDEPRECATED
    [B "AgentData" MBT_SINGLE 0 [V "AgentID" MVT_LLUUID 16; V "SessionID" MVT_LLUUID 16];
     B "ObjectData" MBT_VARIABLE 0 [V "ObjectLocalID" MVT_U32 4; V "PathCurve" MVT_U8 1; V "ProfileCurve" MVT_U8 1; V "PathBegin" MVT_U16 2; V "PathEnd" MVT_U16 2; V "PathScaleX" MVT_U8 1; V "PathScaleY" MVT_U8 1; V "PathShearX" MVT_U8 1; V "PathShearY" MVT_U8 1; V "PathTwist" MVT_S8 1; V "PathTwistBegin" MVT_S8 1; V "PathRadiusOffset" MVT_S8 1; V "PathTaperX" MVT_S8 1; V "PathTaperY" MVT_S8 1; V "PathRevolutions" MVT_U8 1; V "PathSkew" MVT_S8 1; V "ProfileBegin" MVT_U16 2; V "ProfileEnd" MVT_U16 2; V "ProfileHollow" MVT_U16 2]];
  T "ObjectExtraParams" LOW 99 [xff; xff; x63] LL_NOTRUST LL_ZEROCODED LL_NOTDEPRECATED
    [B "AgentData" MBT_SINGLE 0 [V "AgentID" MVT_LLUUID 16; V "SessionID" MVT_LLUUID 16];
     B "ObjectData" MBT_VARIABLE 0 [V "ObjectLocalID" MVT_U32 4; V "ParamType" MVT_U16 2; V "ParamInUse" MVT_BOOL 1; V "ParamSize" MVT_U32 4; V "ParamData" MVT_VARIABLE 1]];
  T "ObjectOwner" LOW 100 [xff; xff; x64] LL_NOTRUST LL_ZEROCODED LL_NOTDEPRECATED
    [B "AgentData" MBT_SINGLE 0 [V "AgentID" MVT_LLUUID 16; V "SessionID" MVT_LLUUID 16];
     B "HeaderData" MBT_SINGLE 0 [V "Override" MVT_BOOL 1; V "OwnerID" MVT_LLUUID 16; V "GroupID" MVT_LLUUID 16];
     B "ObjectData" MBT_VARIABLE 0 [V "ObjectLocalID" MVT_U32 4]];
  T "ObjectGroup" LOW 101 [xff; xff; x65] LL_NOTRUST LL_ZEROCODED LL_NOTDEPRECATED
    [B "AgentData" MBT_SINGLE 0 [V "AgentID" MVT_LLUUID 16; V "SessionID" MVT_LLUUID 16; V "GroupID" MVT_LLUUID 16];
     B "ObjectData" MBT_VARIABLE 0 [V "ObjectLocalID" MVT_U32 4]];
  T "ObjectBuy" LOW 102 [xff; xff; x66] LL_NOTRUST LL_ZEROCODED LL_NOTDEPRECATED
    [B "AgentData" MBT_SINGLE 0 [V "AgentID" MVT_LLUUID 16; V "SessionID" MVT_LLUUID 16; V "GroupID" MVT_LLUUID 16; V "CategoryID" MVT_LLUUID 16];
     B "ObjectData" MBT_VARIABLE 0 [V "ObjectLocalID" MVT_U32 4; V "SaleType" MVT_U8 1; V "SalePrice" MVT_S32 4]];
  T "BuyObjectInventory" LOW 103 [xff; xff; x67] LL_NOTRUST LL_ZEROCODED LL_NOTDEPRECATED
    [B "AgentData" MBT_SINGLE 0 [V "AgentID" MVT_LLUUID 16; V "SessionID" MVT_LLUUID 16];
     B "Data" MBT_SINGLE 0 [V "ObjectID" MVT_LLUUID 16; V "ItemID" MVT_LLUUID 16; V "FolderID" MVT_LLUUID 16]];
  T "DerezContainer" LOW 104 [xff; xff; x68] LL_TRUSTED LL_ZEROCODED LL_NOTDEPRECATED
    [B "Data" MBT_SINGLE 0 [V "ObjectID" MVT_LLUUID 16; V "Delete" MVT_BOOL 1]];
  T "ObjectPermissions" LOW 105 [xff; xff; x69] LL_NOTRUST LL_ZEROCODED LL_NOTDEPRECATED
    [B "AgentData" MBT_SINGLE 0 [V "AgentID" MVT_LLUUID 16; V "SessionID" MVT_LLUUID 16];
     B "HeaderData" MBT_SINGLE 0 [V "Override" MVT_BOOL 1];
     B "ObjectData" MBT_VARIABLE 0 [V "ObjectLocalID" MVT_U32 4; V "Field" MVT_U8 1; V "Set" MVT_U8 1; V "Mask" MVT_U32 4]]].

Definition shipped_3 : list template := [
  T "ObjectSaleInfo" LOW 106 [xff; xff; x6a] LL_NOTRUST LL_ZEROCODED LL_NOTDEPRECATED
    [B "AgentData" MBT_SINGLE 0 [V "AgentID" MVT_LLUUID 16; V "SessionID" MVT_LLUUID 16];
     B "ObjectData" MBT_VARIABLE 0 [V "LocalID" MVT_U32 4; V "SaleType" MVT_U8 1; V "SalePrice" MVT_S32 4]];
  T "ObjectName" LOW 107 [xff; xff; x6b] LL_NOTRUST LL_ZEROCODED LL_NOTDEPRECATED
    [B "AgentData" MBT_SINGLE 0 [V "AgentID" MVT_LLUUID 16; V "SessionID" MVT_LLUUID 16];
     B "ObjectData" MBT_VARIABLE 0 [V "LocalID" MVT_U32 4; V "Name" MVT_VARIABLE 1]];
  T "ObjectDescription" LOW 108 [xff; xff; x6c] LL_NOTRUST LL_ZEROCODED LL_NOTDEPRECATED
    [B "AgentData" MBT_SINGLE 0 [V "AgentID" MVT_LLUUID 16; V "SessionID" MVT_LLUUID 16];
     B "ObjectData" MBT_VARIABLE 0 [V "LocalID" MVT_U32 4; V "Description" MVT_VARIABLE 1]];
  T "ObjectCategory" LOW 109 [xff; xff; x6d] LL_NOTRUST LL_ZEROCODED LL_NOTDEPRECATED
    [B "AgentData" MBT_SINGLE 0 [V "AgentID" MVT_LLUUID 16; V "SessionID" MVT_LLUUID 16];
     B "ObjectData" MBT_VARIABLE 0 [V "LocalID" MVT_U32 4; V "Category" MVT_U32 4]];
  T "ObjectSelect" LOW 110 [xff; xff; x6e] LL_NOTRUST LL_ZEROCODED LL_NOTDEPRECATED
    [B "AgentData" MBT_SINGLE 0 [V "AgentID" MVT_LLUUID 16; V "SessionID" MVT_LLUUID 16];
     B "ObjectData" MBT_VARIABLE 0 [V "ObjectLocalID" MVT_U32 4]];
  T "ObjectDeselect" LOW 111 [xff; xff; x6f] LL_NOTRUST LL_ZEROCODED LL_NOTDEPRECATED
    [B "AgentData" MBT_SINGLE 0 [V "AgentID" MVT_LLUUID 16; V "SessionID" MVT_LLUUID 16];
     B "ObjectData" MBT_VARIABLE 0 [V "ObjectLocalID" MVT_U32 4]];
  T "ObjectAttach" LOW 112 [xff; xff; x70] LL_NOTRUST LL_ZEROCODED LL_NOTDEPRECATED
    [B "AgentData" MBT_SINGLE 0 [V "AgentID" MVT_LLUUID 16; V "SessionID" MVT_LLUUID 16; V "AttachmentPoint" MVT_U8 1];
     B "ObjectData" MBT_VARIABLE 0 [V "ObjectLocalID" MVT_U32 4; V "Rotation" MVT_LLQuaternion 12]];
  T "ObjectDetach" LOW 113 [xff; xff; x71] LL_NOTRUST LL_UNENCODED LL_NOTDEPRECATED
    [B "AgentData" MBT_SINGLE 0 [V "AgentID" MVT_LLUUID 16; V "SessionID" MVT_LLUUID 16];
     B "ObjectData" MBT_VARIABLE 0 [V "ObjectLocalID" MVT_U32 4]];
  T "ObjectDrop" LOW 114 [xff; xff; x72] LL_NOTRUST LL_UNENCODED LL_NOTDEPRECATED
    [B "AgentData" MBT_SINGLE 0 [V "AgentID" MVT_LLUUID 16; V "SessionID" MVT_LLUUID 16];
     B "ObjectData" MBT_VARIABLE 0 [V "ObjectLocalID" MVT_U32 4]];
  T "ObjectLink" LOW 115 [xff; xff; x73] LL_NOTRUST LL_UNENCODED LL_NOTDEPRECATED
    [B "AgentData" MBT_SINGLE 0 [V "AgentID" MVT_LLUUID 16; V "SessionID" MVT_LLUUID 16];
     B "ObjectData" MBT_VARIABLE 0 [V "ObjectLocalID" MVT_U32 4]];
  T "ObjectDelink" LOW 116 [xff; xff; x74] LL_NOTRUST LL_UNENCODED LL_NOTDEPRECATED
    [B "AgentData" MBT_SINGLE 0 [V "AgentID" MVT_LLUUID 16; V "SessionID" MVT_LLUUID 16];
     B "ObjectData" MBT_VARIABLE 0 [V "ObjectLocalID" MVT_U32 4]];
  T "ObjectGrab" LOW 117 [xff; xff; x75] LL_NOTRUST LL_ZEROCODED LL_NOTDEPRECATED
    [B "AgentData" MBT_SINGLE 0 [V "AgentID" MVT_LLUUID 16; V "SessionID" MVT_LLUUID 16];
     B "ObjectData" MBT_SINGLE 0 [V "LocalID" MVT_U32 4; V "GrabOffset" MVT_LLVector3 12];
     B "SurfaceInfo" MBT_VARIABLE 0 [V "UVCoord" MVT_LLVector3 12; V "STCoord" MVT_LLVector3 12; V "FaceIndex" MVT_S32 4; V "Position" MVT_LLVector3 12; V "Normal" MVT_LLVector3 12; V "Binormal" MVT_LLVector3 12]];
  T "ObjectGrabUpdate" LOW 118 [xff; xff; x76] LL_NOTRUST LL_ZEROCODED LL_NOTDEPRECATED
    [B "AgentData" MBT_SINGLE 0 [V "AgentID" MVT_LLUUID 16; V "SessionID" MVT_LLUUID 16];
     B "ObjectData" MBT_SINGLE 0 [V "ObjectID" MVT_LLUUID 16; V "GrabOffsetInitial" MVT_LLVector3 12; V "GrabPosition" MVT_LLVector3 12; V "TimeSinceLast" MVT_U32 4];
     B "SurfaceInfo" MBT_VARIABLE 0 [V "UVCoord" MVT_LLVector3 12; V "STCoord" MVT_LLVector3 12; V "FaceIndex" MVT_S32 4; V "Position" MVT_LLVector3 12; V "Normal" MVT_LLVector3 12; V "Binormal" MVT_LLVector3 12]];
  T "ObjectDeGrab" LOW 119 [xff; xff; x77] LL_NOTRUST LL_UNENCODED LL_NOTDEPRECATED
    [B "AgentData" MBT_SINGLE 0 [V "AgentID" MVT_LLUUID 16; V "SessionID" MVT_LLUUID 16];
     B "ObjectData" MBT_SINGLE 0 [V "LocalID" MVT_U32 4];
     B "SurfaceInfo" MBT_VARIABLE 0 [V "UVCoord" MVT_LLVector3 12; V "STCoord" MVT_LLVector3 12; V "FaceIndex" MVT_S32 4; V "Position" MVT_LLVector3 12; V "Normal" MVT_LLVector3 12; V "Binormal" MVT_LLVector3 12]];
  T "ObjectSpinStart" LOW 120 [xff; xff; x78] LL_NOTRUST LL_ZEROCODED LL_NOTDEPRECATED
    [B "AgentData" MBT_SINGLE 0 [V "AgentID" MVT_LLUUID 16; V "SessionID" MVT_LLUUID 16];
     B "ObjectData" MBT_SINGLE 0 [V "ObjectID" MVT_LLUUID 16]];
  T "ObjectSpinUpdate" LOW 121 [xff; xff; x79] LL_NOTRUST LL_ZEROCODED LL_NOTDEPRECATED
    [B "AgentData" MBT_SINGLE 0 [V "AgentID" MVT_LLUUID 16; V "SessionID" MVT_LLUUID 16];
     B "ObjectData" MBT_SINGLE 0 [V "ObjectID" MVT_LLUUID 16; V "Rotation" MVT_LLQuaternion 12]];
  T "ObjectSpinStop" LOW 122 [xff; xff; x7a] LL_NOTRUST LL_ZEROCODED LL_NOTDEPRECATED
    [B "AgentData" MBT_SINGLE 0 [V "AgentID" MVT_LLUUID 16; V "SessionID" MVT_LLUUID 16];
     B "ObjectData" MBT_SINGLE 0 [V "ObjectID" MVT_LLUUID 16]];
  T "ObjectExportSelected" LOW 123 [xff; xff; x7b] LL_NOTRUST LL_ZEROCODED LL_NOTDEPRECATED
    [B "AgentData" MBT_SINGLE 0 [V "AgentID" MVT_LLUUID 16; V "RequestID" MVT_LLUUID 16; V "VolumeDetail" MVT_S16 2];
     B "ObjectData" MBT_VARIABLE 0 [V "ObjectID" MVT_LLUUID 16]];
  T "ModifyLand" LOW 124 [xff; xff; x7c] LL_NOTRUST LL_ZEROCODED LL_NOTDEPRECATED
    [B "AgentData" MBT_SINGLE 0 [V "AgentID" MVT_LLUUID 16; V "SessionID" MVT_LLUUID 16];
     B "ModifyBlock" MBT_SINGLE 0 [V "Action" MVT_U8 1; V "BrushSize" MVT_U8 1; V "Seconds" MVT_F32 4; V "Height" MVT_F32 4];
     B "ParcelData" MBT_VARIABLE 0 [V "LocalID" MVT_S32 4; V "West" MVT_F32 4; V "South" MVT_F32 4; V "East" MVT_F32 4; V "North" MVT_F32 4];
     B "ModifyBlockExtended" MBT_VARIABLE 0 [V "BrushSize" MVT_F32 4]];
  T "VelocityInterpolateOn" LOW 125 [xff; xff; x7d] LL_NOTRUST LL_UNENCODED LL_NOTDEPRECATED
    [B "AgentData" MBT_SINGLE 0 [V "AgentID" MVT_LLUUID 16; V "SessionID" MVT_LLUUID 16]];
  T "VelocityInterpolateOff" LOW 126 [xff; xff; x7e] LL_NOTRUST LL_UNENCODED LL_NOTDEPRECATED
    [B "AgentData" MBT_SINGLE 0 [V "AgentID" MVT_LLUUID 16; V "SessionID" MVT_LLUUID 16]];
  T "StateSave" LOW 127 [xff; xff; x7f] LL_NOTRUST LL_UNENCODED LL_NOTDEPRECATED
    [B "AgentData" MBT_SINGLE 0 [V "AgentID" MVT_LLUUID 16; V "SessionID" MVT_LLUUID 16];
     B "DataBlock" MBT_SINGLE 0 [V "Filename" MVT_VARIABLE 1]];
  T "ReportAutosaveCrash" LOW 128 [xff; xff; x80] LL_NOTRUST LL_UNENCODED LL_NOTDEPRECATED
    [B "AutosaveData" MBT_SINGLE 0 [V "PID" MVT_S32 4; V "Status" MVT_S32 4]];
  T "SimWideDeletes" LOW 129 [xff; xff; x81] LL_NOTRUST LL_UNENCODED LL_NOTDEPRECATED
    [B "AgentData" MBT_SINGLE 0 [V "AgentID" MVT_LLUUID 16; V "SessionID" MVT_LLUUID 16];
     B "DataBlock" MBT_SINGLE 0 [V "TargetID" MVT_LLUUID 16; V "Flags" MVT_U32 4]];
  T "RequestObjectPropertiesFamily" MEDIUM 5 [xff; x05] LL_NOTRUST LL_ZEROCODED LL_NOTDEPRECATED
    [B "AgentData" MBT_SINGLE 0 [V "AgentID" MVT_LLUUID 16; V "SessionID" MVT_LLUUID 16];
     B "ObjectData" MBT_SINGLE 0 [V "RequestFlags" MVT_U32 4; V "ObjectID" MVT_LLUUID 16]];
  T "TrackAgent" LOW 130 [xff; xff; x82] LL_NOTRUST LL_UNENCODED LL_NOTDEPRECATED
    [B "AgentData" MBT_SINGLE 0 [V "AgentID" MVT_LLUUID 16; V "SessionID" MVT_LLUUID 16];
     B "TargetData" MBT_SINGLE 0 [V "PreyID" MVT_LLUUID 16]];
  T "ViewerStats" LOW 131 [xff; xff; x83] LL_NOTRUST LL_ZEROCODED LL_UDPDEPRECATED
    [B "AgentData" MBT_SINGLE 0 [V "AgentID" MVT_LLUUID 16; V "SessionID" MVT_LLUUID 16; V "IP" MVT_IP_ADDR 4; V "StartTime" MVT_U32 4; V "RunTime" MVT_F32 4; V "SimFPS" MVT_F32 4; V "FPS" MVT_F32 4; V "AgentsInView" MVT_U8 1; V "Ping" MVT_F32 4; V "MetersTraveled" MVT_F64 8; V "RegionsVisited" MVT_S32 4; V "SysRAM" MVT_U32 4; V "SysOS" MVT_VARIABLE 1; V "SysCPU" MVT_VARIABLE 1; V "SysGPU" MVT_VARIABLE 1];
     B "DownloadTotals" MBT_SINGLE 0 [V "World" MVT_U32 4; V "Objects" MVT_U32 4; V "Textures" MVT_U32 4];
     B "NetStats" MBT_MULTIPLE 2 [V "Bytes" MVT_U32 4; V "Packets" MVT_U32 4; V "Compressed" MVT_U32 4; V "Savings" MVT_U32 4];
     B "FailStats" MBT_SINGLE 0 [V "SendPacket" MVT_U32 4; V "Dropped" MVT_U32 4; V "Resent" MVT_U32 4; V "FailedResends" MVT_U32 4; V "OffCircuit" MVT_U32 4; V "Invalid" MVT_U32 4];
     B "MiscStats" MBT_VARIABLE 0 [V "Type" MVT_U32 4; V "Value" MVT_F64 8]];
  T "ScriptAnswerYes" LOW 132 [xff; xff; x84] LL_NOTRUST LL_UNENCODED LL_NOTDEPRECATED
    [B "AgentData" MBT_SINGLE 0 [V "AgentID" MVT_LLUUID 16; V "SessionID" MVT_LLUUID 16];
     B "Data" MBT_SINGLE 0 [V "TaskID" MVT_LLUUID 16; V "ItemID" MVT_LLUUID 16; V "Questions" MVT_S32 4]];
  T "UserReport" LOW 133 [xff; xff; x85] LL_NOTRUST LL_ZEROCODED LL_NOTDEPRECATED
    [B "AgentData" MBT_SINGLE 0 [V "AgentID" MVT_LLUUID 16; V "SessionID" MVT_LLUUID 16];
     B "ReportData" MBT_SINGLE 0 [V "ReportType" MVT_U8 1; V "Category" MVT_U8 1; V "Position" MVT_LLVector3 12; V "CheckFlags" MVT_U8 1; V "ScreenshotID" MVT_LLUUID 16; V "ObjectID" MVT_LLUUID 16; V "AbuserID" MVT_LLUUID 16; V "AbuseRegionName" MVT_VARIABLE 1; V "AbuseRegionID" MVT_LLUUID 16; V "Summary" MVT_VARIABLE 1; V "Details" MVT_VARIABLE 2; V "VersionString" MVT_VARIABLE 1]];
  T "AlertMessage" LOW 134 [xff; xff; x86] LL_TRUSTED LL_UNENCODED LL_NOTDEPRECATED
    [B "AlertData" MBT_SINGLE 0 [V "Message" MVT_VARIABLE 1];
     B "AlertInfo" MBT_VARIABLE 0 [V "Message" MVT_VARIABLE 1; V "ExtraParams" MVT_VARIABLE 1]];
  T "AgentAlertMessage" LOW 135 [xff; xff; x87] LL_TRUSTED LL_UNENCODED LL_NOTDEPRECATED
    [B "AgentData" MBT_SINGLE 0 [V "AgentID" MVT_LLUUID 16];
     B "AlertData" MBT_SINGLE 0 [V "Modal" MVT_BOOL 1; V "Message" MVT_VARIABLE 1]];
  T "MeanCollisionAlert" LOW 136 [xff; xff; x88] LL_TRUSTED LL_ZEROCODED LL_NOTDEPRECATED
    [B "MeanCollision" MBT_VARIABLE 0 [V "Victim" MVT_LLUUID 16; V "Perp" MVT_LLUUID 16; V "Time" MVT_U32 4; V "Mag" MVT_F32 4; V "Type" MVT_U8 1]];
  T "ViewerFrozenMessage" LOW 137 [xff; xff; x89] LL_TRUSTED LL_UNENCODED LL_NOTDEPRECATED
    [B "FrozenData" MBT_SINGLE 0 [V "Data" MVT_BOOL 1]];
  T "HealthMessage" LOW 138 [xff; xff; x8a] LL_TRUSTED LL_ZEROCODED LL_NOTDEPRECATED
    [B "HealthData" MBT_SINGLE 0 [V "Health" MVT_F32 4]];
  T "ChatFromSimulator" LOW 139 [xff; xff; x8b] LL_TRUSTED LL_UNENCODED LL_NOTDEPRECATED
    [B "ChatData" MBT_SINGLE 0 [V "FromName" MVT_VARIABLE 1; V "SourceID" MVT_LLUUID 16; V "OwnerID" MVT_LLUUID 16; V "SourceType" MVT_U8 1; V "ChatType" MVT_U8 1; V "Audible" MVT_U8 1; V "Position" MVT_LLVector3 12; V "Message" MVT_VARIABLE 2]];
  T "SimStats" LOW 140 [xff; xff; x8c] LL_TRUSTED LL_UNENCODED LL_NOTDEPRECATED
    [B "Region" MBT_SINGLE 0 [V "RegionX" MVT_U32 4; V "RegionY" MVT_U32 4; V "RegionFlags" MVT_U32 4; V "ObjectCapacity" MVT_U32 4];
     B "Stat" MBT_VARIABLE 0 [V "StatID" MVT_U32 4; V "StatValue" MVT_F32 4];
     B "PidStat" MBT_SINGLE 0 [V "PID" MVT_S32 4]];
  T "RequestRegionInfo" LOW 141 [xff; xff; x8d] LL_NOTRUST LL_UNENCODED LL_NOTDEPRECATED
    [B "AgentData" MBT_SINGLE 0 [V "AgentID" MVT_LLUUID 16; V "SessionID" MVT_LLUUID 16]];
  T "RegionInfo" LOW 142 [xff; xff; x8e] LL_NOTRUST LL_ZEROCODED LL_NOTDEPRECATED
    [B "AgentData" MBT_SINGLE 0 [V "AgentID" MVT_LLUUID 16; V "SessionID" MVT_LLUUID 16];
     B "RegionInfo" MBT_SINGLE 0 [V "SimName" MVT_VARIABLE 1; V "EstateID" MVT_U32 4; V "ParentEstateID" MVT_U32 4; V "RegionFlags" MVT_U32 4; V "SimAccess" MVT_U8 1; V "MaxAgents" MVT_U8 1; V "BillableFactor" MVT_F32 4; V "ObjectBonusFactor" MVT_F32 4; V "WaterHeight" MVT_F32 4; V "TerrainRaiseLimit" MVT_F32 4; V "TerrainLowerLimit" MVT_F32 4; V "PricePerMeter" MVT_S32 4; V "RedirectGridX" MVT_S32 4; V "RedirectGridY" MVT_S32 4; V "UseEstateSun" MVT_BOOL 1; V "SunHour" MVT_F32 4];
     B "RegionInfo2" MBT_SINGLE 0 [V "ProductSKU" MVT_VARIABLE 1; V "ProductName" MVT_VARIABLE 1; V "MaxAgents32" MVT_U32 4; V "HardMaxAgents" MVT_U32 4; V "HardMaxObjects" MVT_U32 4]];
  T "GodUpdateRegionInfo" LOW 143 [xff; xff; x8f] LL_NOTRUST LL_ZEROCODED LL_NOTDEPRECATED
    [B "AgentData" MBT_SINGLE 0 [V "AgentID" MVT_LLUUID 16; V "SessionID" MVT_LLUUID 16];
     B "RegionInfo" MBT_SINGLE 0 [V "SimName" MVT_VARIABLE 1; V "EstateID" MVT_U32 4; V "ParentEstateID" MVT_U32 4; V "RegionFlags" MVT_U32 4; V "BillableFactor" MVT_F32 4; V "PricePerMeter" MVT_S32 4; V "RedirectGridX" MVT_S32 4; V "RedirectGridY" MVT_S32 4]];
  T "NearestLandingRegionRequest" LOW 144 [xff; xff; x90] LL_TRUSTED LL_UNENCODED LL_NOTDEPRECATED
    [B "RequestingRegionData" MBT_SINGLE 0 [V "RegionHandle" MVT_U64 8]]].

Definition shipped_4 : list template := [
  T "NearestLandingRegionReply" LOW 145 [xff; xff; x91] LL_TRUSTED LL_UNENCODED LL_NOTDEPRECATED
    [B "LandingRegionData" MBT_SINGLE 0 [V "RegionHandle" MVT_U64 8]];
  T "NearestLandingRegionUpdated" LOW 146 [xff; xff; x92] LL_TRUSTED LL_UNENCODED LL_NOTDEPRECATED
    [B "RegionData" MBT_SINGLE 0 [V "RegionHandle" MVT_U64 8]];
  T "TeleportLandingStatusChanged" LOW 147 [xff; xff; x93] LL_TRUSTED LL_UNENCODED LL_NOTDEPRECATED
    [B "RegionData" MBT_SINGLE 0 [V "RegionHandle" MVT_U64 8]];
  T "RegionHandshake" LOW 148 [xff; xff; x94] LL_TRUSTED LL_ZEROCODED LL_NOTDEPRECATED
    [B "RegionInfo" MBT_SINGLE 0 [V "RegionFlags" MVT_U32 4; V "SimAccess" MVT_U8 1; V "SimName" MVT_VARIABLE 1; V "SimOwner" MVT_LLUUID 16; V "IsEstateManager" MVT_BOOL 1; V "WaterHeight" MVT_F32 4; V "BillableFactor" MVT_F32 4; V "CacheID" MVT_LLUUID 16; V "TerrainBase0" MVT_LLUUID 16; V "TerrainBase1" MVT_LLUUID 16; V "TerrainBase2" MVT_LLUUID 16; V "TerrainBase3" MVT_LLUUID 16; V "TerrainDetail0" MVT_LLUUID 16; V "TerrainDetail1" MVT_LLUUID 16; V "TerrainDetail2" MVT_LLUUID 16; V "TerrainDetail3" MVT_LLUUID 16; V "TerrainStartHeight00" MVT_F32 4; V "TerrainStartHeight01" MVT_F32 4; V "TerrainStartHeight10" MVT_F32 4; V "TerrainStartHeight11" MVT_F32 4; V "TerrainHeightRange00" MVT_F32 4; V "TerrainHeightRange01" MVT_F32 4; V "TerrainHeightRange10" MVT_F32 4; V "TerrainHeightRange11" MVT_F32 4];
     B "RegionInfo2" MBT_SINGLE 0 [V "RegionID" MVT_LLUUID 16];
     B "RegionInfo3" MBT_SINGLE 0 [V "CPUClassID" MVT_S32 4; V "CPURatio" MVT_S32 4; V "ColoName" MVT_VARIABLE 1; V "ProductSKU" MVT_VARIABLE 1; V "ProductName" MVT_VARIABLE 1]];
  T "RegionHandshakeReply" LOW 149 [xff; xff; x95] LL_NOTRUST LL_ZEROCODED LL_NOTDEPRECATED
    [B "AgentData" MBT_SINGLE 0 [V "AgentID" MVT_LLUUID 16; V "SessionID" MVT_LLUUID 16];
     B "RegionInfo" MBT_SINGLE 0 [V "Flags" MVT_U32 4]];
  T "CoarseLocationUpdate" MEDIUM 6 [xff; x06] LL_TRUSTED LL_UNENCODED LL_NOTDEPRECATED
    [B "Location" MBT_VARIABLE 0 [V "X" MVT_U8 1; V "Y" MVT_U8 1; V "Z" MVT_U8 1];
     B "Index" MBT_SINGLE 0 [V "You" MVT_S16 2; V "Prey" MVT_S16 2];
     B "AgentData" MBT_VARIABLE 0 [V "AgentID" MVT_LLUUID 16]];
  T "ImageData" HIGH 9 [x09] LL_TRUSTED LL_UNENCODED LL_NOTDEPRECATED
    [B "ImageID" MBT_SINGLE 0 [V "ID" MVT_LLUUID 16; V "Codec" MVT_U8 1; V "Size" MVT_U32 4; V "Packets" MVT_U16 2];
     B "ImageData" MBT_SINGLE 0 [V "Data" MVT_VARIABLE 2]];
  T "ImagePacket" HIGH 10 [x0a] LL_TRUSTED LL_UNENCODED LL_NOTDEPRECATED
    [B "ImageID" MBT_SINGLE 0 [V "ID" MVT_LLUUID 16; V "Packet" MVT_U16 2];
     B "ImageData" MBT_SINGLE 0 [V "Data" MVT_VARIABLE 2]];
  T "LayerData" HIGH 11 [x0b] LL_TRUSTED LL_UNENCODED LL_NOTDEPRECATED
    [B "LayerID" MBT_SINGLE 0 [V "Type" MVT_U8 1];
     B "LayerData" MBT_SINGLE 0 [V "Data" MVT_VARIABLE 2]];
  T "ObjectUpdate" HIGH 12 [x0c] LL_TRUSTED LL_ZEROCODED LL_NOTDEPRECATED
    [B "RegionData" MBT_SINGLE 0 [V "RegionHandle" MVT_U64 8; V "TimeDilation" MVT_U16 2];
     B "ObjectData" MBT_VARIABLE 0 [V "ID" MVT_U32 4; V "State" MVT_U8 1; V "FullID" MVT_LLUUID 16; V "CRC" MVT_U32 4; V "PCode" MVT_U8 1; V "Material" MVT_U8 1; V "ClickAction" MVT_U8 1; V "Scale" MVT_LLVector3 12; V "ObjectData" MVT_VARIABLE 1; V "ParentID" MVT_U32 4; V "UpdateFlags" MVT_U32 4; V "PathCurve" MVT_U8 1; V "ProfileCurve" MVT_U8 1; V "PathBegin" MVT_U16 2; V "PathEnd" MVT_U16 2; V "PathScaleX" MVT_U8 1; V "PathScaleY" MVT_U8 1; V "PathShearX" MVT_U8 1; V "PathShearY" MVT_U8 1; V "PathTwist" MVT_S8 1; V "PathTwistBegin" MVT_S8 1; V "PathRadiusOffset" MVT_S8 1; V "PathTaperX" MVT_S8 1; V "PathTaperY" MVT_S8 1; V "PathRevolutions" MVT_U8 1; V "PathSkew" MVT_S8 1; V "ProfileBegin" MVT_U16 2; V "ProfileEnd" MVT_U16 2; V "ProfileHollow" MVT_U16 2; V "TextureEntry" MVT_VARIABLE 2; V "TextureAnim" MVT_VARIABLE 1; V "NameValue" MVT_VARIABLE 2; V "Data" MVT_VARIABLE 2; V "Text" MVT_VARIABLE 1; V "TextColor" MVT_FIXED 4; V "MediaURL" MVT_VARIABLE 1; V "PSBlock" MVT_VARIABLE 1; V "ExtraParams" MVT_VARIABLE 1; V "Sound" MVT_LLUUID 16; V "OwnerID" MVT_LLUUID 16; V "Gain" MVT_F32 4; V "Flags" MVT_U8 1; V "Radius" MVT_F32 4; V "JointType" MVT_U8 1; V "JointPivot" MVT_LLVector3 12; V "JointAxisOrAnchor" MVT_LLVector3 12]];
  T "ObjectUpdateCompressed" HIGH 13 [x0d] LL_TRUSTED LL_UNENCODED LL_NOTDEPRECATED
    [B "RegionData" MBT_SINGLE 0 [V "RegionHandle" MVT_U64 8; V "TimeDilation" MVT_U16 2];
     B "ObjectData" MBT_VARIABLE 0 [V "UpdateFlags" MVT_U32 4; V "Data" MVT_VARIABLE 2]];
  T "ObjectUpdateCached" HIGH 14 [x0e] LL_TRUSTED LL_UNENCODED LL_NOTDEPRECATED
    [B "RegionData" MBT_SINGLE 0 [V "RegionHandle" MVT_U64 8; V "TimeDilation" MVT_U16 2];
     B "ObjectData" MBT_VARIABLE 0 [V "ID" MVT_U32 4; V "CRC" MVT_U32 4; V "UpdateFlags" MVT_U32 4]];
  T "ImprovedTerseObjectUpdate" HIGH 15 [x0f] LL_TRUSTED LL_UNENCODED LL_NOTDEPRECATED
    [B "RegionData" MBT_SINGLE 0 [V "RegionHandle" MVT_U64 8; V "TimeDilation" MVT_U16 2];
     B "ObjectData" MBT_VARIABLE 0 [V "Data" MVT_VARIABLE 1; V "TextureEntry" MVT_VARIABLE 2]];
  T "KillObject" HIGH 16 [x10] LL_TRUSTED LL_UNENCODED LL_NOTDEPRECATED
    [B "ObjectData" MBT_VARIABLE 0 [V "ID" MVT_U32 4]];
  T "CrossedRegion" MEDIUM 7 [xff; x07] LL_TRUSTED LL_UNENCODED LL_UDPBLACKLISTED
    [B "AgentData" MBT_SINGLE 0 [V "AgentID" MVT_LLUUID 16; V "SessionID" MVT_LLUUID 16];
     B "RegionData" MBT_SINGLE 0 [V "SimIP" MVT_IP_ADDR 4; V "SimPort" MVT_IP_PORT 2; V "RegionHandle" MVT_U64 8; V "SeedCapability" MVT_VARIABLE 2];
     B "Info" MBT_SINGLE 0 [V "Position" MVT_LLVector3 12; V "LookAt" MVT_LLVector3 12]];
  T "SimulatorViewerTimeMessage" LOW 150 [xff; xff; x96] LL_TRUSTED LL_UNENCODED LL_NOTDEPRECATED
    [B "TimeInfo" MBT_SINGLE 0 [V "UsecSinceStart" MVT_U64 8; V "SecPerDay" MVT_U32 4; V "SecPerYear" MVT_U32 4; V "SunDirection" MVT_LLVector3 12; V "SunPhase" MVT_F32 4; V "SunAngVelocity" MVT_LLVector3 12]];
  T "EnableSimulator" LOW 151 [xff; xff; x97] LL_TRUSTED LL_UNENCODED LL_UDPBLACKLISTED
    [B "SimulatorInfo" MBT_SINGLE 0 [V "Handle" MVT_U64 8; V "IP" MVT_IP_ADDR 4; V "Port" MVT_IP_PORT 2]];
  T "DisableSimulator" LOW 152 [xff; xff; x98] LL_TRUSTED LL_UNENCODED LL_NOTDEPRECATED
    [];
  T "ConfirmEnableSimulator" MEDIUM 8 [xff; x08] LL_TRUSTED LL_UNENCODED LL_NOTDEPRECATED
    [B "AgentData" MBT_SINGLE 0 [V "AgentID" MVT_LLUUID 16; V "SessionID" MVT_LLUUID 16]];
  T "TransferRequest" LOW 153 [xff; xff; x99] LL_NOTRUST LL_ZEROCODED LL_NOTDEPRECATED
    [B "TransferInfo" MBT_SINGLE 0 [V "TransferID" MVT_LLUUID 16; V "ChannelType" MVT_S32 4; V "SourceType" MVT_S32 4; V "Priority" MVT_F32 4; V "Params" MVT_VARIABLE 2]];
  T "TransferInfo" LOW 154 [xff; xff; x9a] LL_NOTRUST LL_ZEROCODED LL_NOTDEPRECATED
    [B "TransferInfo" MBT_SINGLE 0 [V "TransferID" MVT_LLUUID 16; V "ChannelType" MVT_S32 4; V "TargetType" MVT_S32 4; V "Status" MVT_S32 4; V "Size" MVT_S32 4; V "Params" MVT_VARIABLE 2]];
  T "TransferPacket" HIGH 17 [x11] LL_NOTRUST LL_UNENCODED LL_NOTDEPRECATED
    [B "TransferData" MBT_SINGLE 0 [V "TransferID" MVT_LLUUID 16; V "ChannelType" MVT_S32 4; V "Packet" MVT_S32 4; V "Status" MVT_S32 4; V "Data" MVT_VARIABLE 2]];
  T "TransferAbort" LOW 155 [xff; xff; x9b] LL_NOTRUST LL_ZEROCODED LL_NOTDEPRECATED
    [B "TransferInfo" MBT_SINGLE 0 [V "TransferID" MVT_LLUUID 16; V "ChannelType" MVT_S32 4]];
  T "RequestXfer" LOW 156 [xff; xff; x9c] LL_NOTRUST LL_ZEROCODED LL_NOTDEPRECATED
    [B "XferID" MBT_SINGLE 0 [V "ID" MVT_U64 8; V "Filename" MVT_VARIABLE 1; V "FilePath" MVT_U8 1; V "DeleteOnCompletion" MVT_BOOL 1; V "UseBigPackets" MVT_BOOL 1; V "VFileID" MVT_LLUUID 16; V "VFileType" MVT_S16 2]];
  T "SendXferPacket" HIGH 18 [x12] LL_NOTRUST LL_UNENCODED LL_NOTDEPRECATED
    [B "XferID" MBT_SINGLE 0 [V "ID" MVT_U64 8; V "Packet" MVT_U32 4];
     B "DataPacket" MBT_SINGLE 0 [V "Data" MVT_VARIABLE 2]];
  T "ConfirmXferPacket" HIGH 19 [x13] LL_NOTRUST LL_UNENCODED LL_NOTDEPRECATED
    [B "XferID" MBT_SINGLE 0 [V "ID" MVT_U64 8; V "Packet" MVT_U32 4]];
  T "AbortXfer" LOW 157 [xff; xff; x9d] LL_NOTRUST LL_UNENCODED LL_NOTDEPRECATED
    [B "XferID" MBT_SINGLE 0 [V "ID" MVT_U64 8; V "Result" MVT_S32 4]];
  T "AvatarAnimation" HIGH 20 [x14] LL_TRUSTED LL_UNENCODED LL_NOTDEPRECATED
    [B "Sender" MBT_SINGLE 0 [V "ID" MVT_LLUUID 16];
     B "AnimationList" MBT_VARIABLE 0 [V "AnimID" MVT_LLUUID 16; V "AnimSequenceID" MVT_S32 4];
     B "AnimationSourceList" MBT_VARIABLE 0 [V "ObjectID" MVT_LLUUID 16];
     B "PhysicalAvatarEventList" MBT_VARIABLE 0 [V "TypeData" MVT_VARIABLE 1]];
  T "AvatarAppearance" LOW 158 [xff; xff; x9e] LL_TRUSTED LL_ZEROCODED LL_NOTDEPRECATED
    [B "Sender" MBT_SINGLE 0 [V "ID" MVT_LLUUID 16; V "IsTrial" MVT_BOOL 1];
     B "ObjectData" MBT_SINGLE 0 [V "TextureEntry" MVT_VARIABLE 2];
     B "VisualParam" MBT_VARIABLE 0 [V "ParamValue" MVT_U8 1]];
  T "AvatarSitResponse" HIGH 21 [x15] LL_TRUSTED LL_ZEROCODED LL_NOTDEPRECATED
    [B "SitObject" MBT_SINGLE 0 [V "ID" MVT_LLUUID 16];
     B "SitTransform" MBT_SINGLE 0 [V "AutoPilot" MVT_BOOL 1; V "SitPosition" MVT_LLVector3 12; V "SitRotation" MVT_LLQuaternion 12; V "CameraEyeOffset" MVT_LLVector3 12; V "CameraAtOffset" MVT_LLVector3 12; V "ForceMouselook" MVT_BOOL 1]];
  T "SetFollowCamProperties" LOW 159 [xff; xff; x9f] LL_TRUSTED LL_UNENCODED LL_NOTDEPRECATED
    [B "ObjectData" MBT_SINGLE 0 [V "ObjectID" MVT_LLUUID 16];
     B "CameraProperty" MBT_VARIABLE 0 [V "Type" MVT_S32 4; V "Value" MVT_F32 4]];
  T "ClearFollowCamProperties" LOW 160 [xff; xff; xa0] LL_TRUSTED LL_UNENCODED LL_NOTDEPRECATED
    [B "ObjectData" MBT_SINGLE 0 [V "ObjectID" MVT_LLUUID 16]];
  T "CameraConstraint" HIGH 22 [x16] LL_TRUSTED LL_ZEROCODED LL_NOTDEPRECATED
    [B "CameraCollidePlane" MBT_SINGLE 0 [V "Plane" MVT_LLVector4 16]];
  T "ObjectProperties" MEDIUM 9 [xff; x09] LL_TRUSTED LL_ZEROCODED LL_NOTDEPRECATED
    [B "ObjectData" MBT_VARIABLE 0 [V "ObjectID" MVT_LLUUID 16; V "CreatorID" MVT_LLUUID 16; V "OwnerID" MVT_LLUUID 16; V "GroupID" MVT_LLUUID 16; V "CreationDate" MVT_U64 8; V "BaseMask" MVT_U32 4; V "OwnerMask" MVT_U32 4; V "GroupMask" MVT_U32 4; V "EveryoneMask" MVT_U32 4; V "NextOwnerMask" MVT_U32 4; V "OwnershipCost" MVT_S32 4; V "SaleType" MVT_U8 1; V "SalePrice" MVT_S32 4; V "AggregatePerms" MVT_U8 1; V "AggregatePermTextures" MVT_U8 1; V "AggregatePermTexturesOwner" MVT_U8 1; V "Category" MVT_U32 4; V "InventorySerial" MVT_S16 2; V "ItemID" MVT_LLUUID 16; V "FolderID" MVT_LLUUID 16; V "FromTaskID" MVT_LLUUID 16; V "LastOwnerID" MVT_LLUUID 16; V "Name" MVT_VARIABLE 1; V "Description" MVT_VARIABLE 1; V "TouchName" MVT_VARIABLE 1; V "SitName" MVT_VARIABLE 1; V "TextureID" MVT_VARIABLE 1]];
  T "ObjectPropertiesFamily" MEDIUM 10 [xff; x0a] LL_TRUSTED LL_ZEROCODED LL_NOTDEPRECATED
    [B "ObjectData" MBT_SINGLE 0 [V "RequestFlags" MVT_U32 4; V "ObjectID" MVT_LLUUID 16; V "OwnerID" MVT_LLUUID 16; V "GroupID" MVT_LLUUID 16; V "BaseMask" MVT_U32 4; V "OwnerMask" MVT_U32 4; V "GroupMask" MVT_U32 4; V "EveryoneMask" MVT_U32 4; V "NextOwnerMask" MVT_U32 4; V "OwnershipCost" MVT_S32 4; V "SaleType" MVT_U8 1; V "SalePrice" MVT_S32 4; V "Category" MVT_U32 4; V "LastOwnerID" MVT_LLUUID 16; V "Name" MVT_VARIABLE 1; V "Description" MVT_VARIABLE 1]];
  T "RequestPayPrice" LOW 161 [xff; xff; xa1] LL_NOTRUST LL_UNENCODED LL_NOTDEPRECATED
    [B "ObjectData" MBT_SINGLE 0 [V "ObjectID" MVT_LLUUID 16]];
  T "PayPriceReply" LOW 162 [xff; xff; xa2] LL_TRUSTED LL_UNENCODED LL_NOTDEPRECATED
    [B "ObjectData" MBT_SINGLE 0 [V "ObjectID" MVT_LLUUID 16; V "DefaultPayPrice" MVT_S32 4];
     B "ButtonData" MBT_VARIABLE 0 [V "PayButton" MVT_S32 4]];
  T "KickUser" LOW 163 [xff; xff; xa3] LL_TRUSTED LL_UNENCODED LL_NOTDEPRECATED
    [B "TargetBlock" MBT_SINGLE 0 [V "TargetIP" MVT_IP_ADDR 4; V "TargetPort" MVT_IP_PORT 2];
     B "UserInfo" MBT_SINGLE 0 [V "AgentID" MVT_LLUUID 16; V "SessionID" MVT_LLUUID 16; V "Reason" MVT_VARIABLE 2]];
  T "KickUserAck" LOW 164 [xff; xff; xa4] LL_TRUSTED LL_UNENCODED LL_NOTDEPRECATED
    [B "UserInfo" MBT_SINGLE 0 [V "SessionID" MVT_LLUUID 16; V "Flags" MVT_U32 4]];
  T "GodKickUser" LOW 165 [xff; xff; xa5] LL_NOTRUST LL_UNENCODED LL_NOTDEPRECATED
    [B "UserInfo" MBT_SINGLE 0 [V "GodID" MVT_LLUUID 16; V "GodSessionID" MVT_LLUUID 16; V "AgentID" MVT_LLUUID 16; V "KickFlags" MVT_U32 4; V "Reason" MVT_VARIABLE 2]]].

Definition shipped_5 : list template := [
  T "SystemKickUser" LOW 166 [xff; xff; xa6] LL_TRUSTED LL_UNENCODED LL_NOTDEPRECATED
    [B "AgentInfo" MBT_VARIABLE 0 [V "AgentID" MVT_LLUUID 16]];
  T "EjectUser" LOW 167 [xff; xff; xa7] LL_NOTRUST LL_UNENCODED LL_NOTDEPRECATED
    [B "AgentData" MBT_SINGLE 0 [V "AgentID" MVT_LLUUID 16; V "SessionID" MVT_LLUUID 16];
     B "Data" MBT_SINGLE 0 [V "TargetID" MVT_LLUUID 16; V "Flags" MVT_U32 4]];
  T "FreezeUser" LOW 168 [xff; xff; xa8] LL_NOTRUST LL_UNENCODED LL_NOTDEPRECATED
    [B "AgentData" MBT_SINGLE 0 [V "AgentID" MVT_LLUUID 16; V "SessionID" MVT_LLUUID 16];
     B "Data" MBT_SINGLE 0 [V "TargetID" MVT_LLUUID 16; V "Flags" MVT_U32 4]];
  T "AvatarPropertiesRequest" LOW 169 [xff; xff; xa9] LL_NOTRUST LL_UNENCODED LL_NOTDEPRECATED
    [B "AgentData" MBT_SINGLE 0 [V "AgentID" MVT_LLUUID 16; V "SessionID" MVT_LLUUID 16; V "AvatarID" MVT_LLUUID 16]];
  T "AvatarPropertiesRequestBackend" LOW 170 [xff; xff; xaa] LL_TRUSTED LL_UNENCODED LL_NOTDEPRECATED
    [B "AgentData" MBT_SINGLE 0 [V "AgentID" MVT_LLUUID 16; V "AvatarID" MVT_LLUUID 16; V "GodLevel" MVT_U8 1; V "WebProfilesDisabled" MVT_BOOL 1]];
  T "AvatarPropertiesReply" LOW 171 [xff; xff; xab] LL_TRUSTED LL_ZEROCODED LL_NOTDEPRECATED
    [B "AgentData" MBT_SINGLE 0 [V "AgentID" MVT_LLUUID 16; V "AvatarID" MVT_LLUUID 16];
     B "PropertiesData" MBT_SINGLE 0 [V "ImageID" MVT_LLUUID 16; V "FLImageID" MVT_LLUUID 16; V "PartnerID" MVT_LLUUID 16; V "AboutText" MVT_VARIABLE 2; V "FLAboutText" MVT_VARIABLE 1; V "BornOn" MVT_VARIABLE 1; V "ProfileURL" MVT_VARIABLE 1; V "CharterMember" MVT_VARIABLE 1; V "Flags" MVT_U32 4]];
  T "AvatarInterestsReply" LOW 172 [xff; xff; xac] LL_TRUSTED LL_ZEROCODED LL_NOTDEPRECATED
    [B "AgentData" MBT_SINGLE 0 [V "AgentID" MVT_LLUUID 16; V "AvatarID" MVT_LLUUID 16];
     B "PropertiesData" MBT_SINGLE 0 [V "WantToMask" MVT_U32 4; V "WantToText" MVT_VARIABLE 1; V "SkillsMask" MVT_U32 4; V "SkillsText" MVT_VARIABLE 1; V "LanguagesText" MVT_VARIABLE 1]];
  T "AvatarGroupsReply" LOW 173 [xff; xff; xad] LL_TRUSTED LL_ZEROCODED LL_NOTDEPRECATED
    [B "AgentData" MBT_SINGLE 0 [V "AgentID" MVT_LLUUID 16; V "AvatarID" MVT_LLUUID 16];
     B "GroupData" MBT_VARIABLE 0 [V "GroupPowers" MVT_U64 8; V "AcceptNotices" MVT_BOOL 1; V "GroupTitle" MVT_VARIABLE 1; V "GroupID" MVT_LLUUID 16; V "GroupName" MVT_VARIABLE 1; V "GroupInsigniaID" MVT_LLUUID 16];
     B "NewGroupData" MBT_SINGLE 0 [V "ListInProfile" MVT_BOOL 1]];
  T "AvatarPropertiesUpdate" LOW 174 [xff; xff; xae] LL_NOTRUST LL_ZEROCODED LL_NOTDEPRECATED
    [B "AgentData" MBT_SINGLE 0 [V "AgentID" MVT_LLUUID 16; V "SessionID" MVT_LLUUID 16];
     B "PropertiesData" MBT_SINGLE 0 [V "ImageID" MVT_LLUUID 16; V "FLImageID" MVT_LLUUID 16; V "AboutText" MVT_VARIABLE 2; V "FLAboutText" MVT_VARIABLE 1; V "AllowPublish" MVT_BOOL 1; V "MaturePublish" MVT_BOOL 1; V "ProfileURL" MVT_VARIABLE 1]];
  T "AvatarInterestsUpdate" LOW 175 [xff; xff; xaf] LL_NOTRUST LL_ZEROCODED LL_NOTDEPRECATED
    [B "AgentData" MBT_SINGLE 0 [V "AgentID" MVT_LLUUID 16; V "SessionID" MVT_LLUUID 16];
     B "PropertiesData" MBT_SINGLE 0 [V "WantToMask" MVT_U32 4; V "WantToText" MVT_VARIABLE 1; V "SkillsMask" MVT_U32 4; V "SkillsText" MVT_VARIABLE 1; V "LanguagesText" MVT_VARIABLE 1]];
  T "AvatarNotesReply" LOW 176 [xff; xff; xb0] LL_TRUSTED LL_UNENCODED LL_NOTDEPRECATED
    [B "AgentData" MBT_SINGLE 0 [V "AgentID" MVT_LLUUID 16];
     B "Data" MBT_SINGLE 0 [V "TargetID" MVT_LLUUID 16; V "Notes" MVT_VARIABLE 2]];
  T "AvatarNotesUpdate" LOW 177 [xff; xff; xb1] LL_NOTRUST LL_UNENCODED LL_NOTDEPRECATED
    [B "AgentData" MBT_SINGLE 0 [V "AgentID" MVT_LLUUID 16; V "SessionID" MVT_LLUUID 16];
     B "Data" MBT_SINGLE 0 [V "TargetID" MVT_LLUUID 16; V "Notes" MVT_VARIABLE 2]];
  T "AvatarPicksReply" LOW 178 [xff; xff; xb2] LL_TRUSTED LL_UNENCODED LL_NOTDEPRECATED
    [B "AgentData" MBT_SINGLE 0 [V "AgentID" MVT_LLUUID 16; V "TargetID" MVT_LLUUID 16];
     B "Data" MBT_VARIABLE 0 [V "PickID" MVT_LLUUID 16; V "PickName" MVT_VARIABLE 1]];
  T "EventInfoRequest" LOW 179 [xff; xff; xb3] LL_NOTRUST LL_UNENCODED LL_NOTDEPRECATED
    [B "AgentData" MBT_SINGLE 0 [V "AgentID" MVT_LLUUID 16; V "SessionID" MVT_LLUUID 16];
     B "EventData" MBT_SINGLE 0 [V "EventID" MVT_U32 4]];
  T "EventInfoReply" LOW 180 [xff; xff; xb4] LL_TRUSTED LL_UNENCODED LL_NOTDEPRECATED
    [B "AgentData" MBT_SINGLE 0 [V "AgentID" MVT_LLUUID 16];
     B "EventData" MBT_SINGLE 0 [V "EventID" MVT_U32 4; V "Creator" MVT_VARIABLE 1; V "Name" MVT_VARIABLE 1; V "Category" MVT_VARIABLE 1; V "Desc" MVT_VARIABLE 2; V "Date" MVT_VARIABLE 1; V "DateUTC" MVT_U32 4; V "Duration" MVT_U32 4; V "Cover" MVT_U32 4; V "Amount" MVT_U32 4; V "SimName" MVT_VARIABLE 1; V "GlobalPos" MVT_LLVector3d 24; V "EventFlags" MVT_U32 4]];
  T "EventNotificationAddRequest" LOW 181 [xff; xff; xb5] LL_NOTRUST LL_UNENCODED LL_NOTDEPRECATED
    [B "AgentData" MBT_SINGLE 0 [V "AgentID" MVT_LLUUID 16; V "SessionID" MVT_LLUUID 16];
     B "EventData" MBT_SINGLE 0 [V "EventID" MVT_U32 4]];
  T "EventNotificationRemoveRequest" LOW 182 [xff; xff; xb6] LL_NOTRUST LL_UNENCODED LL_NOTDEPRECATED
    [B "AgentData" MBT_SINGLE 0 [V "AgentID" MVT_LLUUID 16; V "SessionID" MVT_LLUUID 16];
     B "EventData" MBT_SINGLE 0 [V "EventID" MVT_U32 4]];
  T "EventGodDelete" LOW 183 [xff; xff; xb7] LL_NOTRUST LL_UNENCODED LL_NOTDEPRECATED
    [B "AgentData" MBT_SINGLE 0 [V "AgentID" MVT_LLUUID 16; V "SessionID" MVT_LLUUID 16];
     B "EventData" MBT_SINGLE 0 [V "EventID" MVT_U32 4];
     B "QueryData" MBT_SINGLE 0 [V "QueryID" MVT_LLUUID 16; V "QueryText" MVT_VARIABLE 1; V "QueryFlags" MVT_U32 4; V "QueryStart" MVT_S32 4]];
  T "PickInfoReply" LOW 184 [xff; xff; xb8] LL_TRUSTED LL_UNENCODED LL_NOTDEPRECATED
    [B "AgentData" MBT_SINGLE 0 [V "AgentID" MVT_LLUUID 16];
     B "Data" MBT_SINGLE 0 [V "PickID" MVT_LLUUID 16; V "CreatorID" MVT_LLUUID 16; V "TopPick" MVT_BOOL 1; V "ParcelID" MVT_LLUUID 16; V "Name" MVT_VARIABLE 1; V "Desc" MVT_VARIABLE 2; V "SnapshotID" MVT_LLUUID 16; V "User" MVT_VARIABLE 1; V "OriginalName" MVT_VARIABLE 1; V "SimName" MVT_VARIABLE 1; V "PosGlobal" MVT_LLVector3d 24; V "SortOrder" MVT_S32 4; V "Enabled" MVT_BOOL 1]];
  T "PickInfoUpdate" LOW 185 [xff; xff; xb9] LL_NOTRUST LL_UNENCODED LL_NOTDEPRECATED
    [B "AgentData" MBT_SINGLE 0 [V "AgentID" MVT_LLUUID 16; V "SessionID" MVT_LLUUID 16];
     B "Data" MBT_SINGLE 0 [V "PickID" MVT_LLUUID 16; V "CreatorID" MVT_LLUUID 16; V "TopPick" MVT_BOOL 1; V "ParcelID" MVT_LLUUID 16; V "Name" MVT_VARIABLE 1; V "Desc" MVT_VARIABLE 2; V "SnapshotID" MVT_LLUUID 16; V "PosGlobal" MVT_LLVector3d 24; V "SortOrder" MVT_S32 4; V "Enabled" MVT_BOOL 1]];
  T "PickDelete" LOW 186 [xff; xff; xba] LL_NOTRUST LL_UNENCODED LL_NOTDEPRECATED
    [B "AgentData" MBT_SINGLE 0 [V "AgentID" MVT_LLUUID 16; V "SessionID" MVT_LLUUID 16];
     B "Data" MBT_SINGLE 0 [V "PickID" MVT_LLUUID 16]];
  T "PickGodDelete" LOW 187 [xff; xff; xbb] LL_NOTRUST LL_UNENCODED LL_NOTDEPRECATED
    [B "AgentData" MBT_SINGLE 0 [V "AgentID" MVT_LLUUID 16; V "SessionID" MVT_LLUUID 16];
     B "Data" MBT_SINGLE 0 [V "PickID" MVT_LLUUID 16; V "QueryID" MVT_LLUUID 16]];
  T "ScriptQuestion" LOW 188 [xff; xff; xbc] LL_TRUSTED LL_UNENCODED LL_NOTDEPRECATED
    [B "Data" MBT_SINGLE 0 [V "TaskID" MVT_LLUUID 16; V "ItemID" MVT_LLUUID 16; V "ObjectName" MVT_VARIABLE 1; V "ObjectOwner" MVT_VARIABLE 1; V "Questions" MVT_S32 4]];
  T "ScriptControlChange" LOW 189 [xff; xff; xbd] LL_TRUSTED LL_UNENCODED LL_NOTDEPRECATED
    [B "Data" MBT_VARIABLE 0 [V "TakeControls" MVT_BOOL 1; V "Controls" MVT_U32 4; V "PassToAgent" MVT_BOOL 1]];
  T "ScriptDialog" LOW 190 [xff; xff; xbe] LL_TRUSTED LL_ZEROCODED LL_NOTDEPRECATED
    [B "Data" MBT_SINGLE 0 [V "ObjectID" MVT_LLUUID 16; V "FirstName" MVT_VARIABLE 1; V "LastName" MVT_VARIABLE 1; V "ObjectName" MVT_VARIABLE 1; V "Message" MVT_VARIABLE 2; V "ChatChannel" MVT_S32 4; V "ImageID" MVT_LLUUID 16];
     B "Buttons" MBT_VARIABLE 0 [V "ButtonLabel" MVT_VARIABLE 1]];
  T "ScriptDialogReply" LOW 191 [xff; xff; xbf] LL_NOTRUST LL_ZEROCODED LL_NOTDEPRECATED
    [B "AgentData" MBT_SINGLE 0 [V "AgentID" MVT_LLUUID 16; V "SessionID" MVT_LLUUID 16];
     B "Data" MBT_SINGLE 0 [V "ObjectID" MVT_LLUUID 16; V "ChatChannel" MVT_S32 4; V "ButtonIndex" MVT_S32 4; V "ButtonLabel" MVT_VARIABLE 1]];
  T "ForceScriptControlRelease" LOW 192 [xff; xff; xc0] LL_NOTRUST LL_UNENCODED LL_NOTDEPRECATED
    [B "AgentData" MBT_SINGLE 0 [V "AgentID" MVT_LLUUID 16; V "SessionID" MVT_LLUUID 16]];
  T "RevokePermissions" LOW 193 [xff; xff; xc1] LL_NOTRUST LL_UNENCODED LL_NOTDEPRECATED
    [B "AgentData" MBT_SINGLE 0 [V "AgentID" MVT_LLUUID 16; V "SessionID" MVT_LLUUID 16];
     B "Data" MBT_SINGLE 0 [V "ObjectID" MVT_LLUUID 16; V "ObjectPermissions" MVT_U32 4]];
  T "LoadURL" LOW 194 [xff; xff; xc2] LL_TRUSTED LL_UNENCODED LL_NOTDEPRECATED
    [B "Data" MBT_SINGLE 0 [V "ObjectName" MVT_VARIABLE 1; V "ObjectID" MVT_LLUUID 16; V "OwnerID" MVT_LLUUID 16; V "OwnerIsGroup" MVT_BOOL 1; V "Message" MVT_VARIABLE 1; V "URL" MVT_VARIABLE 1]];
  T "ScriptTeleportRequest" LOW 195 [xff; xff; xc3] LL_TRUSTED LL_UNENCODED LL_NOTDEPRECATED
    [B "Data" MBT_SINGLE 0 [V "ObjectName" MVT_VARIABLE 1; V "SimName" MVT_VARIABLE 1; V "SimPosition" MVT_LLVector3 12; V "LookAt" MVT_LLVector3 12]];
  T "ParcelOverlay" LOW 196 [xff; xff; xc4] LL_TRUSTED LL_ZEROCODED LL_NOTDEPRECATED
    [B "ParcelData" MBT_SINGLE 0 [V "SequenceID" MVT_S32 4; V "Data" MVT_VARIABLE 2]];
  T "ParcelPropertiesRequest" MEDIUM 11 [xff; x0b] LL_NOTRUST LL_ZEROCODED LL_NOTDEPRECATED
    [B "AgentData" MBT_SINGLE 0 [V "AgentID" MVT_LLUUID 16; V "SessionID" MVT_LLUUID 16];
     B "ParcelData" MBT_SINGLE 0 [V "SequenceID" MVT_S32 4; V "West" MVT_F32 4; V "South" MVT_F32 4; V "East" MVT_F32 4; V "North" MVT_F32 4; V "SnapSelection" MVT_BOOL 1]];
  T "ParcelPropertiesRequestByID" LOW 197 [xff; xff; xc5] LL_NOTRUST LL_ZEROCODED LL_NOTDEPRECATED
    [B "AgentData" MBT_SINGLE 0 [V "AgentID" MVT_LLUUID 16; V "SessionID" MVT_LLUUID 16];
     B "ParcelData" MBT_SINGLE 0 [V "SequenceID" MVT_S32 4; V "LocalID" MVT_S32 4]];
  T "ParcelProperties" HIGH 23 [x17] LL_TRUSTED LL_ZEROCODED LL_NOTDEPRECATED
    [B "ParcelData" MBT_SINGLE 0 [V "RequestResult" MVT_S32 4; V "SequenceID" MVT_S32 4; V "SnapSelection" MVT_BOOL 1; V "SelfCount" MVT_S32 4; V "OtherCount" MVT_S32 4; V "PublicCount" MVT_S32 4; V "LocalID" MVT_S32 4; V "OwnerID" MVT_LLUUID 16; V "IsGroupOwned" MVT_BOOL 1; V "AuctionID" MVT_U32 4; V "ClaimDate" MVT_S32 4; V "ClaimPrice" MVT_S32 4; V "RentPrice" MVT_S32 4; V "AABBMin" MVT_LLVector3 12; V "AABBMax" MVT_LLVector3 12; V "Bitmap" MVT_VARIABLE 2; V "Area" MVT_S32 4; V "Status" MVT_U8 1; V "SimWideMaxPrims" MVT_S32 4; V "SimWideTotalPrims" MVT_S32 4; V "MaxPrims" MVT_S32 4; V "TotalPrims" MVT_S32 4; V "OwnerPrims" MVT_S32 4; V "GroupPrims" MVT_S32 4; V "OtherPrims" MVT_S32 4; V "SelectedPrims" MVT_S32 4; V "ParcelPrimBonus" MVT_F32 4; V "OtherCleanTime" MVT_S32 4; V "ParcelFlags" MVT_U32 4; V "SalePrice" MVT_S32 4; V "Name" MVT_VARIABLE 1; V "Desc" MVT_VARIABLE 1; V "MusicURL" MVT_VARIABLE 1; V "MediaURL" MVT_VARIABLE 1; V "MediaID" MVT_LLUUID 16; V "MediaAutoScale" MVT_U8 1; V "GroupID" MVT_LLUUID 16; V "PassPrice" MVT_S32 4; V "PassHours" MVT_F32 4; V "Category" MVT_U8 1; V "AuthBuyerID" MVT_LLUUID 16; V "SnapshotID" MVT_LLUUID 16; V "UserLocation" MVT_LLVector3 12; V "UserLookAt" MVT_LLVector3 12; V "LandingType" MVT_U8 1; V "RegionPushOverride" MVT_BOOL 1; V "RegionDenyAnonymous" MVT_BOOL 1; V "RegionDenyIdentified" MVT_BOOL 1; V "RegionDenyTransacted" MVT_BOOL 1];
     B "AgeVerificationBlock" MBT_SINGLE 0 [V "RegionDenyAgeUnverified" MVT_BOOL 1]];
  T "ParcelPropertiesUpdate" LOW 198 [xff; xff; xc6] LL_NOTRUST LL_ZEROCODED LL_NOTDEPRECATED
    [B "AgentData" MBT_SINGLE 0 [V "AgentID" MVT_LLUUID 16; V "SessionID" MVT_LLUUID 16];
     B "ParcelData" MBT_SINGLE 0 [V "LocalID" MVT_S32 4; V "Flags" MVT_U32 4; V "ParcelFlags" MVT_U32 4; V "SalePrice" MVT_S32 4; V "Name" MVT_VARIABLE 1; V "Desc" MVT_VARIABLE 1; V "MusicURL" MVT_VARIABLE 1; V "MediaURL" MVT_VARIABLE 1; V "MediaID" MVT_LLUUID 16; V "MediaAutoScale" MVT_U8 1; V "GroupID" MVT_LLUUID 16; V "PassPrice" MVT_S32 4; V "PassHours" MVT_F32 4; V "Category" MVT_U8 1; V "AuthBuyerID" MVT_LLUUID 16; V "SnapshotID" MVT_LLUUID 16; V "UserLocation" MVT_LLVector3 12; V "UserLookAt" MVT_LLVector3 12; V "LandingType" MVT_U8 1]];
  T "ParcelReturnObjects" LOW 199 [xff; xff; xc7] LL_NOTRUST LL_ZEROCODED LL_NOTDEPRECATED
    [B "AgentData" MBT_SINGLE 0 [V "AgentID" MVT_LLUUID 16; V "SessionID" MVT_LLUUID 16];
     B "ParcelData" MBT_SINGLE 0 [V "LocalID" MVT_S32 4; V "ReturnType" MVT_U32 4];
     B "TaskIDs" MBT_VARIABLE 0 [V "TaskID" MVT_LLUUID 16];
     B "OwnerIDs" MBT_VARIABLE 0 [V "OwnerID" MVT_LLUUID 16]];
  T "ParcelSetOtherCleanTime" LOW 200 [xff; xff; xc8] LL_NOTRUST LL_ZEROCODED LL_NOTDEPRECATED
    [B "AgentData" MBT_SINGLE 0 [V "AgentID" MVT_LLUUID 16; V "SessionID" MVT_LLUUID 16];
     B "ParcelData" MBT_SINGLE 0 [V "LocalID" MVT_S32 4; V "OtherCleanTime" MVT_S32 4]];
  T "ParcelDisableObjects" LOW 201 [xff; xff; xc9] LL_NOTRUST LL_ZEROCODED LL_NOTDEPRECATED
    [B "AgentData" MBT_SINGLE 0 [V "AgentID" MVT_LLUUID 16; V "SessionID" MVT_LLUUID 16];
     B "ParcelData" MBT_SINGLE 0 [V "LocalID" MVT_S32 4; V "ReturnType" MVT_U32 4];
     B "TaskIDs" MBT_VARIABLE 0 [V "TaskID" MVT_LLUUID 16];
     B "OwnerIDs" MBT_VARIABLE 0 [V "OwnerID" MVT_LLUUID 16]];
  T "ParcelSelectObjects" LOW 202 [xff; xff; xca] LL_NOTRUST LL_ZEROCODED LL_NOTDEPRECATED
    [B "AgentData" MBT_SINGLE 0 [V "AgentID" MVT_LLUUID 16; V "SessionID" MVT_LLUUID 16];
     B "ParcelData" MBT_SINGLE 0 [V "LocalID" MVT_S32 4; V "ReturnType" MVT_U32 4];
     B "ReturnIDs" MBT_VARIABLE 0 [V "ReturnID" MVT_LLUUID 16]];
  T "EstateCovenantRequest" LOW 203 [xff; xff; xcb] LL_NOTRUST LL_UNENCODED LL_NOTDEPRECATED
    [B "AgentData" MBT_SINGLE 0 [V "AgentID" MVT_LLUUID 16; V "SessionID" MVT_LLUUID 16]]].

Definition shipped_6 : list template := [
  T "EstateCovenantReply" LOW 204 [xff; xff; xcc] LL_TRUSTED LL_UNENCODED LL_NOTDEPRECATED
    [B "Data" MBT_SINGLE 0 [V "CovenantID" MVT_LLUUID 16; V "CovenantTimestamp" MVT_U32 4; V "EstateName" MVT_VARIABLE 1; V "EstateOwnerID" MVT_LLUUID 16]];
  T "ForceObjectSelect" LOW 205 [xff; xff; xcd] LL_TRUSTED LL_UNENCODED LL_NOTDEPRECATED
    [B "Header" MBT_SINGLE 0 [V "ResetList" MVT_BOOL 1];
     B "Data" MBT_VARIABLE 0 [V "LocalID" MVT_U32 4]];
  T "ParcelBuyPass" LOW 206 [xff; xff; xce] LL_NOTRUST LL_UNENCODED LL_NOTDEPRECATED
    [B "AgentData" MBT_SINGLE 0 [V "AgentID" MVT_LLUUID 16; V "SessionID" MVT_LLUUID 16];
     B "ParcelData" MBT_SINGLE 0 [V "LocalID" MVT_S32 4]];
  T "ParcelDeedToGroup" LOW 207 [xff; xff; xcf] LL_NOTRUST LL_UNENCODED LL_NOTDEPRECATED
    [B "AgentData" MBT_SINGLE 0 [V "AgentID" MVT_LLUUID 16; V "SessionID" MVT_LLUUID 16];
     B "Data" MBT_SINGLE 0 [V "GroupID" MVT_LLUUID 16; V "LocalID" MVT_S32 4]];
  T "ParcelReclaim" LOW 208 [xff; xff; xd0] LL_NOTRUST LL_UNENCODED LL_NOTDEPRECATED
    [B "AgentData" MBT_SINGLE 0 [V "AgentID" MVT_LLUUID 16; V "SessionID" MVT_LLUUID 16];
     B "Data" MBT_SINGLE 0 [V "LocalID" MVT_S32 4]];
  T "ParcelClaim" LOW 209 [xff; xff; xd1] LL_NOTRUST LL_ZEROCODED LL_NOTDEPRECATED
    [B "AgentData" MBT_SINGLE 0 [V "AgentID" MVT_LLUUID 16; V "SessionID" MVT_LLUUID 16];
     B "Data" MBT_SINGLE 0 [V "GroupID" MVT_LLUUID 16; V "IsGroupOwned" MVT_BOOL 1; V "Final" MVT_BOOL 1];
     B "ParcelData" MBT_VARIABLE 0 [V "West" MVT_F32 4; V "South" MVT_F32 4; V "East" MVT_F32 4; V "North" MVT_F32 4]];
  T "ParcelJoin" LOW 210 [xff; xff; xd2] LL_NOTRUST LL_UNENCODED LL_NOTDEPRECATED
    [B "AgentData" MBT_SINGLE 0 [V "AgentID" MVT_LLUUID 16; V "SessionID" MVT_LLUUID 16];
     B "ParcelData" MBT_SINGLE 0 [V "West" MVT_F32 4; V "South" MVT_F32 4; V "East" MVT_F32 4; V "North" MVT_F32 4]];
  T "ParcelDivide" LOW 211 [xff; xff; xd3] LL_NOTRUST LL_UNENCODED LL_NOTDEPRECATED
    [B "AgentData" MBT_SINGLE 0 [V "AgentID" MVT_LLUUID 16; V "SessionID" MVT_LLUUID 16];
     B "ParcelData" MBT_SINGLE 0 [V "West" MVT_F32 4; V "South" MVT_F32 4; V "East" MVT_F32 4; V "North" MVT_F32 4]];
  T "ParcelRelease" LOW 212 [xff; xff; xd4] LL_NOTRUST LL_UNENCODED LL_NOTDEPRECATED
    [B "AgentData" MBT_SINGLE 0 [V "AgentID" MVT_LLUUID 16; V "SessionID" MVT_LLUUID 16];
     B "Data" MBT_SINGLE 0 [V "LocalID" MVT_S32 4]];
  T "ParcelBuy" LOW 213 [xff; xff; xd5] LL_NOTRUST LL_ZEROCODED LL_NOTDEPRECATED
    [B "AgentData" MBT_SINGLE 0 [V "AgentID" MVT_LLUUID 16; V "SessionID" MVT_LLUUID 16];
     B "Data" MBT_SINGLE 0 [V "GroupID" MVT_LLUUID 16; V "IsGroupOwned" MVT_BOOL 1; V "RemoveContribution" MVT_BOOL 1; V "LocalID" MVT_S32 4; V "Final" MVT_BOOL 1];
     B "ParcelData" MBT_SINGLE 0 [V "Price" MVT_S32 4; V "Area" MVT_S32 4]];
  T "ParcelGodForceOwner" LOW 214 [xff; xff; xd6] LL_NOTRUST LL_ZEROCODED LL_NOTDEPRECATED
    [B "AgentData" MBT_SINGLE 0 [V "AgentID" MVT_LLUUID 16; V "SessionID" MVT_LLUUID 16];
     B "Data" MBT_SINGLE 0 [V "OwnerID" MVT_LLUUID 16; V "LocalID" MVT_S32 4]];
  T "ParcelAccessListRequest" LOW 215 [xff; xff; xd7] LL_NOTRUST LL_ZEROCODED LL_NOTDEPRECATED
    [B "AgentData" MBT_SINGLE 0 [V "AgentID" MVT_LLUUID 16; V "SessionID" MVT_LLUUID 16];
     B "Data" MBT_SINGLE 0 [V "SequenceID" MVT_S32 4; V "Flags" MVT_U32 4; V "LocalID" MVT_S32 4]];
  T "ParcelAccessListReply" LOW 216 [xff; xff; xd8] LL_TRUSTED LL_ZEROCODED LL_NOTDEPRECATED
    [B "Data" MBT_SINGLE 0 [V "AgentID" MVT_LLUUID 16; V "SequenceID" MVT_S32 4; V "Flags" MVT_U32 4; V "LocalID" MVT_S32 4];
     B "List" MBT_VARIABLE 0 [V "ID" MVT_LLUUID 16; V "Time" MVT_S32 4; V "Flags" MVT_U32 4]];
  T "ParcelAccessListUpdate" LOW 217 [xff; xff; xd9] LL_NOTRUST LL_ZEROCODED LL_NOTDEPRECATED
    [B "AgentData" MBT_SINGLE 0 [V "AgentID" MVT_LLUUID 16; V "SessionID" MVT_LLUUID 16];
     B "Data" MBT_SINGLE 0 [V "Flags" MVT_U32 4; V "LocalID" MVT_S32 4; V "TransactionID" MVT_LLUUID 16; V "SequenceID" MVT_S32 4; V "Sections" MVT_S32 4];
     B "List" MBT_VARIABLE 0 [V "ID" MVT_LLUUID 16; V "Time" MVT_S32 4; V "Flags" MVT_U32 4]];
  T "ParcelDwellRequest" LOW 218 [xff; xff; xda] LL_NOTRUST LL_UNENCODED LL_NOTDEPRECATED
    [B "AgentData" MBT_SINGLE 0 [V "AgentID" MVT_LLUUID 16; V "SessionID" MVT_LLUUID 16];
     B "Data" MBT_SINGLE 0 [V "LocalID" MVT_S32 4; V "ParcelID" MVT_LLUUID 16]];
  T "ParcelDwellReply" LOW 219 [xff; xff; xdb] LL_TRUSTED LL_UNENCODED LL_NOTDEPRECATED
    [B "AgentData" MBT_SINGLE 0 [V "AgentID" MVT_LLUUID 16];
     B "Data" MBT_SINGLE 0 [V "LocalID" MVT_S32 4; V "ParcelID" MVT_LLUUID 16; V "Dwell" MVT_F32 4]];
  T "RequestParcelTransfer" LOW 220 [xff; xff; xdc] LL_TRUSTED LL_ZEROCODED LL_NOTDEPRECATED
    [B "Data" MBT_SINGLE 0 [V "TransactionID" MVT_LLUUID 16; V "TransactionTime" MVT_U32 4; V "SourceID" MVT_LLUUID 16; V "DestID" MVT_LLUUID 16; V "OwnerID" MVT_LLUUID 16; V "Flags" MVT_U8 1; V "TransactionType" MVT_S32 4; V "Amount" MVT_S32 4; V "BillableArea" MVT_S32 4; V "ActualArea" MVT_S32 4; V "Final" MVT_BOOL 1];
     B "RegionData" MBT_SINGLE 0 [V "RegionID" MVT_LLUUID 16; V "GridX" MVT_U32 4; V "GridY" MVT_U32 4]];
  T "UpdateParcel" LOW 221 [xff; xff; xdd] LL_TRUSTED LL_ZEROCODED LL_NOTDEPRECATED
    [B "ParcelData" MBT_SINGLE 0 [V "ParcelID" MVT_LLUUID 16; V "RegionHandle" MVT_U64 8; V "OwnerID" MVT_LLUUID 16; V "GroupOwned" MVT_BOOL 1; V "Status" MVT_U8 1; V "Name" MVT_VARIABLE 1; V "Description" MVT_VARIABLE 1; V "MusicURL" MVT_VARIABLE 1; V "RegionX" MVT_F32 4; V "RegionY" MVT_F32 4; V "ActualArea" MVT_S32 4; V "BillableArea" MVT_S32 4; V "ShowDir" MVT_BOOL 1; V "IsForSale" MVT_BOOL 1; V "Category" MVT_U8 1; V "SnapshotID" MVT_LLUUID 16; V "UserLocation" MVT_LLVector3 12; V "SalePrice" MVT_S32 4; V "AuthorizedBuyerID" MVT_LLUUID 16; V "AllowPublish" MVT_BOOL 1; V "MaturePublish" MVT_BOOL 1]];
  T "RemoveParcel" LOW 222 [xff; xff; xde] LL_TRUSTED LL_UNENCODED LL_NOTDEPRECATED
    [B "ParcelData" MBT_VARIABLE 0 [V "ParcelID" MVT_LLUUID 16]];
  T "MergeParcel" LOW 223 [xff; xff; xdf] LL_TRUSTED LL_UNENCODED LL_NOTDEPRECATED
    [B "MasterParcelData" MBT_SINGLE 0 [V "MasterID" MVT_LLUUID 16];
     B "SlaveParcelData" MBT_VARIABLE 0 [V "SlaveID" MVT_LLUUID 16]];
  T "LogParcelChanges" LOW 224 [xff; xff; xe0] LL_TRUSTED LL_ZEROCODED LL_NOTDEPRECATED
    [B "AgentData" MBT_SINGLE 0 [V "AgentID" MVT_LLUUID 16];
     B "RegionData" MBT_SINGLE 0 [V "RegionHandle" MVT_U64 8];
     B "ParcelData" MBT_VARIABLE 0 [V "ParcelID" MVT_LLUUID 16; V "OwnerID" MVT_LLUUID 16; V "IsOwnerGroup" MVT_BOOL 1; V "ActualArea" MVT_S32 4; V "Action" MVT_S8 1; V "TransactionID" MVT_LLUUID 16]];
  T "CheckParcelSales" LOW 225 [xff; xff; xe1] LL_TRUSTED LL_UNENCODED LL_NOTDEPRECATED
    [B "RegionData" MBT_VARIABLE 0 [V "RegionHandle" MVT_U64 8]];
  T "ParcelSales" LOW 226 [xff; xff; xe2] LL_TRUSTED LL_UNENCODED LL_NOTDEPRECATED
    [B "ParcelData" MBT_VARIABLE 0 [V "ParcelID" MVT_LLUUID 16; V "BuyerID" MVT_LLUUID 16]];
  T "ParcelGodMarkAsContent" LOW 227 [xff; xff; xe3] LL_NOTRUST LL_UNENCODED LL_NOTDEPRECATED
    [B "AgentData" MBT_SINGLE 0 [V "AgentID" MVT_LLUUID 16; V "SessionID" MVT_LLUUID 16];
     B "ParcelData" MBT_SINGLE 0 [V "LocalID" MVT_S32 4]];
  T "ViewerStartAuction" LOW 228 [xff; xff; xe4] LL_NOTRUST LL_UNENCODED LL_NOTDEPRECATED
    [B "AgentData" MBT_SINGLE 0 [V "AgentID" MVT_LLUUID 16; V "SessionID" MVT_LLUUID 16];
     B "ParcelData" MBT_SINGLE 0 [V "LocalID" MVT_S32 4; V "SnapshotID" MVT_LLUUID 16]];
  T "StartAuction" LOW 229 [xff; xff; xe5] LL_TRUSTED LL_UNENCODED LL_NOTDEPRECATED
    [B "AgentData" MBT_SINGLE 0 [V "AgentID" MVT_LLUUID 16];
     B "ParcelData" MBT_SINGLE 0 [V "ParcelID" MVT_LLUUID 16; V "SnapshotID" MVT_LLUUID 16; V "Name" MVT_VARIABLE 1]];
  T "ConfirmAuctionStart" LOW 230 [xff; xff; xe6] LL_TRUSTED LL_UNENCODED LL_NOTDEPRECATED
    [B "AuctionData" MBT_SINGLE 0 [V "ParcelID" MVT_LLUUID 16; V "AuctionID" MVT_U32 4]];
  T "CompleteAuction" LOW 231 [xff; xff; xe7] LL_TRUSTED LL_UNENCODED LL_NOTDEPRECATED
    [B "ParcelData" MBT_VARIABLE 0 [V "ParcelID" MVT_LLUUID 16]];
  T "CancelAuction" LOW 232 [xff; xff; xe8] LL_TRUSTED LL_UNENCODED LL_NOTDEPRECATED
    [B "ParcelData" MBT_VARIABLE 0 [V "ParcelID" MVT_LLUUID 16]];
  T "CheckParcelAuctions" LOW 233 [xff; xff; xe9] LL_TRUSTED LL_UNENCODED LL_NOTDEPRECATED
    [B "RegionData" MBT_VARIABLE 0 [V "RegionHandle" MVT_U64 8]];
  T "ParcelAuctions" LOW 234 [xff; xff; xea] LL_TRUSTED LL_UNENCODED LL_NOTDEPRECATED
    [B "ParcelData" MBT_VARIABLE 0 [V "ParcelID" MVT_LLUUID 16; V "WinnerID" MVT_LLUUID 16]];
  T "UUIDNameRequest" LOW 235 [xff; xff; xeb] LL_NOTRUST LL_UNENCODED LL_NOTDEPRECATED
    [B "UUIDNameBlock" MBT_VARIABLE 0 [V "ID" MVT_LLUUID 16]];
  T "UUIDNameReply" LOW 236 [xff; xff; xec] LL_TRUSTED LL_UNENCODED LL_NOTDEPRECATED
    [B "UUIDNameBlock" MBT_VARIABLE 0 [V "ID" MVT_LLUUID 16; V "FirstName" MVT_VARIABLE 1; V "LastName" MVT_VARIABLE 1]];
  T "UUIDGroupNameRequest" LOW 237 [xff; xff; xed] LL_NOTRUST LL_UNENCODED LL_NOTDEPRECATED
    [B "UUIDNameBlock" MBT_VARIABLE 0 [V "ID" MVT_LLUUID 16]];
  T "UUIDGroupNameReply" LOW 238 [xff; xff; xee] LL_TRUSTED LL_UNENCODED LL_NOTDEPRECATED
    [B "UUIDNameBlock" MBT_VARIABLE 0 [V "ID" MVT_LLUUID 16; V "GroupName" MVT_VARIABLE 1]];
  T "ChatPass" LOW 239 [xff; xff; xef] LL_TRUSTED LL_ZEROCODED LL_NOTDEPRECATED
    [B "ChatData" MBT_SINGLE 0 [V "Channel" MVT_S32 4; V "Position" MVT_LLVector3 12; V "ID" MVT_LLUUID 16; V "OwnerID" MVT_LLUUID 16; V "Name" MVT_VARIABLE 1; V "SourceType" MVT_U8 1; V "Type" MVT_U8 1; V "Radius" MVT_F32 4; V "SimAccess" MVT_U8 1; V "Message" MVT_VARIABLE 2]];
  T "EdgeDataPacket" HIGH 24 [x18] LL_TRUSTED LL_ZEROCODED LL_NOTDEPRECATED
    [B "EdgeData" MBT_SINGLE 0 [V "LayerType" MVT_U8 1; V "Direction" MVT_U8 1; V "LayerData" MVT_VARIABLE 2]];
  T "SimStatus" MEDIUM 12 [xff; x0c] LL_TRUSTED LL_UNENCODED LL_NOTDEPRECATED
    [B "SimStatus" MBT_SINGLE 0 [V "CanAcceptAgents" MVT_BOOL 1; V "CanAcceptTasks" MVT_BOOL 1]];
  T "ChildAgentUpdate" HIGH 25 [x19] LL_TRUSTED LL_ZEROCODED LL_NOTDEPRECATED
    [B "AgentData" MBT_SINGLE 0 [V "RegionHandle" MVT_U64 8; V "ViewerCircuitCode" MVT_U32 4; V "AgentID" MVT_LLUUID 16; V "SessionID" MVT_LLUUID 16; V "AgentPos" MVT_LLVector3 12; V "AgentVel" MVT_LLVector3 12; V "Center" MVT_LLVector3 12; V "Size" MVT_LLVector3 12; V "AtAxis" MVT_LLVector3 12; V "LeftAxis" MVT_LLVector3 12; V "UpAxis" MVT_LLVector3 12; V "ChangedGrid" MVT_BOOL 1; V "Far" MVT_F32 4; V "Aspect" MVT_F32 4; V "Throttles" MVT_VARIABLE 1; V "LocomotionState" MVT_U32 4; V "HeadRotation" MVT_LLQuaternion 12; V "BodyRotation" MVT_LLQuaternion 12; V "ControlFlags" MVT_U32 4; V "EnergyLevel" MVT_F32 4; V "GodLevel" MVT_U8 1; V "AlwaysRun" MVT_BOOL 1; V "PreyAgent" MVT_LLUUID 16; V "AgentAccess" MVT_U8 1; V "AgentTextures" MVT_VARIABLE 2; V "ActiveGroupID" MVT_LLUUID 16];
     B "GroupData" MBT_VARIABLE 0 [V "GroupID" MVT_LLUUID 16; V "GroupPowers" MVT_U64 8; V "AcceptNotices" MVT_BOOL 1];
     B "AnimationData" MBT_VARIABLE 0 [V "Animation" MVT_LLUUID 16; V "ObjectID" MVT_LLUUID 16];
     B "GranterBlock" MBT_VARIABLE 0 [V "GranterID" MVT_LLUUID 16];
     B "NVPairData" MBT_VARIABLE 0 [V "NVPairs" MVT_VARIABLE 2];
     B "VisualParam" MBT_VARIABLE 0 [V "ParamValue" MVT_U8 1];
     B "AgentAccess" MBT_VARIABLE 0 [V "AgentLegacyAccess" MVT_U8 1; V "AgentMaxAccess" MVT_U8 1];
     B "AgentInfo" MBT_VARIABLE 0 [V "Flags" MVT_U32 4]];
  T "ChildAgentAlive" HIGH 26 [x1a] LL_TRUSTED LL_UNENCODED LL_NOTDEPRECATED
    [B "AgentData" MBT_SINGLE 0 [V "RegionHandle" MVT_U64 8; V "ViewerCircuitCode" MVT_U32 4; V "AgentID" MVT_LLUUID 16; V "SessionID" MVT_LLUUID 16]]].

Definition shipped_7 : list template := [
  T "ChildAgentPositionUpdate" HIGH 27 [x1b] LL_TRUSTED LL_UNENCODED LL_NOTDEPRECATED
    [B "AgentData" MBT_SINGLE 0 [V "RegionHandle" MVT_U64 8; V "ViewerCircuitCode" MVT_U32 4; V "AgentID" MVT_LLUUID 16; V "SessionID" MVT_LLUUID 16; V "AgentPos" MVT_LLVector3 12; V "AgentVel" MVT_LLVector3 12; V "Center" MVT_LLVector3 12; V "Size" MVT_LLVector3 12; V "AtAxis" MVT_LLVector3 12; V "LeftAxis" MVT_LLVector3 12; V "UpAxis" MVT_LLVector3 12; V "ChangedGrid" MVT_BOOL 1]];
  T "ChildAgentDying" LOW 240 [xff; xff; xf0] LL_TRUSTED LL_ZEROCODED LL_NOTDEPRECATED
    [B "AgentData" MBT_SINGLE 0 [V "AgentID" MVT_LLUUID 16; V "SessionID" MVT_LLUUID 16]];
  T "ChildAgentUnknown" LOW 241 [xff; xff; xf1] LL_TRUSTED LL_UNENCODED LL_NOTDEPRECATED
    [B "AgentData" MBT_SINGLE 0 [V "AgentID" MVT_LLUUID 16; V "SessionID" MVT_LLUUID 16]];
  T "AtomicPassObject" HIGH 28 [x1c] LL_TRUSTED LL_UNENCODED LL_NOTDEPRECATED
    [B "TaskData" MBT_SINGLE 0 [V "TaskID" MVT_LLUUID 16; V "AttachmentNeedsSave" MVT_BOOL 1]];
  T "KillChildAgents" LOW 242 [xff; xff; xf2] LL_TRUSTED LL_UNENCODED LL_NOTDEPRECATED
    [B "IDBlock" MBT_SINGLE 0 [V "AgentID" MVT_LLUUID 16]];
  T "GetScriptRunning" LOW 243 [xff; xff; xf3] LL_NOTRUST LL_UNENCODED LL_NOTDEPRECATED
    [B "Script" MBT_SINGLE 0 [V "ObjectID" MVT_LLUUID 16; V "ItemID" MVT_LLUUID 16]];
  T "ScriptRunningReply" LOW 244 [xff; xff; xf4] LL_NOTRUST LL_UNENCODED LL_UDPDEPRECATED
    [B "Script" MBT_SINGLE 0 [V "ObjectID" MVT_LLUUID 16; V "ItemID" MVT_LLUUID 16; V "Running" MVT_BOOL 1]];
  T "SetScriptRunning" LOW 245 [xff; xff; xf5] LL_NOTRUST LL_UNENCODED LL_NOTDEPRECATED
    [B "AgentData" MBT_SINGLE 0 [V "AgentID" MVT_LLUUID 16; V "SessionID" MVT_LLUUID 16];
     B "Script" MBT_SINGLE 0 [V "ObjectID" MVT_LLUUID 16; V "ItemID" MVT_LLUUID 16; V "Running" MVT_BOOL 1]];
  T "ScriptReset" LOW 246 [xff; xff; xf6] LL_NOTRUST LL_UNENCODED LL_NOTDEPRECATED
    [B "AgentData" MBT_SINGLE 0 [V "AgentID" MVT_LLUUID 16; V "SessionID" MVT_LLUUID 16];
     B "Script" MBT_SINGLE 0 [V "ObjectID" MVT_LLUUID 16; V "ItemID" MVT_LLUUID 16]];
  T "ScriptSensorRequest" LOW 247 [xff; xff; xf7] LL_TRUSTED LL_ZEROCODED LL_NOTDEPRECATED
    [B "Requester" MBT_SINGLE 0 [V "SourceID" MVT_LLUUID 16; V "RequestID" MVT_LLUUID 16; V "SearchID" MVT_LLUUID 16; V "SearchPos" MVT_LLVector3 12; V "SearchDir" MVT_LLQuaternion 12; V "SearchName" MVT_VARIABLE 1; V "Type" MVT_S32 4; V "Range" MVT_F32 4; V "Arc" MVT_F32 4; V "RegionHandle" MVT_U64 8; V "SearchRegions" MVT_U8 1]];
  T "ScriptSensorReply" LOW 248 [xff; xff; xf8] LL_TRUSTED LL_ZEROCODED LL_NOTDEPRECATED
    [B "Requester" MBT_SINGLE 0 [V "SourceID" MVT_LLUUID 16];
     B "SensedData" MBT_VARIABLE 0 [V "ObjectID" MVT_LLUUID 16; V "OwnerID" MVT_LLUUID 16; V "GroupID" MVT_LLUUID 16; V "Position" MVT_LLVector3 12; V "Velocity" MVT_LLVector3 12; V "Rotation" MVT_LLQuaternion 12; V "Name" MVT_VARIABLE 1; V "Type" MVT_S32 4; V "Range" MVT_F32 4]];
  T "CompleteAgentMovement" LOW 249 [xff; xff; xf9] LL_NOTRUST LL_UNENCODED LL_NOTDEPRECATED
    [B "AgentData" MBT_SINGLE 0 [V "AgentID" MVT_LLUUID 16; V "SessionID" MVT_LLUUID 16; V "CircuitCode" MVT_U32 4]];
  T "AgentMovementComplete" LOW 250 [xff; xff; xfa] LL_NOTRUST LL_UNENCODED LL_NOTDEPRECATED
    [B "AgentData" MBT_SINGLE 0 [V "AgentID" MVT_LLUUID 16; V "SessionID" MVT_LLUUID 16];
     B "Data" MBT_SINGLE 0 [V "Position" MVT_LLVector3 12; V "LookAt" MVT_LLVector3 12; V "RegionHandle" MVT_U64 8; V "Timestamp" MVT_U32 4];
     B "SimData" MBT_SINGLE 0 [V "ChannelVersion" MVT_VARIABLE 2]];
  T "DataServerLogout" LOW 251 [xff; xff; xfb] LL_TRUSTED LL_UNENCODED LL_NOTDEPRECATED
    [B "UserData" MBT_SINGLE 0 [V "AgentID" MVT_LLUUID 16; V "ViewerIP" MVT_IP_ADDR 4; V "Disconnect" MVT_BOOL 1; V "SessionID" MVT_LLUUID 16]];
  T "LogoutRequest" LOW 252 [xff; xff; xfc] LL_NOTRUST LL_UNENCODED LL_NOTDEPRECATED
    [B "AgentData" MBT_SINGLE 0 [V "AgentID" MVT_LLUUID 16; V "SessionID" MVT_LLUUID 16]];
  T "LogoutReply" LOW 253 [xff; xff; xfd] LL_TRUSTED LL_ZEROCODED LL_NOTDEPRECATED
    [B "AgentData" MBT_SINGLE 0 [V "AgentID" MVT_LLUUID 16; V "SessionID" MVT_LLUUID 16];
     B "InventoryData" MBT_VARIABLE 0 [V "ItemID" MVT_LLUUID 16]];
  T "ImprovedInstantMessage" LOW 254 [xff; xff; xfe] LL_NOTRUST LL_ZEROCODED LL_NOTDEPRECATED
    [B "AgentData" MBT_SINGLE 0 [V "AgentID" MVT_LLUUID 16; V "SessionID" MVT_LLUUID 16];
     B "MessageBlock" MBT_SINGLE 0 [V "FromGroup" MVT_BOOL 1; V "ToAgentID" MVT_LLUUID 16; V "ParentEstateID" MVT_U32 4; V "RegionID" MVT_LLUUID 16; V "Position" MVT_LLVector3 12; V "Offline" MVT_U8 1; V "Dialog" MVT_U8 1; V "ID" MVT_LLUUID 16; V "Timestamp" MVT_U32 4; V "FromAgentName" MVT_VARIABLE 1; V "Message" MVT_VARIABLE 2; V "BinaryBucket" MVT_VARIABLE 2]];
  T "RetrieveInstantMessages" LOW 255 [xff; xff; xff] LL_NOTRUST LL_UNENCODED LL_NOTDEPRECATED
    [B "AgentData" MBT_SINGLE 0 [V "AgentID" MVT_LLUUID 16; V "SessionID" MVT_LLUUID 16]];
  T "FindAgent" LOW 256 [xff; xff; x00] LL_NOTRUST LL_UNENCODED LL_NOTDEPRECATED
    [B "AgentBlock" MBT_SINGLE 0 [V "Hunter" MVT_LLUUID 16; V "Prey" MVT_LLUUID 16; V "SpaceIP" MVT_IP_ADDR 4];
     B "LocationBlock" MBT_VARIABLE 0 [V "GlobalX" MVT_F64 8; V "GlobalY" MVT_F64 8]];
  T "RequestGodlikePowers" LOW 257 [xff; xff; x01] LL_NOTRUST LL_UNENCODED LL_NOTDEPRECATED
    [B "AgentData" MBT_SINGLE 0 [V "AgentID" MVT_LLUUID 16; V "SessionID" MVT_LLUUID 16];
     B "RequestBlock" MBT_SINGLE 0 [V "Godlike" MVT_BOOL 1; V "Token" MVT_LLUUID 16]];
  T "GrantGodlikePowers" LOW 258 [xff; xff; x02] LL_TRUSTED LL_UNENCODED LL_NOTDEPRECATED
    [B "AgentData" MBT_SINGLE 0 [V "AgentID" MVT_LLUUID 16; V "SessionID" MVT_LLUUID 16];
     B "GrantData" MBT_SINGLE 0 [V "GodLevel" MVT_U8 1; V "Token" MVT_LLUUID 16]];
  T "GodlikeMessage" LOW 259 [xff; xff; x03] LL_NOTRUST LL_ZEROCODED LL_NOTDEPRECATED
    [B "AgentData" MBT_SINGLE 0 [V "AgentID" MVT_LLUUID 16; V "SessionID" MVT_LLUUID 16; V "TransactionID" MVT_LLUUID 16];
     B "MethodData" MBT_SINGLE 0 [V "Method" MVT_VARIABLE 1; V "Invoice" MVT_LLUUID 16];
     B "ParamList" MBT_VARIABLE 0 [V "Parameter" MVT_VARIABLE 1]];
  T "EstateOwnerMessage" LOW 260 [xff; xff; x04] LL_NOTRUST LL_ZEROCODED LL_NOTDEPRECATED
    [B "AgentData" MBT_SINGLE 0 [V "AgentID" MVT_LLUUID 16; V "SessionID" MVT_LLUUID 16; V "TransactionID" MVT_LLUUID 16];
     B "MethodData" MBT_SINGLE 0 [V "Method" MVT_VARIABLE 1; V "Invoice" MVT_LLUUID 16];
     B "ParamList" MBT_VARIABLE 0 [V "Parameter" MVT_VARIABLE 1]];
  T "GenericMessage" LOW 261 [xff; xff; x05] LL_NOTRUST LL_ZEROCODED LL_NOTDEPRECATED
    [B "AgentData" MBT_SINGLE 0 [V "AgentID" MVT_LLUUID 16; V "SessionID" MVT_LLUUID 16; V "TransactionID" MVT_LLUUID 16];
     B "MethodData" MBT_SINGLE 0 [V "Method" MVT_VARIABLE 1; V "Invoice" MVT_LLUUID 16];
     B "ParamList" MBT_VARIABLE 0 [V "Parameter" MVT_VARIABLE 1]];
  T "MuteListRequest" LOW 262 [xff; xff; x06] LL_NOTRUST LL_UNENCODED LL_NOTDEPRECATED
    [B "AgentData" MBT_SINGLE 0 [V "AgentID" MVT_LLUUID 16; V "SessionID" MVT_LLUUID 16];
     B "MuteData" MBT_SINGLE 0 [V "MuteCRC" MVT_U32 4]];
  T "UpdateMuteListEntry" LOW 263 [xff; xff; x07] LL_NOTRUST LL_UNENCODED LL_NOTDEPRECATED
    [B "AgentData" MBT_SINGLE 0 [V "AgentID" MVT_LLUUID 16; V "SessionID" MVT_LLUUID 16];
     B "MuteData" MBT_SINGLE 0 [V "MuteID" MVT_LLUUID 16; V "MuteName" MVT_VARIABLE 1; V "MuteType" MVT_S32 4; V "MuteFlags" MVT_U32 4]];
  T "RemoveMuteListEntry" LOW 264 [xff; xff; x08] LL_NOTRUST LL_UNENCODED LL_NOTDEPRECATED
    [B "AgentData" MBT_SINGLE 0 [V "AgentID" MVT_LLUUID 16; V "SessionID" MVT_LLUUID 16];
     B "MuteData" MBT_SINGLE 0 [V "MuteID" MVT_LLUUID 16; V "MuteName" MVT_VARIABLE 1]];
  T "CopyInventoryFromNotecard" LOW 265 [xff; xff; x09] LL_NOTRUST LL_ZEROCODED LL_UDPDEPRECATED
    [B "AgentData" MBT_SINGLE 0 [V "AgentID" MVT_LLUUID 16; V "SessionID" MVT_LLUUID 16];
     B "NotecardData" MBT_SINGLE 0 [V "NotecardItemID" MVT_LLUUID 16; V "ObjectID" MVT_LLUUID 16];
     B "InventoryData" MBT_VARIABLE 0 [V "ItemID" MVT_LLUUID 16; V "FolderID" MVT_LLUUID 16]];
  T "UpdateInventoryItem" LOW 266 [xff; xff; x0a] LL_NOTRUST LL_ZEROCODED LL_NOTDEPRECATED
    [B "AgentData" MBT_SINGLE 0 [V "AgentID" MVT_LLUUID 16; V "SessionID" MVT_LLUUID 16; V "TransactionID" MVT_LLUUID 16];
     B "InventoryData" MBT_VARIABLE 0 [V "ItemID" MVT_LLUUID 16; V "FolderID" MVT_LLUUID 16; V "CallbackID" MVT_U32 4; V "CreatorID" MVT_LLUUID 16; V "OwnerID" MVT_LLUUID 16; V "GroupID" MVT_LLUUID 16; V "BaseMask" MVT_U32 4; V "OwnerMask" MVT_U32 4; V "GroupMask" MVT_U32 4; V "EveryoneMask" MVT_U32 4; V "NextOwnerMask" MVT_U32 4; V "GroupOwned" MVT_BOOL 1; V "TransactionID" MVT_LLUUID 16; V "Type" MVT_S8 1; V "InvType" MVT_S8 1; V "Flags" MVT_U32 4; V "SaleType" MVT_U8 1; V "SalePrice" MVT_S32 4; V "Name" MVT_VARIABLE 1; V "Description" MVT_VARIABLE 1; V "CreationDate" MVT_S32 4; V "CRC" MVT_U32 4]];
  T "UpdateCreateInventoryItem" LOW 267 [xff; xff; x0b] LL_TRUSTED LL_ZEROCODED LL_NOTDEPRECATED
    [B "AgentData" MBT_SINGLE 0 [V "AgentID" MVT_LLUUID 16; V "SimApproved" MVT_BOOL 1; V "TransactionID" MVT_LLUUID 16];
     B "InventoryData" MBT_VARIABLE 0 [V "ItemID" MVT_LLUUID 16; V "FolderID" MVT_LLUUID 16; V "CallbackID" MVT_U32 4; V "CreatorID" MVT_LLUUID 16; V "OwnerID" MVT_LLUUID 16; V "GroupID" MVT_LLUUID 16; V "BaseMask" MVT_U32 4; V "OwnerMask" MVT_U32 4; V "GroupMask" MVT_U32 4; V "EveryoneMask" MVT_U32 4; V "NextOwnerMask" MVT_U32 4; V "GroupOwned" MVT_BOOL 1; V "AssetID" MVT_LLUUID 16; V "Type" MVT_S8 1; V "InvType" MVT_S8 1; V "Flags" MVT_U32 4; V "SaleType" MVT_U8 1; V "SalePrice" MVT_S32 4; V "Name" MVT_VARIABLE 1; V "Description" MVT_VARIABLE 1; V "CreationDate" MVT_S32 4; V "CRC" MVT_U32 4]];
  T "MoveInventoryItem" LOW 268 [xff; xff; x0c] LL_NOTRUST LL_ZEROCODED LL_NOTDEPRECATED
    [B "AgentData" MBT_SINGLE 0 [V "AgentID" MVT_LLUUID 16; V "SessionID" MVT_LLUUID 16; V "Stamp" MVT_BOOL 1];
     B "InventoryData" MBT_VARIABLE 0 [V "ItemID" MVT_LLUUID 16; V "FolderID" MVT_LLUUID 16; V "NewName" MVT_VARIABLE 1]];
  T "CopyInventoryItem" LOW 269 [xff; xff; x0d] LL_NOTRUST LL_ZEROCODED LL_NOTDEPRECATED
    [B "AgentData" MBT_SINGLE 0 [V "AgentID" MVT_LLUUID 16; V "SessionID" MVT_LLUUID 16];
     B "InventoryData" MBT_VARIABLE 0 [V "CallbackID" MVT_U32 4; V "OldAgentID" MVT_LLUUID 16; V "OldItemID" MVT_LLUUID 16; V "NewFolderID" MVT_LLUUID 16; V "NewName" MVT_VARIABLE 1]];
  T "RemoveInventoryItem" LOW 270 [xff; xff; x0e] LL_NOTRUST LL_UNENCODED LL_NOTDEPRECATED
    [B "AgentData" MBT_SINGLE 0 [V "AgentID" MVT_LLUUID 16; V "SessionID" MVT_LLUUID 16];
     B "InventoryData" MBT_VARIABLE 0 [V "ItemID" MVT_LLUUID 16]];
  T "ChangeInventoryItemFlags" LOW 271 [xff; xff; x0f] LL_NOTRUST LL_UNENCODED LL_NOTDEPRECATED
    [B "AgentData" MBT_SINGLE 0 [V "AgentID" MVT_LLUUID 16; V "SessionID" MVT_LLUUID 16];
     B "InventoryData" MBT_VARIABLE 0 [V "ItemID" MVT_LLUUID 16; V "Flags" MVT_U32 4]];
  T "SaveAssetIntoInventory" LOW 272 [xff; xff; x10] LL_TRUSTED LL_UNENCODED LL_NOTDEPRECATED
    [B "AgentData" MBT_SINGLE 0 [V "AgentID" MVT_LLUUID 16];
     B "InventoryData" MBT_SINGLE 0 [V "ItemID" MVT_LLUUID 16; V "NewAssetID" MVT_LLUUID 16]];
  T "CreateInventoryFolder" LOW 273 [xff; xff; x11] LL_NOTRUST LL_UNENCODED LL_NOTDEPRECATED
    [B "AgentData" MBT_SINGLE 0 [V "AgentID" MVT_LLUUID 16; V "SessionID" MVT_LLUUID 16];
     B "FolderData" MBT_SINGLE 0 [V "FolderID" MVT_LLUUID 16; V "ParentID" MVT_LLUUID 16; V "Type" MVT_S8 1; V "Name" MVT_VARIABLE 1]];
  T "UpdateInventoryFolder" LOW 274 [xff; xff; x12] LL_NOTRUST LL_UNENCODED LL_NOTDEPRECATED
    [B "AgentData" MBT_SINGLE 0 [V "AgentID" MVT_LLUUID 16; V "SessionID" MVT_LLUUID 16];
     B "FolderData" MBT_VARIABLE 0 [V "FolderID" MVT_LLUUID 16; V "ParentID" MVT_LLUUID 16; V "Type" MVT_S8 1; V "Name" MVT_VARIABLE 1]];
  T "MoveInventoryFolder" LOW 275 [xff; xff; x13] LL_NOTRUST LL_ZEROCODED LL_NOTDEPRECATED
    [B "AgentData" MBT_SINGLE 0 [V "AgentID" MVT_LLUUID 16; V "SessionID" MVT_LLUUID 16; V "Stamp" MVT_BOOL 1];
     B "InventoryData" MBT_VARIABLE 0 [V "FolderID" MVT_LLUUID 16; V "ParentID" MVT_LLUUID 16]];
  T "RemoveInventoryFolder" LOW 276 [xff; xff; x14] LL_NOTRUST LL_UNENCODED LL_NOTDEPRECATED
    [B "AgentData" MBT_SINGLE 0 [V "AgentID" MVT_LLUUID 16; V "SessionID" MVT_LLUUID 16];
     B "FolderData" MBT_VARIABLE 0 [V "FolderID" MVT_LLUUID 16]];
  T "FetchInventoryDescendents" LOW 277 [xff; xff; x15] LL_NOTRUST LL_ZEROCODED LL_NOTDEPRECATED
    [B "AgentData" MBT_SINGLE 0 [V "AgentID" MVT_LLUUID 16; V "SessionID" MVT_LLUUID 16];
     B "InventoryData" MBT_SINGLE 0 [V "FolderID" MVT_LLUUID 16; V "OwnerID" MVT_LLUUID 16; V "SortOrder" MVT_S32 4; V "FetchFolders" MVT_BOOL 1; V "FetchItems" MVT_BOOL 1]]].

Definition shipped_8 : list template := [
  T "InventoryDescendents" LOW 278 [xff; xff; x16] LL_TRUSTED LL_ZEROCODED LL_NOTDEPRECATED
    [B "AgentData" MBT_SINGLE 0 [V "AgentID" MVT_LLUUID 16; V "FolderID" MVT_LLUUID 16; V "OwnerID" MVT_LLUUID 16; V "Version" MVT_S32 4; V "Descendents" MVT_S32 4];
     B "FolderData" MBT_VARIABLE 0 [V "FolderID" MVT_LLUUID 16; V "ParentID" MVT_LLUUID 16; V "Type" MVT_S8 1; V "Name" MVT_VARIABLE 1];
     B "ItemData" MBT_VARIABLE 0 [V "ItemID" MVT_LLUUID 16; V "FolderID" MVT_LLUUID 16; V "CreatorID" MVT_LLUUID 16; V "OwnerID" MVT_LLUUID 16; V "GroupID" MVT_LLUUID 16; V "BaseMask" MVT_U32 4; V "OwnerMask" MVT_U32 4; V "GroupMask" MVT_U32 4; V "EveryoneMask" MVT_U32 4; V "NextOwnerMask" MVT_U32 4; V "GroupOwned" MVT_BOOL 1; V "AssetID" MVT_LLUUID 16; V "Type" MVT_S8 1; V "InvType" MVT_S8 1; V "Flags" MVT_U32 4; V "SaleType" MVT_U8 1; V "SalePrice" MVT_S32 4; V "Name" MVT_VARIABLE 1; V "Description" MVT_VARIABLE 1; V "CreationDate" MVT_S32 4; V "CRC" MVT_U32 4]];
  T "FetchInventory" LOW 279 [xff; xff; x17] LL_NOTRUST LL_ZEROCODED LL_NOTDEPRECATED
    [B "AgentData" MBT_SINGLE 0 [V "AgentID" MVT_LLUUID 16; V "SessionID" MVT_LLUUID 16];
     B "InventoryData" MBT_VARIABLE 0 [V "OwnerID" MVT_LLUUID 16; V "ItemID" MVT_LLUUID 16]];
  T "FetchInventoryReply" LOW 280 [xff; xff; x18] LL_TRUSTED LL_ZEROCODED LL_NOTDEPRECATED
    [B "AgentData" MBT_SINGLE 0 [V "AgentID" MVT_LLUUID 16];
     B "InventoryData" MBT_VARIABLE 0 [V "ItemID" MVT_LLUUID 16; V "FolderID" MVT_LLUUID 16; V "CreatorID" MVT_LLUUID 16; V "OwnerID" MVT_LLUUID 16; V "GroupID" MVT_LLUUID 16; V "BaseMask" MVT_U32 4; V "OwnerMask" MVT_U32 4; V "GroupMask" MVT_U32 4; V "EveryoneMask" MVT_U32 4; V "NextOwnerMask" MVT_U32 4; V "GroupOwned" MVT_BOOL 1; V "AssetID" MVT_LLUUID 16; V "Type" MVT_S8 1; V "InvType" MVT_S8 1; V "Flags" MVT_U32 4; V "SaleType" MVT_U8 1; V "SalePrice" MVT_S32 4; V "Name" MVT_VARIABLE 1; V "Description" MVT_VARIABLE 1; V "CreationDate" MVT_S32 4; V "CRC" MVT_U32 4]];
  T "BulkUpdateInventory" LOW 281 [xff; xff; x19] LL_TRUSTED LL_ZEROCODED LL_NOTDEPRECATED
    [B "AgentData" MBT_SINGLE 0 [V "AgentID" MVT_LLUUID 16; V "TransactionID" MVT_LLUUID 16];
     B "FolderData" MBT_VARIABLE 0 [V "FolderID" MVT_LLUUID 16; V "ParentID" MVT_LLUUID 16; V "Type" MVT_S8 1; V "Name" MVT_VARIABLE 1];
     B "ItemData" MBT_VARIABLE 0 [V "ItemID" MVT_LLUUID 16; V "CallbackID" MVT_U32 4; V "FolderID" MVT_LLUUID 16; V "CreatorID" MVT_LLUUID 16; V "OwnerID" MVT_LLUUID 16; V "GroupID" MVT_LLUUID 16; V "BaseMask" MVT_U32 4; V "OwnerMask" MVT_U32 4; V "GroupMask" MVT_U32 4; V "EveryoneMask" MVT_U32 4; V "NextOwnerMask" MVT_U32 4; V "GroupOwned" MVT_BOOL 1; V "AssetID" MVT_LLUUID 16; V "Type" MVT_S8 1; V "InvType" MVT_S8 1; V "Flags" MVT_U32 4; V "SaleType" MVT_U8 1; V "SalePrice" MVT_S32 4; V "Name" MVT_VARIABLE 1; V "Description" MVT_VARIABLE 1; V "CreationDate" MVT_S32 4; V "CRC" MVT_U32 4]];
  T "RequestInventoryAsset" LOW 282 [xff; xff; x1a] LL_TRUSTED LL_UNENCODED LL_NOTDEPRECATED
    [B "QueryData" MBT_SINGLE 0 [V "QueryID" MVT_LLUUID 16; V "AgentID" MVT_LLUUID 16; V "OwnerID" MVT_LLUUID 16; V "ItemID" MVT_LLUUID 16]];
  T "InventoryAssetResponse" LOW 283 [xff; xff; x1b] LL_TRUSTED LL_UNENCODED LL_NOTDEPRECATED
    [B "QueryData" MBT_SINGLE 0 [V "QueryID" MVT_LLUUID 16; V "AssetID" MVT_LLUUID 16; V "IsReadable" MVT_BOOL 1]];
  T "RemoveInventoryObjects" LOW 284 [xff; xff; x1c] LL_NOTRUST LL_UNENCODED LL_NOTDEPRECATED
    [B "AgentData" MBT_SINGLE 0 [V "AgentID" MVT_LLUUID 16; V "SessionID" MVT_LLUUID 16];
     B "FolderData" MBT_VARIABLE 0 [V "FolderID" MVT_LLUUID 16];
     B "ItemData" MBT_VARIABLE 0 [V "ItemID" MVT_LLUUID 16]];
  T "PurgeInventoryDescendents" LOW 285 [xff; xff; x1d] LL_NOTRUST LL_ZEROCODED LL_NOTDEPRECATED
    [B "AgentData" MBT_SINGLE 0 [V "AgentID" MVT_LLUUID 16; V "SessionID" MVT_LLUUID 16];
     B "InventoryData" MBT_SINGLE 0 [V "FolderID" MVT_LLUUID 16]];
  T "UpdateTaskInventory" LOW 286 [xff; xff; x1e] LL_NOTRUST LL_ZEROCODED LL_NOTDEPRECATED
    [B "AgentData" MBT_SINGLE 0 [V "AgentID" MVT_LLUUID 16; V "SessionID" MVT_LLUUID 16];
     B "UpdateData" MBT_SINGLE 0 [V "LocalID" MVT_U32 4; V "Key" MVT_U8 1];
     B "InventoryData" MBT_SINGLE 0 [V "ItemID" MVT_LLUUID 16; V "FolderID" MVT_LLUUID 16; V "CreatorID" MVT_LLUUID 16; V "OwnerID" MVT_LLUUID 16; V "GroupID" MVT_LLUUID 16; V "BaseMask" MVT_U32 4; V "OwnerMask" MVT_U32 4; V "GroupMask" MVT_U32 4; V "EveryoneMask" MVT_U32 4; V "NextOwnerMask" MVT_U32 4; V "GroupOwned" MVT_BOOL 1; V "TransactionID" MVT_LLUUID 16; V "Type" MVT_S8 1; V "InvType" MVT_S8 1; V "Flags" MVT_U32 4; V "SaleType" MVT_U8 1; V "SalePrice" MVT_S32 4; V "Name" MVT_VARIABLE 1; V "Description" MVT_VARIABLE 1; V "CreationDate" MVT_S32 4; V "CRC" MVT_U32 4]];
  T "RemoveTaskInventory" LOW 287 [xff; xff; x1f] LL_NOTRUST LL_ZEROCODED LL_NOTDEPRECATED
    [B "AgentData" MBT_SINGLE 0 [V "AgentID" MVT_LLUUID 16; V "SessionID" MVT_LLUUID 16];
     B "InventoryData" MBT_SINGLE 0 [V "LocalID" MVT_U32 4; V "ItemID" MVT_LLUUID 16]];
  T "MoveTaskInventory" LOW 288 [xff; xff; x20] LL_NOTRUST LL_UNENCODED LL_NOTDEPRECATED
    [B "AgentData" MBT_SINGLE 0 [V "AgentID" MVT_LLUUID 16; V "SessionID" MVT_LLUUID 16; V "FolderID" MVT_LLUUID 16];
     B "InventoryData" MBT_SINGLE 0 [V "LocalID" MVT_U32 4; V "ItemID" MVT_LLUUID 16]];
  T "RequestTaskInventory" LOW 289 [xff; xff; x21] LL_NOTRUST LL_UNENCODED LL_NOTDEPRECATED
    [B "AgentData" MBT_SINGLE 0 [V "AgentID" MVT_LLUUID 16; V "SessionID" MVT_LLUUID 16];
     B "InventoryData" MBT_SINGLE 0 [V "LocalID" MVT_U32 4]];
  T "ReplyTaskInventory" LOW 290 [xff; xff; x22] LL_TRUSTED LL_ZEROCODED LL_NOTDEPRECATED
    [B "InventoryData" MBT_SINGLE 0 [V "TaskID" MVT_LLUUID 16; V "Serial" MVT_S16 2; V "Filename" MVT_VARIABLE 1]];
  T "DeRezObject" LOW 291 [xff; xff; x23] LL_NOTRUST LL_ZEROCODED LL_NOTDEPRECATED
    [B "AgentData" MBT_SINGLE 0 [V "AgentID" MVT_LLUUID 16; V "SessionID" MVT_LLUUID 16];
     B "AgentBlock" MBT_SINGLE 0 [V "GroupID" MVT_LLUUID 16; V "Destination" MVT_U8 1; V "DestinationID" MVT_LLUUID 16; V "TransactionID" MVT_LLUUID 16; V "PacketCount" MVT_U8 1; V "PacketNumber" MVT_U8 1];
     B "ObjectData" MBT_VARIABLE 0 [V "ObjectLocalID" MVT_U32 4]];
  T "DeRezAck" LOW 292 [xff; xff; x24] LL_TRUSTED LL_UNENCODED LL_NOTDEPRECATED
    [B "TransactionData" MBT_SINGLE 0 [V "TransactionID" MVT_LLUUID 16; V "Success" MVT_BOOL 1]];
  T "RezObject" LOW 293 [xff; xff; x25] LL_NOTRUST LL_ZEROCODED LL_NOTDEPRECATED
    [B "AgentData" MBT_SINGLE 0 [V "AgentID" MVT_LLUUID 16; V "SessionID" MVT_LLUUID 16; V "GroupID" MVT_LLUUID 16];
     B "RezData" MBT_SINGLE 0 [V "FromTaskID" MVT_LLUUID 16; V "BypassRaycast" MVT_U8 1; V "RayStart" MVT_LLVector3 12; V "RayEnd" MVT_LLVector3 12; V "RayTargetID" MVT_LLUUID 16; V "RayEndIsIntersection" MVT_BOOL 1; V "RezSelected" MVT_BOOL 1; V "RemoveItem" MVT_BOOL 1; V "ItemFlags" MVT_U32 4; V "GroupMask" MVT_U32 4; V "EveryoneMask" MVT_U32 4; V "NextOwnerMask" MVT_U32 4];
     B "InventoryData" MBT_SINGLE 0 [V "ItemID" MVT_LLUUID 16; V "FolderID" MVT_LLUUID 16; V "CreatorID" MVT_LLUUID 16; V "OwnerID" MVT_LLUUID 16; V "GroupID" MVT_LLUUID 16; V "BaseMask" MVT_U32 4; V "OwnerMask" MVT_U32 4; V "GroupMask" MVT_U32 4; V "EveryoneMask" MVT_U32 4; V "NextOwnerMask" MVT_U32 4; V "GroupOwned" MVT_BOOL 1; V "TransactionID" MVT_LLUUID 16; V "Type" MVT_S8 1; V "InvType" MVT_S8 1; V "Flags" MVT_U32 4; V "SaleType" MVT_U8 1; V "SalePrice" MVT_S32 4; V "Name" MVT_VARIABLE 1; V "Description" MVT_VARIABLE 1; V "CreationDate" MVT_S32 4; V "CRC" MVT_U32 4]];
  T "RezObjectFromNotecard" LOW 294 [xff; xff; x26] LL_NOTRUST LL_ZEROCODED LL_NOTDEPRECATED
    [B "AgentData" MBT_SINGLE 0 [V "AgentID" MVT_LLUUID 16; V "SessionID" MVT_LLUUID 16; V "GroupID" MVT_LLUUID 16];
     B "RezData" MBT_SINGLE 0 [V "FromTaskID" MVT_LLUUID 16; V "BypassRaycast" MVT_U8 1; V "RayStart" MVT_LLVector3 12; V "RayEnd" MVT_LLVector3 12; V "RayTargetID" MVT_LLUUID 16; V "RayEndIsIntersection" MVT_BOOL 1; V "RezSelected" MVT_BOOL 1; V "RemoveItem" MVT_BOOL 1; V "ItemFlags" MVT_U32 4; V "GroupMask" MVT_U32 4; V "EveryoneMask" MVT_U32 4; V "NextOwnerMask" MVT_U32 4];
     B "NotecardData" MBT_SINGLE 0 [V "NotecardItemID" MVT_LLUUID 16; V "ObjectID" MVT_LLUUID 16];
     B "InventoryData" MBT_VARIABLE 0 [V "ItemID" MVT_LLUUID 16]];
  T "TransferInventory" LOW 295 [xff; xff; x27] LL_TRUSTED LL_ZEROCODED LL_NOTDEPRECATED
    [B "InfoBlock" MBT_SINGLE 0 [V "SourceID" MVT_LLUUID 16; V "DestID" MVT_LLUUID 16; V "TransactionID" MVT_LLUUID 16];
     B "InventoryBlock" MBT_VARIABLE 0 [V "InventoryID" MVT_LLUUID 16; V "Type" MVT_S8 1]];
  T "TransferInventoryAck" LOW 296 [xff; xff; x28] LL_TRUSTED LL_ZEROCODED LL_NOTDEPRECATED
    [B "InfoBlock" MBT_SINGLE 0 [V "TransactionID" MVT_LLUUID 16; V "InventoryID" MVT_LLUUID 16]];
  T "AcceptFriendship" LOW 297 [xff; xff; x29] LL_NOTRUST LL_UNENCODED LL_NOTDEPRECATED
    [B "AgentData" MBT_SINGLE 0 [V "AgentID" MVT_LLUUID 16; V "SessionID" MVT_LLUUID 16];
     B "TransactionBlock" MBT_SINGLE 0 [V "TransactionID" MVT_LLUUID 16];
     B "FolderData" MBT_VARIABLE 0 [V "FolderID" MVT_LLUUID 16]];
  T "DeclineFriendship" LOW 298 [xff; xff; x2a] LL_NOTRUST LL_UNENCODED LL_NOTDEPRECATED
    [B "AgentData" MBT_SINGLE 0 [V "AgentID" MVT_LLUUID 16; V "SessionID" MVT_LLUUID 16];
     B "TransactionBlock" MBT_SINGLE 0 [V "TransactionID" MVT_LLUUID 16]];
  T "FormFriendship" LOW 299 [xff; xff; x2b] LL_TRUSTED LL_UNENCODED LL_NOTDEPRECATED
    [B "AgentBlock" MBT_SINGLE 0 [V "SourceID" MVT_LLUUID 16; V "DestID" MVT_LLUUID 16]];
  T "TerminateFriendship" LOW 300 [xff; xff; x2c] LL_NOTRUST LL_UNENCODED LL_NOTDEPRECATED
    [B "AgentData" MBT_SINGLE 0 [V "AgentID" MVT_LLUUID 16; V "SessionID" MVT_LLUUID 16];
     B "ExBlock" MBT_SINGLE 0 [V "OtherID" MVT_LLUUID 16]];
  T "OfferCallingCard" LOW 301 [xff; xff; x2d] LL_NOTRUST LL_UNENCODED LL_NOTDEPRECATED
    [B "AgentData" MBT_SINGLE 0 [V "AgentID" MVT_LLUUID 16; V "SessionID" MVT_LLUUID 16];
     B "AgentBlock" MBT_SINGLE 0 [V "DestID" MVT_LLUUID 16; V "TransactionID" MVT_LLUUID 16]];
  T "AcceptCallingCard" LOW 302 [xff; xff; x2e] LL_NOTRUST LL_UNENCODED LL_NOTDEPRECATED
    [B "AgentData" MBT_SINGLE 0 [V "AgentID" MVT_LLUUID 16; V "SessionID" MVT_LLUUID 16];
     B "TransactionBlock" MBT_SINGLE 0 [V "TransactionID" MVT_LLUUID 16];
     B "FolderData" MBT_VARIABLE 0 [V "FolderID" MVT_LLUUID 16]];
  T "DeclineCallingCard" LOW 303 [xff; xff; x2f] LL_NOTRUST LL_UNENCODED LL_NOTDEPRECATED
    [B "AgentData" MBT_SINGLE 0 [V "AgentID" MVT_LLUUID 16; V "SessionID" MVT_LLUUID 16];
     B "TransactionBlock" MBT_SINGLE 0 [V "TransactionID" MVT_LLUUID 16]];
  T "RezScript" LOW 304 [xff; xff; x30] LL_NOTRUST LL_ZEROCODED LL_NOTDEPRECATED
    [B "AgentData" MBT_SINGLE 0 [V "AgentID" MVT_LLUUID 16; V "SessionID" MVT_LLUUID 16; V "GroupID" MVT_LLUUID 16];
     B "UpdateBlock" MBT_SINGLE 0 [V "ObjectLocalID" MVT_U32 4; V "Enabled" MVT_BOOL 1];
     B "InventoryBlock" MBT_SINGLE 0 [V "ItemID" MVT_LLUUID 16; V "FolderID" MVT_LLUUID 16; V "CreatorID" MVT_LLUUID 16; V "OwnerID" MVT_LLUUID 16; V "GroupID" MVT_LLUUID 16; V "BaseMask" MVT_U32 4; V "OwnerMask" MVT_U32 4; V "GroupMask" MVT_U32 4; V "EveryoneMask" MVT_U32 4; V "NextOwnerMask" MVT_U32 4; V "GroupOwned" MVT_BOOL 1; V "TransactionID" MVT_LLUUID 16; V "Type" MVT_S8 1; V "InvType" MVT_S8 1; V "Flags" MVT_U32 4; V "SaleType" MVT_U8 1; V "SalePrice" MVT_S32 4; V "Name" MVT_VARIABLE 1; V "Description" MVT_VARIABLE 1; V "CreationDate" MVT_S32 4; V "CRC" MVT_U32 4]];
  T "CreateInventoryItem" LOW 305 [xff; xff; x31] LL_NOTRUST LL_ZEROCODED LL_NOTDEPRECATED
    [B "AgentData" MBT_SINGLE 0 [V "AgentID" MVT_LLUUID 16; V "SessionID" MVT_LLUUID 16];
     B "InventoryBlock" MBT_SINGLE 0 [V "CallbackID" MVT_U32 4; V "FolderID" MVT_LLUUID 16; V "TransactionID" MVT_LLUUID 16; V "NextOwnerMask" MVT_U32 4; V "Type" MVT_S8 1; V "InvType" MVT_S8 1; V "WearableType" MVT_U8 1; V "Name" MVT_VARIABLE 1; V "Description" MVT_VARIABLE 1]];
  T "CreateLandmarkForEvent" LOW 306 [xff; xff; x32] LL_NOTRUST LL_ZEROCODED LL_NOTDEPRECATED
    [B "AgentData" MBT_SINGLE 0 [V "AgentID" MVT_LLUUID 16; V "SessionID" MVT_LLUUID 16];
     B "EventData" MBT_SINGLE 0 [V "EventID" MVT_U32 4];
     B "InventoryBlock" MBT_SINGLE 0 [V "FolderID" MVT_LLUUID 16; V "Name" MVT_VARIABLE 1]];
  T "EventLocationRequest" LOW 307 [xff; xff; x33] LL_TRUSTED LL_ZEROCODED LL_NOTDEPRECATED
    [B "QueryData" MBT_SINGLE 0 [V "QueryID" MVT_LLUUID 16];
     B "EventData" MBT_SINGLE 0 [V "EventID" MVT_U32 4]];
  T "EventLocationReply" LOW 308 [xff; xff; x34] LL_TRUSTED LL_ZEROCODED LL_NOTDEPRECATED
    [B "QueryData" MBT_SINGLE 0 [V "QueryID" MVT_LLUUID 16];
     B "EventData" MBT_SINGLE 0 [V "Success" MVT_BOOL 1; V "RegionID" MVT_LLUUID 16; V "RegionPos" MVT_LLVector3 12]];
  T "RegionHandleRequest" LOW 309 [xff; xff; x35] LL_NOTRUST LL_UNENCODED LL_NOTDEPRECATED
    [B "RequestBlock" MBT_SINGLE 0 [V "RegionID" MVT_LLUUID 16]];
  T "RegionIDAndHandleReply" LOW 310 [xff; xff; x36] LL_TRUSTED LL_UNENCODED LL_NOTDEPRECATED
    [B "ReplyBlock" MBT_SINGLE 0 [V "RegionID" MVT_LLUUID 16; V "RegionHandle" MVT_U64 8]];
  T "MoneyTransferRequest" LOW 311 [xff; xff; x37] LL_NOTRUST LL_ZEROCODED LL_NOTDEPRECATED
    [B "AgentData" MBT_SINGLE 0 [V "AgentID" MVT_LLUUID 16; V "SessionID" MVT_LLUUID 16];
     B "MoneyData" MBT_SINGLE 0 [V "SourceID" MVT_LLUUID 16; V "DestID" MVT_LLUUID 16; V "Flags" MVT_U8 1; V "Amount" MVT_S32 4; V "AggregatePermNextOwner" MVT_U8 1; V "AggregatePermInventory" MVT_U8 1; V "TransactionType" MVT_S32 4; V "Description" MVT_VARIABLE 1]];
  T "MoneyTransferBackend" LOW 312 [xff; xff; x38] LL_TRUSTED LL_ZEROCODED LL_NOTDEPRECATED
    [B "MoneyData" MBT_SINGLE 0 [V "TransactionID" MVT_LLUUID 16; V "TransactionTime" MVT_U32 4; V "SourceID" MVT_LLUUID 16; V "DestID" MVT_LLUUID 16; V "Flags" MVT_U8 1; V "Amount" MVT_S32 4; V "AggregatePermNextOwner" MVT_U8 1; V "AggregatePermInventory" MVT_U8 1; V "TransactionType" MVT_S32 4; V "RegionID" MVT_LLUUID 16; V "GridX" MVT_U32 4; V "GridY" MVT_U32 4; V "Description" MVT_VARIABLE 1]];
  T "MoneyBalanceRequest" LOW 313 [xff; xff; x39] LL_NOTRUST LL_ZEROCODED LL_NOTDEPRECATED
    [B "AgentData" MBT_SINGLE 0 [V "AgentID" MVT_LLUUID 16; V "SessionID" MVT_LLUUID 16];
     B "MoneyData" MBT_SINGLE 0 [V "TransactionID" MVT_LLUUID 16]];
  T "MoneyBalanceReply" LOW 314 [xff; xff; x3a] LL_TRUSTED LL_ZEROCODED LL_NOTDEPRECATED
    [B "MoneyData" MBT_SINGLE 0 [V "AgentID" MVT_LLUUID 16; V "TransactionID" MVT_LLUUID 16; V "TransactionSuccess" MVT_BOOL 1; V "MoneyBalance" MVT_S32 4; V "SquareMetersCredit" MVT_S32 4; V "SquareMetersCommitted" MVT_S32 4; V "Description" MVT_VARIABLE 1]];
  T "RoutedMoneyBalanceReply" LOW 315 [xff; xff; x3b] LL_TRUSTED LL_ZEROCODED LL_NOTDEPRECATED
    [B "TargetBlock" MBT_SINGLE 0 [V "TargetIP" MVT_IP_ADDR 4; V "TargetPort" MVT_IP_PORT 2];
     B "MoneyData" MBT_SINGLE 0 [V "AgentID" MVT_LLUUID 16; V "TransactionID" MVT_LLUUID 16; V "TransactionSuccess" MVT_BOOL 1; V "MoneyBalance" MVT_S32 4; V "SquareMetersCredit" MVT_S32 4; V "SquareMetersCommitted" MVT_S32 4; V "Description" MVT_VARIABLE 1]];
  T "ActivateGestures" LOW 316 [xff; xff; x3c] LL_NOTRUST LL_UNENCODED LL_NOTDEPRECATED
    [B "AgentData" MBT_SINGLE 0 [V "AgentID" MVT_LLUUID 16; V "SessionID" MVT_LLUUID 16; V "Flags" MVT_U32 4];
     B "Data" MBT_VARIABLE 0 [V "ItemID" MVT_LLUUID 16; V "AssetID" MVT_LLUUID 16; V "GestureFlags" MVT_U32 4]];
  T "DeactivateGestures" LOW 317 [xff; xff; x3d] LL_NOTRUST LL_UNENCODED LL_NOTDEPRECATED
    [B "AgentData" MBT_SINGLE 0 [V "AgentID" MVT_LLUUID 16; V "SessionID" MVT_LLUUID 16; V "Flags" MVT_U32 4];
     B "Data" MBT_VARIABLE 0 [V "ItemID" MVT_LLUUID 16; V "GestureFlags" MVT_U32 4]]].

Definition shipped_9 : list template := [
  T "MuteListUpdate" LOW 318 [xff; xff; x3e] LL_TRUSTED LL_UNENCODED LL_NOTDEPRECATED
    [B "MuteData" MBT_SINGLE 0 [V "AgentID" MVT_LLUUID 16; V "Filename" MVT_VARIABLE 1]];
  T "UseCachedMuteList" LOW 319 [xff; xff; x3f] LL_NOTRUST LL_UNENCODED LL_NOTDEPRECATED
    [B "AgentData" MBT_SINGLE 0 [V "AgentID" MVT_LLUUID 16]];
  T "GrantUserRights" LOW 320 [xff; xff; x40] LL_NOTRUST LL_UNENCODED LL_NOTDEPRECATED
    [B "AgentData" MBT_SINGLE 0 [V "AgentID" MVT_LLUUID 16; V "SessionID" MVT_LLUUID 16];
     B "Rights" MBT_VARIABLE 0 [V "AgentRelated" MVT_LLUUID 16; V "RelatedRights" MVT_S32 4]];
  T "ChangeUserRights" LOW 321 [xff; xff; x41] LL_TRUSTED LL_UNENCODED LL_NOTDEPRECATED
    [B "AgentData" MBT_SINGLE 0 [V "AgentID" MVT_LLUUID 16];
     B "Rights" MBT_VARIABLE 0 [V "AgentRelated" MVT_LLUUID 16; V "RelatedRights" MVT_S32 4]];
  T "OnlineNotification" LOW 322 [xff; xff; x42] LL_TRUSTED LL_UNENCODED LL_NOTDEPRECATED
    [B "AgentBlock" MBT_VARIABLE 0 [V "AgentID" MVT_LLUUID 16]];
  T "OfflineNotification" LOW 323 [xff; xff; x43] LL_TRUSTED LL_UNENCODED LL_NOTDEPRECATED
    [B "AgentBlock" MBT_VARIABLE 0 [V "AgentID" MVT_LLUUID 16]];
  T "SetStartLocationRequest" LOW 324 [xff; xff; x44] LL_NOTRUST LL_ZEROCODED LL_NOTDEPRECATED
    [B "AgentData" MBT_SINGLE 0 [V "AgentID" MVT_LLUUID 16; V "SessionID" MVT_LLUUID 16];
     B "StartLocationData" MBT_SINGLE 0 [V "SimName" MVT_VARIABLE 1; V "LocationID" MVT_U32 4; V "LocationPos" MVT_LLVector3 12; V "LocationLookAt" MVT_LLVector3 12]];
  T "SetStartLocation" LOW 325 [xff; xff; x45] LL_TRUSTED LL_ZEROCODED LL_NOTDEPRECATED
    [B "StartLocationData" MBT_SINGLE 0 [V "AgentID" MVT_LLUUID 16; V "RegionID" MVT_LLUUID 16; V "LocationID" MVT_U32 4; V "RegionHandle" MVT_U64 8; V "LocationPos" MVT_LLVector3 12; V "LocationLookAt" MVT_LLVector3 12]];
  T "NetTest" LOW 326 [xff; xff; x46] LL_NOTRUST LL_UNENCODED LL_NOTDEPRECATED
    [B "NetBlock" MBT_SINGLE 0 [V "Port" MVT_IP_PORT 2]];
  T "SetCPURatio" LOW 327 [xff; xff; x47] LL_NOTRUST LL_UNENCODED LL_NOTDEPRECATED
    [B "Data" MBT_SINGLE 0 [V "Ratio" MVT_U8 1]];
  T "SimCrashed" LOW 328 [xff; xff; x48] LL_NOTRUST LL_UNENCODED LL_NOTDEPRECATED
    [B "Data" MBT_SINGLE 0 [V "RegionX" MVT_U32 4; V "RegionY" MVT_U32 4];
     B "Users" MBT_VARIABLE 0 [V "AgentID" MVT_LLUUID 16]];
  T "NameValuePair" LOW 329 [xff; xff; x49] LL_TRUSTED LL_UNENCODED LL_NOTDEPRECATED
    [B "TaskData" MBT_SINGLE 0 [V "ID" MVT_LLUUID 16];
     B "NameValueData" MBT_VARIABLE 0 [V "NVPair" MVT_VARIABLE 2]];
  T "RemoveNameValuePair" LOW 330 [xff; xff; x4a] LL_TRUSTED LL_UNENCODED LL_NOTDEPRECATED
    [B "TaskData" MBT_SINGLE 0 [V "ID" MVT_LLUUID 16];
     B "NameValueData" MBT_VARIABLE 0 [V "NVPair" MVT_VARIABLE 2]];
  T "UpdateAttachment" LOW 331 [xff; xff; x4b] LL_TRUSTED LL_ZEROCODED LL_NOTDEPRECATED
    [B "AgentData" MBT_SINGLE 0 [V "AgentID" MVT_LLUUID 16; V "SessionID" MVT_LLUUID 16];
     B "AttachmentBlock" MBT_SINGLE 0 [V "AttachmentPoint" MVT_U8 1];
     B "OperationData" MBT_SINGLE 0 [V "AddItem" MVT_BOOL 1; V "UseExistingAsset" MVT_BOOL 1];
     B "InventoryData" MBT_SINGLE 0 [V "ItemID" MVT_LLUUID 16; V "FolderID" MVT_LLUUID 16; V "CreatorID" MVT_LLUUID 16; V "OwnerID" MVT_LLUUID 16; V "GroupID" MVT_LLUUID 16; V "BaseMask" MVT_U32 4; V "OwnerMask" MVT_U32 4; V "GroupMask" MVT_U32 4; V "EveryoneMask" MVT_U32 4; V "NextOwnerMask" MVT_U32 4; V "GroupOwned" MVT_BOOL 1; V "AssetID" MVT_LLUUID 16; V "Type" MVT_S8 1; V "InvType" MVT_S8 1; V "Flags" MVT_U32 4; V "SaleType" MVT_U8 1; V "SalePrice" MVT_S32 4; V "Name" MVT_VARIABLE 1; V "Description" MVT_VARIABLE 1; V "CreationDate" MVT_S32 4; V "CRC" MVT_U32 4]];
  T "RemoveAttachment" LOW 332 [xff; xff; x4c] LL_NOTRUST LL_UNENCODED LL_NOTDEPRECATED
    [B "AgentData" MBT_SINGLE 0 [V "AgentID" MVT_LLUUID 16; V "SessionID" MVT_LLUUID 16];
     B "AttachmentBlock" MBT_SINGLE 0 [V "AttachmentPoint" MVT_U8 1; V "ItemID" MVT_LLUUID 16]];
  T "SoundTrigger" HIGH 29 [x1d] LL_NOTRUST LL_UNENCODED LL_NOTDEPRECATED
    [B "SoundData" MBT_SINGLE 0 [V "SoundID" MVT_LLUUID 16; V "OwnerID" MVT_LLUUID 16; V "ObjectID" MVT_LLUUID 16; V "ParentID" MVT_LLUUID 16; V "Handle" MVT_U64 8; V "Position" MVT_LLVector3 12; V "Gain" MVT_F32 4]];
  T "AttachedSound" MEDIUM 13 [xff; x0d] LL_TRUSTED LL_UNENCODED LL_NOTDEPRECATED
    [B "DataBlock" MBT_SINGLE 0 [V "SoundID" MVT_LLUUID 16; V "ObjectID" MVT_LLUUID 16; V "OwnerID" MVT_LLUUID 16; V "Gain" MVT_F32 4; V "Flags" MVT_U8 1]];
  T "AttachedSoundGainChange" MEDIUM 14 [xff; x0e] LL_TRUSTED LL_UNENCODED LL_NOTDEPRECATED
    [B "DataBlock" MBT_SINGLE 0 [V "ObjectID" MVT_LLUUID 16; V "Gain" MVT_F32 4]];
  T "PreloadSound" MEDIUM 15 [xff; x0f] LL_TRUSTED LL_UNENCODED LL_NOTDEPRECATED
    [B "DataBlock" MBT_VARIABLE 0 [V "ObjectID" MVT_LLUUID 16; V "OwnerID" MVT_LLUUID 16; V "SoundID" MVT_LLUUID 16]];
  T "AssetUploadRequest" LOW 333 [xff; xff; x4d] LL_NOTRUST LL_UNENCODED LL_NOTDEPRECATED
    [B "AssetBlock" MBT_SINGLE 0 [V "TransactionID" MVT_LLUUID 16; V "Type" MVT_S8 1; V "Tempfile" MVT_BOOL 1; V "StoreLocal" MVT_BOOL 1; V "AssetData" MVT_VARIABLE 2]];
  T "AssetUploadComplete" LOW 334 [xff; xff; x4e] LL_NOTRUST LL_UNENCODED LL_NOTDEPRECATED
    [B "AssetBlock" MBT_SINGLE 0 [V "UUID" MVT_LLUUID 16; V "Type" MVT_S8 1; V "Success" MVT_BOOL 1]];
  T "EmailMessageRequest" LOW 335 [xff; xff; x4f] LL_TRUSTED LL_UNENCODED LL_NOTDEPRECATED
    [B "DataBlock" MBT_SINGLE 0 [V "ObjectID" MVT_LLUUID 16; V "FromAddress" MVT_VARIABLE 1; V "Subject" MVT_VARIABLE 1]];
  T "EmailMessageReply" LOW 336 [xff; xff; x50] LL_TRUSTED LL_UNENCODED LL_NOTDEPRECATED
    [B "DataBlock" MBT_SINGLE 0 [V "ObjectID" MVT_LLUUID 16; V "More" MVT_U32 4; V "Time" MVT_U32 4; V "FromAddress" MVT_VARIABLE 1; V "Subject" MVT_VARIABLE 1; V "Data" MVT_VARIABLE 2; V "MailFilter" MVT_VARIABLE 1]];
  T "InternalScriptMail" MEDIUM 16 [xff; x10] LL_TRUSTED LL_UNENCODED LL_NOTDEPRECATED
    [B "DataBlock" MBT_SINGLE 0 [V "From" MVT_VARIABLE 1; V "To" MVT_LLUUID 16; V "Subject" MVT_VARIABLE 1; V "Body" MVT_VARIABLE 2]];
  T "ScriptDataRequest" LOW 337 [xff; xff; x51] LL_TRUSTED LL_UNENCODED LL_NOTDEPRECATED
    [B "DataBlock" MBT_VARIABLE 0 [V "Hash" MVT_U64 8; V "RequestType" MVT_S8 1; V "Request" MVT_VARIABLE 2]];
  T "ScriptDataReply" LOW 338 [xff; xff; x52] LL_TRUSTED LL_UNENCODED LL_NOTDEPRECATED
    [B "DataBlock" MBT_VARIABLE 0 [V "Hash" MVT_U64 8; V "Reply" MVT_VARIABLE 2]];
  T "CreateGroupRequest" LOW 339 [xff; xff; x53] LL_NOTRUST LL_ZEROCODED LL_NOTDEPRECATED
    [B "AgentData" MBT_SINGLE 0 [V "AgentID" MVT_LLUUID 16; V "SessionID" MVT_LLUUID 16];
     B "GroupData" MBT_SINGLE 0 [V "Name" MVT_VARIABLE 1; V "Charter" MVT_VARIABLE 2; V "ShowInList" MVT_BOOL 1; V "InsigniaID" MVT_LLUUID 16; V "MembershipFee" MVT_S32 4; V "OpenEnrollment" MVT_BOOL 1; V "AllowPublish" MVT_BOOL 1; V "MaturePublish" MVT_BOOL 1]];
  T "CreateGroupReply" LOW 340 [xff; xff; x54] LL_TRUSTED LL_UNENCODED LL_NOTDEPRECATED
    [B "AgentData" MBT_SINGLE 0 [V "AgentID" MVT_LLUUID 16];
     B "ReplyData" MBT_SINGLE 0 [V "GroupID" MVT_LLUUID 16; V "Success" MVT_BOOL 1; V "Message" MVT_VARIABLE 1]];
  T "UpdateGroupInfo" LOW 341 [xff; xff; x55] LL_NOTRUST LL_ZEROCODED LL_NOTDEPRECATED
    [B "AgentData" MBT_SINGLE 0 [V "AgentID" MVT_LLUUID 16; V "SessionID" MVT_LLUUID 16];
     B "GroupData" MBT_SINGLE 0 [V "GroupID" MVT_LLUUID 16; V "Charter" MVT_VARIABLE 2; V "ShowInList" MVT_BOOL 1; V "InsigniaID" MVT_LLUUID 16; V "MembershipFee" MVT_S32 4; V "OpenEnrollment" MVT_BOOL 1; V "AllowPublish" MVT_BOOL 1; V "MaturePublish" MVT_BOOL 1]];
  T "GroupRoleChanges" LOW 342 [xff; xff; x56] LL_NOTRUST LL_UNENCODED LL_NOTDEPRECATED
    [B "AgentData" MBT_SINGLE 0 [V "AgentID" MVT_LLUUID 16; V "SessionID" MVT_LLUUID 16; V "GroupID" MVT_LLUUID 16];
     B "RoleChange" MBT_VARIABLE 0 [V "RoleID" MVT_LLUUID 16; V "MemberID" MVT_LLUUID 16; V "Change" MVT_U32 4]];
  T "JoinGroupRequest" LOW 343 [xff; xff; x57] LL_NOTRUST LL_ZEROCODED LL_NOTDEPRECATED
    [B "AgentData" MBT_SINGLE 0 [V "AgentID" MVT_LLUUID 16; V "SessionID" MVT_LLUUID 16];
     B "GroupData" MBT_SINGLE 0 [V "GroupID" MVT_LLUUID 16]];
  T "JoinGroupReply" LOW 344 [xff; xff; x58] LL_TRUSTED LL_UNENCODED LL_NOTDEPRECATED
    [B "AgentData" MBT_SINGLE 0 [V "AgentID" MVT_LLUUID 16];
     B "GroupData" MBT_SINGLE 0 [V "GroupID" MVT_LLUUID 16; V "Success" MVT_BOOL 1]];
  T "EjectGroupMemberRequest" LOW 345 [xff; xff; x59] LL_NOTRUST LL_UNENCODED LL_NOTDEPRECATED
    [B "AgentData" MBT_SINGLE 0 [V "AgentID" MVT_LLUUID 16; V "SessionID" MVT_LLUUID 16];
     B "GroupData" MBT_SINGLE 0 [V "GroupID" MVT_LLUUID 16];
     B "EjectData" MBT_VARIABLE 0 [V "EjecteeID" MVT_LLUUID 16]];
  T "EjectGroupMemberReply" LOW 346 [xff; xff; x5a] LL_TRUSTED LL_UNENCODED LL_NOTDEPRECATED
    [B "AgentData" MBT_SINGLE 0 [V "AgentID" MVT_LLUUID 16];
     B "GroupData" MBT_SINGLE 0 [V "GroupID" MVT_LLUUID 16];
     B "EjectData" MBT_SINGLE 0 [V "Success" MVT_BOOL 1]];
  T "LeaveGroupRequest" LOW 347 [xff; xff; x5b] LL_NOTRUST LL_UNENCODED LL_NOTDEPRECATED
    [B "AgentData" MBT_SINGLE 0 [V "AgentID" MVT_LLUUID 16; V "SessionID" MVT_LLUUID 16];
     B "GroupData" MBT_SINGLE 0 [V "GroupID" MVT_LLUUID 16]];
  T "LeaveGroupReply" LOW 348 [xff; xff; x5c] LL_TRUSTED LL_UNENCODED LL_NOTDEPRECATED
    [B "AgentData" MBT_SINGLE 0 [V "AgentID" MVT_LLUUID 16];
     B "GroupData" MBT_SINGLE 0 [V "GroupID" MVT_LLUUID 16; V "Success" MVT_BOOL 1]];
  T "InviteGroupRequest" LOW 349 [xff; xff; x5d] LL_NOTRUST LL_UNENCODED LL_NOTDEPRECATED
    [B "AgentData" MBT_SINGLE 0 [V "AgentID" MVT_LLUUID 16; V "SessionID" MVT_LLUUID 16];
     B "GroupData" MBT_SINGLE 0 [V "GroupID" MVT_LLUUID 16];
     B "InviteData" MBT_VARIABLE 0 [V "InviteeID" MVT_LLUUID 16; V "RoleID" MVT_LLUUID 16]];
  T "InviteGroupResponse" LOW 350 [xff; xff; x5e] LL_TRUSTED LL_UNENCODED LL_NOTDEPRECATED
    [B "InviteData" MBT_SINGLE 0 [V "AgentID" MVT_LLUUID 16; V "InviteeID" MVT_LLUUID 16; V "GroupID" MVT_LLUUID 16; V "RoleID" MVT_LLUUID 16; V "MembershipFee" MVT_S32 4]];
  T "GroupProfileRequest" LOW 351 [xff; xff; x5f] LL_NOTRUST LL_UNENCODED LL_NOTDEPRECATED
    [B "AgentData" MBT_SINGLE 0 [V "AgentID" MVT_LLUUID 16; V "SessionID" MVT_LLUUID 16];
     B "GroupData" MBT_SINGLE 0 [V "GroupID" MVT_LLUUID 16]];
  T "GroupProfileReply" LOW 352 [xff; xff; x60] LL_TRUSTED LL_ZEROCODED LL_NOTDEPRECATED
    [B "AgentData" MBT_SINGLE 0 [V "AgentID" MVT_LLUUID 16];
     B "GroupData" MBT_SINGLE 0 [V "GroupID" MVT_LLUUID 16; V "Name" MVT_VARIABLE 1; V "Charter" MVT_VARIABLE 2; V "ShowInList" MVT_BOOL 1; V "MemberTitle" MVT_VARIABLE 1; V "PowersMask" MVT_U64 8; V "InsigniaID" MVT_LLUUID 16; V "FounderID" MVT_LLUUID 16; V "MembershipFee" MVT_S32 4; V "OpenEnrollment" MVT_BOOL 1; V "Money" MVT_S32 4; V "GroupMembershipCount" MVT_S32 4; V "GroupRolesCount" MVT_S32 4; V "AllowPublish" MVT_BOOL 1; V "MaturePublish" MVT_BOOL 1; V "OwnerRole" MVT_LLUUID 16]]].

Definition shipped_10 : list template := [
  T "GroupAccountSummaryRequest" LOW 353 [xff; xff; x61] LL_NOTRUST LL_ZEROCODED LL_NOTDEPRECATED
    [B "AgentData" MBT_SINGLE 0 [V "AgentID" MVT_LLUUID 16; V "SessionID" MVT_LLUUID 16; V "GroupID" MVT_LLUUID 16];
     B "MoneyData" MBT_SINGLE 0 [V "RequestID" MVT_LLUUID 16; V "IntervalDays" MVT_S32 4; V "CurrentInterval" MVT_S32 4]];
  T "GroupAccountSummaryReply" LOW 354 [xff; xff; x62] LL_TRUSTED LL_ZEROCODED LL_NOTDEPRECATED
    [B "AgentData" MBT_SINGLE 0 [V "AgentID" MVT_LLUUID 16; V "GroupID" MVT_LLUUID 16];
     B "MoneyData" MBT_SINGLE 0 [V "RequestID" MVT_LLUUID 16; V "IntervalDays" MVT_S32 4; V "CurrentInterval" MVT_S32 4; V "StartDate" MVT_VARIABLE 1; V "Balance" MVT_S32 4; V "TotalCredits" MVT_S32 4; V "TotalDebits" MVT_S32 4; V "ObjectTaxCurrent" MVT_S32 4; V "LightTaxCurrent" MVT_S32 4; V "LandTaxCurrent" MVT_S32 4; V "GroupTaxCurrent" MVT_S32 4; V "ParcelDirFeeCurrent" MVT_S32 4; V "ObjectTaxEstimate" MVT_S32 4; V "LightTaxEstimate" MVT_S32 4; V "LandTaxEstimate" MVT_S32 4; V "GroupTaxEstimate" MVT_S32 4; V "ParcelDirFeeEstimate" MVT_S32 4; V "NonExemptMembers" MVT_S32 4; V "LastTaxDate" MVT_VARIABLE 1; V "TaxDate" MVT_VARIABLE 1]];
  T "GroupAccountDetailsRequest" LOW 355 [xff; xff; x63] LL_NOTRUST LL_ZEROCODED LL_NOTDEPRECATED
    [B "AgentData" MBT_SINGLE 0 [V "AgentID" MVT_LLUUID 16; V "SessionID" MVT_LLUUID 16; V "GroupID" MVT_LLUUID 16];
     B "MoneyData" MBT_SINGLE 0 [V "RequestID" MVT_LLUUID 16; V "IntervalDays" MVT_S32 4; V "CurrentInterval" MVT_S32 4]];
  T "GroupAccountDetailsReply" LOW 356 [xff; xff; x64] LL_TRUSTED LL_ZEROCODED LL_NOTDEPRECATED
    [B "AgentData" MBT_SINGLE 0 [V "AgentID" MVT_LLUUID 16; V "GroupID" MVT_LLUUID 16];
     B "MoneyData" MBT_SINGLE 0 [V "RequestID" MVT_LLUUID 16; V "IntervalDays" MVT_S32 4; V "CurrentInterval" MVT_S32 4; V "StartDate" MVT_VARIABLE 1];
     B "HistoryData" MBT_VARIABLE 0 [V "Description" MVT_VARIABLE 1; V "Amount" MVT_S32 4]];
  T "GroupAccountTransactionsRequest" LOW 357 [xff; xff; x65] LL_NOTRUST LL_ZEROCODED LL_NOTDEPRECATED
    [B "AgentData" MBT_SINGLE 0 [V "AgentID" MVT_LLUUID 16; V "SessionID" MVT_LLUUID 16; V "GroupID" MVT_LLUUID 16];
     B "MoneyData" MBT_SINGLE 0 [V "RequestID" MVT_LLUUID 16; V "IntervalDays" MVT_S32 4; V "CurrentInterval" MVT_S32 4]];
  T "GroupAccountTransactionsReply" LOW 358 [xff; xff; x66] LL_TRUSTED LL_ZEROCODED LL_NOTDEPRECATED
    [B "AgentData" MBT_SINGLE 0 [V "AgentID" MVT_LLUUID 16; V "GroupID" MVT_LLUUID 16];
     B "MoneyData" MBT_SINGLE 0 [V "RequestID" MVT_LLUUID 16; V "IntervalDays" MVT_S32 4; V "CurrentInterval" MVT_S32 4; V "StartDate" MVT_VARIABLE 1];
     B "HistoryData" MBT_VARIABLE 0 [V "Time" MVT_VARIABLE 1; V "User" MVT_VARIABLE 1; V "Type" MVT_S32 4; V "Item" MVT_VARIABLE 1; V "Amount" MVT_S32 4]];
  T "GroupActiveProposalsRequest" LOW 359 [xff; xff; x67] LL_NOTRUST LL_UNENCODED LL_NOTDEPRECATED
    [B "AgentData" MBT_SINGLE 0 [V "AgentID" MVT_LLUUID 16; V "SessionID" MVT_LLUUID 16];
     B "GroupData" MBT_SINGLE 0 [V "GroupID" MVT_LLUUID 16];
     B "TransactionData" MBT_SINGLE 0 [V "TransactionID" MVT_LLUUID 16]];
  T "GroupActiveProposalItemReply" LOW 360 [xff; xff; x68] LL_TRUSTED LL_ZEROCODED LL_NOTDEPRECATED
    [B "AgentData" MBT_SINGLE 0 [V "AgentID" MVT_LLUUID 16; V "GroupID" MVT_LLUUID 16];
     B "TransactionData" MBT_SINGLE 0 [V "TransactionID" MVT_LLUUID 16; V "TotalNumItems" MVT_U32 4];
     B "ProposalData" MBT_VARIABLE 0 [V "VoteID" MVT_LLUUID 16; V "VoteInitiator" MVT_LLUUID 16; V "TerseDateID" MVT_VARIABLE 1; V "StartDateTime" MVT_VARIABLE 1; V "EndDateTime" MVT_VARIABLE 1; V "AlreadyVoted" MVT_BOOL 1; V "VoteCast" MVT_VARIABLE 1; V "Majority" MVT_F32 4; V "Quorum" MVT_S32 4; V "ProposalText" MVT_VARIABLE 1]];
  T "GroupVoteHistoryRequest" LOW 361 [xff; xff; x69] LL_NOTRUST LL_UNENCODED LL_NOTDEPRECATED
    [B "AgentData" MBT_SINGLE 0 [V "AgentID" MVT_LLUUID 16; V "SessionID" MVT_LLUUID 16];
     B "GroupData" MBT_SINGLE 0 [V "GroupID" MVT_LLUUID 16];
     B "TransactionData" MBT_SINGLE 0 [V "TransactionID" MVT_LLUUID 16]];
  T "GroupVoteHistoryItemReply" LOW 362 [xff; xff; x6a] LL_TRUSTED LL_ZEROCODED LL_NOTDEPRECATED
    [B "AgentData" MBT_SINGLE 0 [V "AgentID" MVT_LLUUID 16; V "GroupID" MVT_LLUUID 16];
     B "TransactionData" MBT_SINGLE 0 [V "TransactionID" MVT_LLUUID 16; V "TotalNumItems" MVT_U32 4];
     B "HistoryItemData" MBT_SINGLE 0 [V "VoteID" MVT_LLUUID 16; V "TerseDateID" MVT_VARIABLE 1; V "StartDateTime" MVT_VARIABLE 1; V "EndDateTime" MVT_VARIABLE 1; V "VoteInitiator" MVT_LLUUID 16; V "VoteType" MVT_VARIABLE 1; V "VoteResult" MVT_VARIABLE 1; V "Majority" MVT_F32 4; V "Quorum" MVT_S32 4; V "ProposalText" MVT_VARIABLE 2];
     B "VoteItem" MBT_VARIABLE 0 [V "CandidateID" MVT_LLUUID 16; V "VoteCast" MVT_VARIABLE 1; V "NumVotes" MVT_S32 4]];
  T "StartGroupProposal" LOW 363 [xff; xff; x6b] LL_NOTRUST LL_ZEROCODED LL_UDPDEPRECATED
    [B "AgentData" MBT_SINGLE 0 [V "AgentID" MVT_LLUUID 16; V "SessionID" MVT_LLUUID 16];
     B "ProposalData" MBT_SINGLE 0 [V "GroupID" MVT_LLUUID 16; V "Quorum" MVT_S32 4; V "Majority" MVT_F32 4; V "Duration" MVT_S32 4; V "ProposalText" MVT_VARIABLE 1]];
  T "GroupProposalBallot" LOW 364 [xff; xff; x6c] LL_NOTRUST LL_UNENCODED LL_UDPDEPRECATED
    [B "AgentData" MBT_SINGLE 0 [V "AgentID" MVT_LLUUID 16; V "SessionID" MVT_LLUUID 16];
     B "ProposalData" MBT_SINGLE 0 [V "ProposalID" MVT_LLUUID 16; V "GroupID" MVT_LLUUID 16; V "VoteCast" MVT_VARIABLE 1]];
  T "TallyVotes" LOW 365 [xff; xff; x6d] LL_TRUSTED LL_UNENCODED LL_NOTDEPRECATED
    [];
  T "GroupMembersRequest" LOW 366 [xff; xff; x6e] LL_NOTRUST LL_UNENCODED LL_NOTDEPRECATED
    [B "AgentData" MBT_SINGLE 0 [V "AgentID" MVT_LLUUID 16; V "SessionID" MVT_LLUUID 16];
     B "GroupData" MBT_SINGLE 0 [V "GroupID" MVT_LLUUID 16; V "RequestID" MVT_LLUUID 16]];
  T "GroupMembersReply" LOW 367 [xff; xff; x6f] LL_TRUSTED LL_ZEROCODED LL_NOTDEPRECATED
    [B "AgentData" MBT_SINGLE 0 [V "AgentID" MVT_LLUUID 16];
     B "GroupData" MBT_SINGLE 0 [V "GroupID" MVT_LLUUID 16; V "RequestID" MVT_LLUUID 16; V "MemberCount" MVT_S32 4];
     B "MemberData" MBT_VARIABLE 0 [V "AgentID" MVT_LLUUID 16; V "Contribution" MVT_S32 4; V "OnlineStatus" MVT_VARIABLE 1; V "AgentPowers" MVT_U64 8; V "Title" MVT_VARIABLE 1; V "IsOwner" MVT_BOOL 1]];
  T "ActivateGroup" LOW 368 [xff; xff; x70] LL_NOTRUST LL_ZEROCODED LL_NOTDEPRECATED
    [B "AgentData" MBT_SINGLE 0 [V "AgentID" MVT_LLUUID 16; V "SessionID" MVT_LLUUID 16; V "GroupID" MVT_LLUUID 16]];
  T "SetGroupContribution" LOW 369 [xff; xff; x71] LL_NOTRUST LL_UNENCODED LL_NOTDEPRECATED
    [B "AgentData" MBT_SINGLE 0 [V "AgentID" MVT_LLUUID 16; V "SessionID" MVT_LLUUID 16];
     B "Data" MBT_SINGLE 0 [V "GroupID" MVT_LLUUID 16; V "Contribution" MVT_S32 4]];
  T "SetGroupAcceptNotices" LOW 370 [xff; xff; x72] LL_NOTRUST LL_UNENCODED LL_NOTDEPRECATED
    [B "AgentData" MBT_SINGLE 0 [V "AgentID" MVT_LLUUID 16; V "SessionID" MVT_LLUUID 16];
     B "Data" MBT_SINGLE 0 [V "GroupID" MVT_LLUUID 16; V "AcceptNotices" MVT_BOOL 1];
     B "NewData" MBT_SINGLE 0 [V "ListInProfile" MVT_BOOL 1]];
  T "GroupRoleDataRequest" LOW 371 [xff; xff; x73] LL_NOTRUST LL_UNENCODED LL_NOTDEPRECATED
    [B "AgentData" MBT_SINGLE 0 [V "AgentID" MVT_LLUUID 16; V "SessionID" MVT_LLUUID 16];
     B "GroupData" MBT_SINGLE 0 [V "GroupID" MVT_LLUUID 16; V "RequestID" MVT_LLUUID 16]];
  T "GroupRoleDataReply" LOW 372 [xff; xff; x74] LL_TRUSTED LL_UNENCODED LL_NOTDEPRECATED
    [B "AgentData" MBT_SINGLE 0 [V "AgentID" MVT_LLUUID 16];
     B "GroupData" MBT_SINGLE 0 [V "GroupID" MVT_LLUUID 16; V "RequestID" MVT_LLUUID 16; V "RoleCount" MVT_S32 4];
     B "RoleData" MBT_VARIABLE 0 [V "RoleID" MVT_LLUUID 16; V "Name" MVT_VARIABLE 1; V "Title" MVT_VARIABLE 1; V "Description" MVT_VARIABLE 1; V "Powers" MVT_U64 8; V "Members" MVT_U32 4]];
  T "GroupRoleMembersRequest" LOW 373 [xff; xff; x75] LL_NOTRUST LL_UNENCODED LL_NOTDEPRECATED
    [B "AgentData" MBT_SINGLE 0 [V "AgentID" MVT_LLUUID 16; V "SessionID" MVT_LLUUID 16];
     B "GroupData" MBT_SINGLE 0 [V "GroupID" MVT_LLUUID 16; V "RequestID" MVT_LLUUID 16]];
  T "GroupRoleMembersReply" LOW 374 [xff; xff; x76] LL_TRUSTED LL_UNENCODED LL_NOTDEPRECATED
    [B "AgentData" MBT_SINGLE 0 [V "AgentID" MVT_LLUUID 16; V "GroupID" MVT_LLUUID 16; V "RequestID" MVT_LLUUID 16; V "TotalPairs" MVT_U32 4];
     B "MemberData" MBT_VARIABLE 0 [V "RoleID" MVT_LLUUID 16; V "MemberID" MVT_LLUUID 16]];
  T "GroupTitlesRequest" LOW 375 [xff; xff; x77] LL_NOTRUST LL_UNENCODED LL_NOTDEPRECATED
    [B "AgentData" MBT_SINGLE 0 [V "AgentID" MVT_LLUUID 16; V "SessionID" MVT_LLUUID 16; V "GroupID" MVT_LLUUID 16; V "RequestID" MVT_LLUUID 16]];
  T "GroupTitlesReply" LOW 376 [xff; xff; x78] LL_TRUSTED LL_ZEROCODED LL_NOTDEPRECATED
    [B "AgentData" MBT_SINGLE 0 [V "AgentID" MVT_LLUUID 16; V "GroupID" MVT_LLUUID 16; V "RequestID" MVT_LLUUID 16];
     B "GroupData" MBT_VARIABLE 0 [V "Title" MVT_VARIABLE 1; V "RoleID" MVT_LLUUID 16; V "Selected" MVT_BOOL 1]];
  T "GroupTitleUpdate" LOW 377 [xff; xff; x79] LL_NOTRUST LL_UNENCODED LL_NOTDEPRECATED
    [B "AgentData" MBT_SINGLE 0 [V "AgentID" MVT_LLUUID 16; V "SessionID" MVT_LLUUID 16; V "GroupID" MVT_LLUUID 16; V "TitleRoleID" MVT_LLUUID 16]];
  T "GroupRoleUpdate" LOW 378 [xff; xff; x7a] LL_NOTRUST LL_UNENCODED LL_NOTDEPRECATED
    [B "AgentData" MBT_SINGLE 0 [V "AgentID" MVT_LLUUID 16; V "SessionID" MVT_LLUUID 16; V "GroupID" MVT_LLUUID 16];
     B "RoleData" MBT_VARIABLE 0 [V "RoleID" MVT_LLUUID 16; V "Name" MVT_VARIABLE 1; V "Description" MVT_VARIABLE 1; V "Title" MVT_VARIABLE 1; V "Powers" MVT_U64 8; V "UpdateType" MVT_U8 1]];
  T "LiveHelpGroupRequest" LOW 379 [xff; xff; x7b] LL_TRUSTED LL_UNENCODED LL_NOTDEPRECATED
    [B "RequestData" MBT_SINGLE 0 [V "RequestID" MVT_LLUUID 16; V "AgentID" MVT_LLUUID 16]];
  T "LiveHelpGroupReply" LOW 380 [xff; xff; x7c] LL_TRUSTED LL_UNENCODED LL_NOTDEPRECATED
    [B "ReplyData" MBT_SINGLE 0 [V "RequestID" MVT_LLUUID 16; V "GroupID" MVT_LLUUID 16; V "Selection" MVT_VARIABLE 1]];
  T "AgentWearablesRequest" LOW 381 [xff; xff; x7d] LL_NOTRUST LL_UNENCODED LL_NOTDEPRECATED
    [B "AgentData" MBT_SINGLE 0 [V "AgentID" MVT_LLUUID 16; V "SessionID" MVT_LLUUID 16]];
  T "AgentWearablesUpdate" LOW 382 [xff; xff; x7e] LL_TRUSTED LL_ZEROCODED LL_NOTDEPRECATED
    [B "AgentData" MBT_SINGLE 0 [V "AgentID" MVT_LLUUID 16; V "SessionID" MVT_LLUUID 16; V "SerialNum" MVT_U32 4];
     B "WearableData" MBT_VARIABLE 0 [V "ItemID" MVT_LLUUID 16; V "AssetID" MVT_LLUUID 16; V "WearableType" MVT_U8 1]];
  T "AgentIsNowWearing" LOW 383 [xff; xff; x7f] LL_NOTRUST LL_ZEROCODED LL_NOTDEPRECATED
    [B "AgentData" MBT_SINGLE 0 [V "AgentID" MVT_LLUUID 16; V "SessionID" MVT_LLUUID 16];
     B "WearableData" MBT_VARIABLE 0 [V "ItemID" MVT_LLUUID 16; V "WearableType" MVT_U8 1]];
  T "AgentCachedTexture" LOW 384 [xff; xff; x80] LL_NOTRUST LL_UNENCODED LL_NOTDEPRECATED
    [B "AgentData" MBT_SINGLE 0 [V "AgentID" MVT_LLUUID 16; V "SessionID" MVT_LLUUID 16; V "SerialNum" MVT_S32 4];
     B "WearableData" MBT_VARIABLE 0 [V "ID" MVT_LLUUID 16; V "TextureIndex" MVT_U8 1]];
  T "AgentCachedTextureResponse" LOW 385 [xff; xff; x81] LL_TRUSTED LL_UNENCODED LL_NOTDEPRECATED
    [B "AgentData" MBT_SINGLE 0 [V "AgentID" MVT_LLUUID 16; V "SessionID" MVT_LLUUID 16; V "SerialNum" MVT_S32 4];
     B "WearableData" MBT_VARIABLE 0 [V "TextureID" MVT_LLUUID 16; V "TextureIndex" MVT_U8 1; V "HostName" MVT_VARIABLE 1]];
  T "AgentDataUpdateRequest" LOW 386 [xff; xff; x82] LL_NOTRUST LL_UNENCODED LL_NOTDEPRECATED
    [B "AgentData" MBT_SINGLE 0 [V "AgentID" MVT_LLUUID 16; V "SessionID" MVT_LLUUID 16]];
  T "AgentDataUpdate" LOW 387 [xff; xff; x83] LL_TRUSTED LL_ZEROCODED LL_NOTDEPRECATED
    [B "AgentData" MBT_SINGLE 0 [V "AgentID" MVT_LLUUID 16; V "FirstName" MVT_VARIABLE 1; V "LastName" MVT_VARIABLE 1; V "GroupTitle" MVT_VARIABLE 1; V "ActiveGroupID" MVT_LLUUID 16; V "GroupPowers" MVT_U64 8; V "GroupName" MVT_VARIABLE 1]];
  T "GroupDataUpdate" LOW 388 [xff; xff; x84] LL_TRUSTED LL_ZEROCODED LL_NOTDEPRECATED
    [B "AgentGroupData" MBT_VARIABLE 0 [V "AgentID" MVT_LLUUID 16; V "GroupID" MVT_LLUUID 16; V "AgentPowers" MVT_U64 8; V "GroupTitle" MVT_VARIABLE 1]];
  T "AgentGroupDataUpdate" LOW 389 [xff; xff; x85] LL_TRUSTED LL_ZEROCODED LL_UDPDEPRECATED
    [B "AgentData" MBT_SINGLE 0 [V "AgentID" MVT_LLUUID 16];
     B "GroupData" MBT_VARIABLE 0 [V "GroupID" MVT_LLUUID 16; V "GroupPowers" MVT_U64 8; V "AcceptNotices" MVT_BOOL 1; V "GroupInsigniaID" MVT_LLUUID 16; V "Contribution" MVT_S32 4; V "GroupName" MVT_VARIABLE 1]];
  T "AgentDropGroup" LOW 390 [xff; xff; x86] LL_TRUSTED LL_ZEROCODED LL_UDPDEPRECATED
    [B "AgentData" MBT_SINGLE 0 [V "AgentID" MVT_LLUUID 16; V "GroupID" MVT_LLUUID 16]];
  T "LogTextMessage" LOW 391 [xff; xff; x87] LL_TRUSTED LL_ZEROCODED LL_NOTDEPRECATED
    [B "DataBlock" MBT_VARIABLE 0 [V "FromAgentId" MVT_LLUUID 16; V "ToAgentId" MVT_LLUUID 16; V "GlobalX" MVT_F64 8; V "GlobalY" MVT_F64 8; V "Time" MVT_U32 4; V "Message" MVT_VARIABLE 2]];
  T "ViewerEffect" MEDIUM 17 [xff; x11] LL_NOTRUST LL_ZEROCODED LL_NOTDEPRECATED
    [B "AgentData" MBT_SINGLE 0 [V "AgentID" MVT_LLUUID 16; V "SessionID" MVT_LLUUID 16];
     B "Effect" MBT_VARIABLE 0 [V "ID" MVT_LLUUID 16; V "AgentID" MVT_LLUUID 16; V "Type" MVT_U8 1; V "Duration" MVT_F32 4; V "Color" MVT_FIXED 4; V "TypeData" MVT_VARIABLE 1]]].

Definition shipped_11 : list template := [
  T "CreateTrustedCircuit" LOW 392 [xff; xff; x88] LL_NOTRUST LL_UNENCODED LL_NOTDEPRECATED
    [B "DataBlock" MBT_SINGLE 0 [V "EndPointID" MVT_LLUUID 16; V "Digest" MVT_FIXED 32]];
  T "DenyTrustedCircuit" LOW 393 [xff; xff; x89] LL_NOTRUST LL_UNENCODED LL_NOTDEPRECATED
    [B "DataBlock" MBT_SINGLE 0 [V "EndPointID" MVT_LLUUID 16]];
  T "RequestTrustedCircuit" LOW 394 [xff; xff; x8a] LL_TRUSTED LL_UNENCODED LL_NOTDEPRECATED
    [];
  T "RezSingleAttachmentFromInv" LOW 395 [xff; xff; x8b] LL_NOTRUST LL_ZEROCODED LL_NOTDEPRECATED
    [B "AgentData" MBT_SINGLE 0 [V "AgentID" MVT_LLUUID 16; V "SessionID" MVT_LLUUID 16];
     B "ObjectData" MBT_SINGLE 0 [V "ItemID" MVT_LLUUID 16; V "OwnerID" MVT_LLUUID 16; V "AttachmentPt" MVT_U8 1; V "ItemFlags" MVT_U32 4; V "GroupMask" MVT_U32 4; V "EveryoneMask" MVT_U32 4; V "NextOwnerMask" MVT_U32 4; V "Name" MVT_VARIABLE 1; V "Description" MVT_VARIABLE 1]];
  T "RezMultipleAttachmentsFromInv" LOW 396 [xff; xff; x8c] LL_NOTRUST LL_ZEROCODED LL_NOTDEPRECATED
    [B "AgentData" MBT_SINGLE 0 [V "AgentID" MVT_LLUUID 16; V "SessionID" MVT_LLUUID 16];
     B "HeaderData" MBT_SINGLE 0 [V "CompoundMsgID" MVT_LLUUID 16; V "TotalObjects" MVT_U8 1; V "FirstDetachAll" MVT_BOOL 1];
     B "ObjectData" MBT_VARIABLE 0 [V "ItemID" MVT_LLUUID 16; V "OwnerID" MVT_LLUUID 16; V "AttachmentPt" MVT_U8 1; V "ItemFlags" MVT_U32 4; V "GroupMask" MVT_U32 4; V "EveryoneMask" MVT_U32 4; V "NextOwnerMask" MVT_U32 4; V "Name" MVT_VARIABLE 1; V "Description" MVT_VARIABLE 1]];
  T "DetachAttachmentIntoInv" LOW 397 [xff; xff; x8d] LL_NOTRUST LL_UNENCODED LL_NOTDEPRECATED
    [B "ObjectData" MBT_SINGLE 0 [V "AgentID" MVT_LLUUID 16; V "ItemID" MVT_LLUUID 16]];
  T "CreateNewOutfitAttachments" LOW 398 [xff; xff; x8e] LL_NOTRUST LL_UNENCODED LL_NOTDEPRECATED
    [B "AgentData" MBT_SINGLE 0 [V "AgentID" MVT_LLUUID 16; V "SessionID" MVT_LLUUID 16];
     B "HeaderData" MBT_SINGLE 0 [V "NewFolderID" MVT_LLUUID 16];
     B "ObjectData" MBT_VARIABLE 0 [V "OldItemID" MVT_LLUUID 16; V "OldFolderID" MVT_LLUUID 16]];
  T "UserInfoRequest" LOW 399 [xff; xff; x8f] LL_NOTRUST LL_UNENCODED LL_NOTDEPRECATED
    [B "AgentData" MBT_SINGLE 0 [V "AgentID" MVT_LLUUID 16; V "SessionID" MVT_LLUUID 16]];
  T "UserInfoReply" LOW 400 [xff; xff; x90] LL_NOTRUST LL_UNENCODED LL_NOTDEPRECATED
    [B "AgentData" MBT_SINGLE 0 [V "AgentID" MVT_LLUUID 16];
     B "UserData" MBT_SINGLE 0 [V "IMViaEMail" MVT_BOOL 1; V "DirectoryVisibility" MVT_VARIABLE 1; V "EMail" MVT_VARIABLE 2]];
  T "UpdateUserInfo" LOW 401 [xff; xff; x91] LL_NOTRUST LL_UNENCODED LL_NOTDEPRECATED
    [B "AgentData" MBT_SINGLE 0 [V "AgentID" MVT_LLUUID 16; V "SessionID" MVT_LLUUID 16];
     B "UserData" MBT_SINGLE 0 [V "IMViaEMail" MVT_BOOL 1; V "DirectoryVisibility" MVT_VARIABLE 1]];
  T "ParcelRename" LOW 402 [xff; xff; x92] LL_TRUSTED LL_UNENCODED LL_NOTDEPRECATED
    [B "ParcelData" MBT_VARIABLE 0 [V "ParcelID" MVT_LLUUID 16; V "NewName" MVT_VARIABLE 1]];
  T "InitiateDownload" LOW 403 [xff; xff; x93] LL_NOTRUST LL_UNENCODED LL_NOTDEPRECATED
    [B "AgentData" MBT_SINGLE 0 [V "AgentID" MVT_LLUUID 16];
     B "FileData" MBT_SINGLE 0 [V "SimFilename" MVT_VARIABLE 1; V "ViewerFilename" MVT_VARIABLE 1]];
  T "SystemMessage" LOW 404 [xff; xff; x94] LL_TRUSTED LL_ZEROCODED LL_NOTDEPRECATED
    [B "MethodData" MBT_SINGLE 0 [V "Method" MVT_VARIABLE 1; V "Invoice" MVT_LLUUID 16; V "Digest" MVT_FIXED 32];
     B "ParamList" MBT_VARIABLE 0 [V "Parameter" MVT_VARIABLE 1]];
  T "MapLayerRequest" LOW 405 [xff; xff; x95] LL_NOTRUST LL_UNENCODED LL_NOTDEPRECATED
    [B "AgentData" MBT_SINGLE 0 [V "AgentID" MVT_LLUUID 16; V "SessionID" MVT_LLUUID 16; V "Flags" MVT_U32 4; V "EstateID" MVT_U32 4; V "Godlike" MVT_BOOL 1]];
  T "MapLayerReply" LOW 406 [xff; xff; x96] LL_TRUSTED LL_UNENCODED LL_NOTDEPRECATED
    [B "AgentData" MBT_SINGLE 0 [V "AgentID" MVT_LLUUID 16; V "Flags" MVT_U32 4];
     B "LayerData" MBT_VARIABLE 0 [V "Left" MVT_U32 4; V "Right" MVT_U32 4; V "Top" MVT_U32 4; V "Bottom" MVT_U32 4; V "ImageID" MVT_LLUUID 16]];
  T "MapBlockRequest" LOW 407 [xff; xff; x97] LL_NOTRUST LL_UNENCODED LL_NOTDEPRECATED
    [B "AgentData" MBT_SINGLE 0 [V "AgentID" MVT_LLUUID 16; V "SessionID" MVT_LLUUID 16; V "Flags" MVT_U32 4; V "EstateID" MVT_U32 4; V "Godlike" MVT_BOOL 1];
     B "PositionData" MBT_SINGLE 0 [V "MinX" MVT_U16 2; V "MaxX" MVT_U16 2; V "MinY" MVT_U16 2; V "MaxY" MVT_U16 2]];
  T "MapNameRequest" LOW 408 [xff; xff; x98] LL_NOTRUST LL_UNENCODED LL_NOTDEPRECATED
    [B "AgentData" MBT_SINGLE 0 [V "AgentID" MVT_LLUUID 16; V "SessionID" MVT_LLUUID 16; V "Flags" MVT_U32 4; V "EstateID" MVT_U32 4; V "Godlike" MVT_BOOL 1];
     B "NameData" MBT_SINGLE 0 [V "Name" MVT_VARIABLE 1]];
  T "MapBlockReply" LOW 409 [xff; xff; x99] LL_TRUSTED LL_UNENCODED LL_NOTDEPRECATED
    [B "AgentData" MBT_SINGLE 0 [V "AgentID" MVT_LLUUID 16; V "Flags" MVT_U32 4];
     B "Data" MBT_VARIABLE 0 [V "X" MVT_U16 2; V "Y" MVT_U16 2; V "Name" MVT_VARIABLE 1; V "Access" MVT_U8 1; V "RegionFlags" MVT_U32 4; V "WaterHeight" MVT_U8 1; V "Agents" MVT_U8 1; V "MapImageID" MVT_LLUUID 16]];
  T "MapItemRequest" LOW 410 [xff; xff; x9a] LL_NOTRUST LL_UNENCODED LL_NOTDEPRECATED
    [B "AgentData" MBT_SINGLE 0 [V "AgentID" MVT_LLUUID 16; V "SessionID" MVT_LLUUID 16; V "Flags" MVT_U32 4; V "EstateID" MVT_U32 4; V "Godlike" MVT_BOOL 1];
     B "RequestData" MBT_SINGLE 0 [V "ItemType" MVT_U32 4; V "RegionHandle" MVT_U64 8]];
  T "MapItemReply" LOW 411 [xff; xff; x9b] LL_TRUSTED LL_UNENCODED LL_NOTDEPRECATED
    [B "AgentData" MBT_SINGLE 0 [V "AgentID" MVT_LLUUID 16; V "Flags" MVT_U32 4];
     B "RequestData" MBT_SINGLE 0 [V "ItemType" MVT_U32 4];
     B "Data" MBT_VARIABLE 0 [V "X" MVT_U32 4; V "Y" MVT_U32 4; V "ID" MVT_LLUUID 16; V "Extra" MVT_S32 4; V "Extra2" MVT_S32 4; V "Name" MVT_VARIABLE 1]];
  T "SendPostcard" LOW 412 [xff; xff; x9c] LL_NOTRUST LL_UNENCODED LL_NOTDEPRECATED
    [B "AgentData" MBT_SINGLE 0 [V "AgentID" MVT_LLUUID 16; V "SessionID" MVT_LLUUID 16; V "AssetID" MVT_LLUUID 16; V "PosGlobal" MVT_LLVector3d 24; V "To" MVT_VARIABLE 1; V "From" MVT_VARIABLE 1; V "Name" MVT_VARIABLE 1; V "Subject" MVT_VARIABLE 1; V "Msg" MVT_VARIABLE 2; V "AllowPublish" MVT_BOOL 1; V "MaturePublish" MVT_BOOL 1]];
  T "RpcChannelRequest" LOW 413 [xff; xff; x9d] LL_TRUSTED LL_UNENCODED LL_NOTDEPRECATED
    [B "DataBlock" MBT_SINGLE 0 [V "GridX" MVT_U32 4; V "GridY" MVT_U32 4; V "TaskID" MVT_LLUUID 16; V "ItemID" MVT_LLUUID 16]];
  T "RpcChannelReply" LOW 414 [xff; xff; x9e] LL_TRUSTED LL_UNENCODED LL_NOTDEPRECATED
    [B "DataBlock" MBT_SINGLE 0 [V "TaskID" MVT_LLUUID 16; V "ItemID" MVT_LLUUID 16; V "ChannelID" MVT_LLUUID 16]];
  T "RpcScriptRequestInbound" LOW 415 [xff; xff; x9f] LL_NOTRUST LL_UNENCODED LL_NOTDEPRECATED
    [B "TargetBlock" MBT_SINGLE 0 [V "GridX" MVT_U32 4; V "GridY" MVT_U32 4];
     B "DataBlock" MBT_SINGLE 0 [V "TaskID" MVT_LLUUID 16; V "ItemID" MVT_LLUUID 16; V "ChannelID" MVT_LLUUID 16; V "IntValue" MVT_U32 4; V "StringValue" MVT_VARIABLE 2]];
  T "RpcScriptRequestInboundForward" LOW 416 [xff; xff; xa0] LL_TRUSTED LL_UNENCODED LL_UDPDEPRECATED
    [B "DataBlock" MBT_SINGLE 0 [V "RPCServerIP" MVT_IP_ADDR 4; V "RPCServerPort" MVT_IP_PORT 2; V "TaskID" MVT_LLUUID 16; V "ItemID" MVT_LLUUID 16; V "ChannelID" MVT_LLUUID 16; V "IntValue" MVT_U32 4; V "StringValue" MVT_VARIABLE 2]];
  T "RpcScriptReplyInbound" LOW 417 [xff; xff; xa1] LL_NOTRUST LL_UNENCODED LL_NOTDEPRECATED
    [B "DataBlock" MBT_SINGLE 0 [V "TaskID" MVT_LLUUID 16; V "ItemID" MVT_LLUUID 16; V "ChannelID" MVT_LLUUID 16; V "IntValue" MVT_U32 4; V "StringValue" MVT_VARIABLE 2]];
  T "ScriptMailRegistration" LOW 418 [xff; xff; xa2] LL_TRUSTED LL_UNENCODED LL_NOTDEPRECATED
    [B "DataBlock" MBT_SINGLE 0 [V "TargetIP" MVT_VARIABLE 1; V "TargetPort" MVT_IP_PORT 2; V "TaskID" MVT_LLUUID 16; V "Flags" MVT_U32 4]];
  T "ParcelMediaCommandMessage" LOW 419 [xff; xff; xa3] LL_TRUSTED LL_UNENCODED LL_NOTDEPRECATED
    [B "CommandBlock" MBT_SINGLE 0 [V "Flags" MVT_U32 4; V "Command" MVT_U32 4; V "Time" MVT_F32 4]];
  T "ParcelMediaUpdate" LOW 420 [xff; xff; xa4] LL_TRUSTED LL_UNENCODED LL_NOTDEPRECATED
    [B "DataBlock" MBT_SINGLE 0 [V "MediaURL" MVT_VARIABLE 1; V "MediaID" MVT_LLUUID 16; V "MediaAutoScale" MVT_U8 1];
     B "DataBlockExtended" MBT_SINGLE 0 [V "MediaType" MVT_VARIABLE 1; V "MediaDesc" MVT_VARIABLE 1; V "MediaWidth" MVT_S32 4; V "MediaHeight" MVT_S32 4; V "MediaLoop" MVT_U8 1]];
  T "LandStatRequest" LOW 421 [xff; xff; xa5] LL_NOTRUST LL_UNENCODED LL_NOTDEPRECATED
    [B "AgentData" MBT_SINGLE 0 [V "AgentID" MVT_LLUUID 16; V "SessionID" MVT_LLUUID 16];
     B "RequestData" MBT_SINGLE 0 [V "ReportType" MVT_U32 4; V "RequestFlags" MVT_U32 4; V "Filter" MVT_VARIABLE 1; V "ParcelLocalID" MVT_S32 4]];
  T "LandStatReply" LOW 422 [xff; xff; xa6] LL_TRUSTED LL_UNENCODED LL_UDPDEPRECATED
    [B "RequestData" MBT_SINGLE 0 [V "ReportType" MVT_U32 4; V "RequestFlags" MVT_U32 4; V "TotalObjectCount" MVT_U32 4];
     B "ReportData" MBT_VARIABLE 0 [V "TaskLocalID" MVT_U32 4; V "TaskID" MVT_LLUUID 16; V "LocationX" MVT_F32 4; V "LocationY" MVT_F32 4; V "LocationZ" MVT_F32 4; V "Score" MVT_F32 4; V "TaskName" MVT_VARIABLE 1; V "OwnerName" MVT_VARIABLE 1]];
  T "Error" LOW 423 [xff; xff; xa7] LL_NOTRUST LL_ZEROCODED LL_NOTDEPRECATED
    [B "AgentData" MBT_SINGLE 0 [V "AgentID" MVT_LLUUID 16];
     B "Data" MBT_SINGLE 0 [V "Code" MVT_S32 4; V "Token" MVT_VARIABLE 1; V "ID" MVT_LLUUID 16; V "System" MVT_VARIABLE 1; V "Message" MVT_VARIABLE 2; V "Data" MVT_VARIABLE 2]];
  T "ObjectIncludeInSearch" LOW 424 [xff; xff; xa8] LL_NOTRUST LL_UNENCODED LL_NOTDEPRECATED
    [B "AgentData" MBT_SINGLE 0 [V "AgentID" MVT_LLUUID 16; V "SessionID" MVT_LLUUID 16];
     B "ObjectData" MBT_VARIABLE 0 [V "ObjectLocalID" MVT_U32 4; V "IncludeInSearch" MVT_BOOL 1]];
  T "RezRestoreToWorld" LOW 425 [xff; xff; xa9] LL_NOTRUST LL_UNENCODED LL_UDPDEPRECATED
    [B "AgentData" MBT_SINGLE 0 [V "AgentID" MVT_LLUUID 16; V "SessionID" MVT_LLUUID 16];
     B "InventoryData" MBT_SINGLE 0 [V "ItemID" MVT_LLUUID 16; V "FolderID" MVT_LLUUID 16; V "CreatorID" MVT_LLUUID 16; V "OwnerID" MVT_LLUUID 16; V "GroupID" MVT_LLUUID 16; V "BaseMask" MVT_U32 4; V "OwnerMask" MVT_U32 4; V "GroupMask" MVT_U32 4; V "EveryoneMask" MVT_U32 4; V "NextOwnerMask" MVT_U32 4; V "GroupOwned" MVT_BOOL 1; V "TransactionID" MVT_LLUUID 16; V "Type" MVT_S8 1; V "InvType" MVT_S8 1; V "Flags" MVT_U32 4; V "SaleType" MVT_U8 1; V "SalePrice" MVT_S32 4; V "Name" MVT_VARIABLE 1; V "Description" MVT_VARIABLE 1; V "CreationDate" MVT_S32 4; V "CRC" MVT_U32 4]];
  T "LinkInventoryItem" LOW 426 [xff; xff; xaa] LL_NOTRUST LL_ZEROCODED LL_NOTDEPRECATED
    [B "AgentData" MBT_SINGLE 0 [V "AgentID" MVT_LLUUID 16; V "SessionID" MVT_LLUUID 16];
     B "InventoryBlock" MBT_SINGLE 0 [V "CallbackID" MVT_U32 4; V "FolderID" MVT_LLUUID 16; V "TransactionID" MVT_LLUUID 16; V "OldItemID" MVT_LLUUID 16; V "Type" MVT_S8 1; V "InvType" MVT_S8 1; V "Name" MVT_VARIABLE 1; V "Description" MVT_VARIABLE 1]]].

Definition shipped_templates : list template :=
  List.concat [shipped_0; shipped_1; shipped_2; shipped_3; shipped_4; shipped_5; shipped_6; shipped_7; shipped_8; shipped_9; shipped_10; shipped_11].
