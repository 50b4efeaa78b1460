(* V2MsgTables.v - the GTPv2-C messages of src/gtpv2/messages: for each file, its type code, the IEs its
   tovec lists in order, the arms of the match of its fromvec and its final check, as read off the source.
   A slot is the position of a field of the message's struct (the header left out). *)
From Coq Require Import String.
From Verif Require Import Base.
From Verif Require Export V2Msg.
Local Open Scope string_scope.
Local Open Scope N_scope.

(* alertmmeacknowledge.rs: 10 (type), 37-42 (marshal), 44-67 (unmarshal), 69-79 (tovec), 81-99 (fromvec). *)
Definition md_alertmmeacknowledge : message_def := {|
  md_name := "AlertMmeAcknowledge"; md_type := 154;
  md_start := Some MAX_HEADER_LENGTH;
  md_tovec := [0; 1]%nat;
  md_arms := [rule K_Cause (InsIs 0) 0 (MandFirst 0);
    rule K_PrivateExtension (InsAny) 1 (Push)];
  md_final := [([(0%nat, false)], Some 2)];
  md_init := [[]; []] |}.

(* alertmmenotification.rs: 10 (type), 35-40 (marshal), 42-65 (unmarshal), 67-75 (tovec), 77-84 (fromvec). *)
Definition md_alertmmenotification : message_def := {|
  md_name := "AlertMmeNotification"; md_type := 153;
  md_start := Some MAX_HEADER_LENGTH;
  md_tovec := [0]%nat;
  md_arms := [rule K_PrivateExtension (InsAny) 0 (Push)];
  md_final := [];
  md_init := [[]] |}.

(* bearerresourcecommand.rs: 10 (type), 71-76 (marshal), 78-101 (unmarshal), 103-176 (tovec), 178-275 (fromvec). *)
Definition md_bearerresourcecommand : message_def := {|
  md_name := "BearerResourceCommand"; md_type := 68;
  md_start := Some MAX_HEADER_LENGTH;
  md_tovec := [0; 1; 2; 3; 4; 5; 6; 7; 8; 9; 10; 11; 12; 13; 14; 15; 16; 17; 18]%nat;
  md_arms := [rule K_Ebi (InsIs 0) 0 (MandFirst 0);
    rule K_Ebi (InsIs 1) 7 (OptFirst);
    rule K_Pti (InsIs 0) 1 (MandFirst 1);
    rule K_FlowQos (InsIs 0) 2 (OptFirst);
    rule K_TrafficAggregateDescription (InsIs 0) 3 (OptFirst);
    rule K_RatType (InsIs 0) 4 (OptFirst);
    rule K_ServingNetwork (InsIs 0) 5 (OptFirst);
    rule K_Uli (InsIs 0) 6 (OptFirst);
    rule K_Indication (InsIs 0) 8 (OptFirst);
    rule K_Fteid (InsIs 0) 9 (OptFirst);
    rule K_Fteid (InsIs 1) 10 (OptFirst);
    rule K_Fteid (InsIs 2) 16 (OptFirst);
    rule K_Pco (InsIs 0) 11 (OptFirst);
    rule K_Spi (InsIs 0) 12 (OptFirst);
    rule K_OverloadControlInfo (InsBelow 2) 13 (Push);
    rule K_Fcontainer (InsIs 0) 14 (OptFirst);
    rule K_Epco (InsIs 0) 15 (OptFirst);
    rule K_PSCellId (InsIs 0) 17 (OptFirst);
    rule K_PrivateExtension (InsAny) 18 (Push)];
  md_final := [([(0%nat, false)], Some 73); ([(1%nat, false)], Some 100); ([(0%nat, true); (1%nat, true)], None)];
  md_init := [[]; []; []; []; []; []; []; []; []; []; []; []; []; []; []; []; []; []; []] |}.

(* bearerresourcefailureind.rs: 10 (type), 49-54 (marshal), 56-80 (unmarshal), 82-111 (tovec), 113-162 (fromvec). *)
Definition md_bearerresourcefailureind : message_def := {|
  md_name := "BearerResourceFailureInd"; md_type := 69;
  md_start := Some MAX_HEADER_LENGTH;
  md_tovec := [0; 1; 2; 3; 4; 5; 6; 7]%nat;
  md_arms := [rule K_Cause (InsIs 0) 0 (MandFirst 0);
    rule K_Ebi (InsIs 0) 1 (MandFirst 1);
    rule K_Pti (InsIs 0) 2 (MandFirst 2);
    rule K_Indication (InsIs 0) 3 (OptFirst);
    rule K_OverloadControlInfo (InsBelow 2) 4 (Push);
    rule K_Recovery (InsIs 0) 5 (OptFirst);
    rule K_Fcontainer (InsIs 0) 6 (OptFirst);
    rule K_PrivateExtension (InsAny) 7 (Push)];
  md_final := [([(0%nat, false)], Some 2); ([(0%nat, true); (1%nat, false)], Some 73); ([(0%nat, true); (1%nat, true); (2%nat, false)], Some 100); ([(0%nat, true); (1%nat, true); (2%nat, true)], None)];
  md_init := [[]; []; []; []; []; []; []; []] |}.

(* changenotificationreq.rs: 10 (type), 59-64 (marshal), 66-90 (unmarshal), 92-138 (tovec), 140-213 (fromvec). *)
Definition md_changenotificationreq : message_def := {|
  md_name := "ChangeNotificationRequest"; md_type := 38;
  md_start := Some MAX_HEADER_LENGTH;
  md_tovec := [0; 1; 2; 3; 4; 5; 6; 7; 8; 9; 10; 11; 12]%nat;
  md_arms := [rule K_Imsi (InsIs 0) 0 (OptFirst);
    rule K_Mei (InsIs 0) 1 (OptFirst);
    rule K_Indication (InsIs 0) 2 (OptFirst);
    rule K_RatType (InsIs 0) 3 (MandFirst 0);
    rule K_Uli (InsIs 0) 4 (OptFirst);
    rule K_Uci (InsIs 0) 5 (OptFirst);
    rule K_IpAddress (InsIs 0) 6 (OptFirst);
    rule K_Ebi (InsIs 0) 7 (OptFirst);
    rule K_PresenceReportingAreaInformation (InsIs 0) 8 (OptFirst);
    rule K_Counter (InsIs 0) 9 (OptFirst);
    rule K_SecondaryRatUsageDataReport (InsIs 0) 10 (Push);
    rule K_PSCellId (InsIs 0) 11 (OptFirst);
    rule K_PrivateExtension (InsAny) 12 (Push)];
  md_final := [([(0%nat, false)], Some 82)];
  md_init := [[]; []; []; []; []; []; []; []; []; []; []; []; []] |}.

(* changenotificationresp.rs: 10 (type), 47-52 (marshal), 54-78 (unmarshal), 80-107 (tovec), 109-152 (fromvec). *)
Definition md_changenotificationresp : message_def := {|
  md_name := "ChangeNotificationResponse"; md_type := 39;
  md_start := Some MAX_HEADER_LENGTH;
  md_tovec := [0; 1; 2; 3; 4; 5; 6]%nat;
  md_arms := [rule K_Imsi (InsIs 0) 0 (OptFirst);
    rule K_Mei (InsIs 0) 1 (OptFirst);
    rule K_Cause (InsIs 0) 2 (MandFirst 0);
    rule K_ChangeReportingAction (InsIs 0) 3 (OptFirst);
    rule K_CSGInformationReportingAction (InsIs 0) 4 (OptFirst);
    rule K_PresenceReportingAreaAction (InsIs 0) 5 (OptFirst);
    rule K_PrivateExtension (InsAny) 6 (Push)];
  md_final := [([(0%nat, false)], Some 2)];
  md_init := [[]; []; []; []; []; []; []] |}.

(* contextacknowledge.rs: 10 (type), 47-52 (marshal), 54-77 (unmarshal), 79-109 (tovec), 111-155 (fromvec). *)
Definition md_contextacknowledge : message_def := {|
  md_name := "ContextAcknowledge"; md_type := 132;
  md_start := Some MAX_HEADER_LENGTH;
  md_tovec := [0; 1; 2; 3; 4; 5; 6]%nat;
  md_arms := [rule K_Cause (InsIs 0) 0 (MandFirst 0);
    rule K_Indication (InsIs 0) 1 (OptFirst);
    rule K_Fteid (InsIs 0) 2 (OptFirst);
    rule K_BearerContext (InsIs 0) 3 (Push);
    rule K_NodeNumber (InsBelow 3) 4 (Push);
    rule K_NodeIdentifier (InsBelow 3) 5 (Push);
    rule K_PrivateExtension (InsAny) 6 (Push)];
  md_final := [([(0%nat, false)], Some 2)];
  md_init := [[]; []; []; []; []; []; []] |}.

(* contextreq.rs: 10 (type), 73-78 (marshal), 80-103 (unmarshal), 105-189 (tovec), 191-288 (fromvec). *)
Definition md_contextreq : message_def := {|
  md_name := "ContextRequest"; md_type := 130;
  md_start := Some MAX_HEADER_LENGTH;
  md_tovec := [0; 1; 2; 3; 4; 5; 6; 7; 8; 9; 10; 11; 12; 13; 14; 15; 16; 17; 18; 19]%nat;
  md_arms := [rule K_Imsi (InsIs 0) 0 (OptFirst);
    rule K_Guti (InsIs 0) 1 (OptFirst);
    rule K_Uli (InsIs 0) 2 (OptFirst);
    rule K_Ptmsi (InsIs 0) 3 (OptFirst);
    rule K_PtmsiSignature (InsIs 0) 4 (OptFirst);
    rule K_CompleteRequestMessage (InsIs 0) 5 (OptFirst);
    rule K_Fteid (InsIs 0) 6 (OptFirst);
    rule K_PortNumber (InsIs 0) 7 (OptFirst);
    rule K_RatType (InsIs 0) 8 (OptFirst);
    rule K_Indication (InsIs 0) 9 (OptFirst);
    rule K_HopCounter (InsIs 0) 10 (OptFirst);
    rule K_ServingNetwork (InsIs 0) 11 (OptFirst);
    rule K_Ldn (InsIs 0) 12 (OptFirst);
    rule K_Fqdn (InsIs 0) 13 (OptFirst);
    rule K_Fqdn (InsIs 1) 14 (OptFirst);
    rule K_NodeNumber (InsIs 0) 15 (OptFirst);
    rule K_NodeIdentifier (InsIs 0) 16 (OptFirst);
    rule K_NodeIdentifier (InsIs 1) 17 (OptFirst);
    rule K_CIoTOptimizationSupportIndication (InsIs 0) 18 (OptFirst);
    rule K_PrivateExtension (InsAny) 19 (Push)];
  md_final := [];
  md_init := [[]; []; []; []; []; []; []; []; []; []; []; []; []; []; []; []; []; []; []; []] |}.

(* contextresp.rs: 10 (type), 89-94 (marshal), 96-119 (unmarshal), 121-235 (tovec), 237-388 (fromvec). *)
Definition md_contextresp : message_def := {|
  md_name := "ContextResponse"; md_type := 131;
  md_start := Some MAX_HEADER_LENGTH;
  md_tovec := [0; 1; 2; 3; 4; 5; 6; 7; 8; 9; 10; 11; 12; 13; 14; 15; 16; 17; 18; 19; 20; 21; 22; 23; 24; 25; 26; 27]%nat;
  md_arms := [rule K_Cause (InsIs 0) 0 (MandFirst 0);
    rule K_Imsi (InsIs 0) 1 (OptFirst);
    rule K_MmContext (InsIs 0) 2 (OptFirst);
    rule K_PdnConnections (InsIs 0) 3 (Push);
    rule K_Fteid (InsIs 0) 4 (OptFirst);
    rule K_Fteid (InsIs 1) 5 (OptFirst);
    rule K_Fqdn (InsBelow 3) 6 (Push);
    rule K_Indication (InsIs 0) 7 (OptFirst);
    rule K_TraceInformation (InsIs 0) 8 (OptFirst);
    rule K_IpAddress (InsBelow 2) 9 (Push);
    rule K_RfspIndex (InsBelow 2) 10 (Push);
    rule K_UeTimeZone (InsIs 0) 11 (OptFirst);
    rule K_Ldn (InsIs 0) 12 (OptFirst);
    rule K_MdtConfiguration (InsIs 0) 13 (OptFirst);
    rule K_Uci (InsIs 0) 14 (OptFirst);
    rule K_MonitoringEventInformation (InsIs 0) 15 (Push);
    rule K_MonitoringEventExtensionInfo (InsIs 0) 16 (Push);
    rule K_IntegerNumber (InsIs 0) 17 (OptFirst);
    rule K_IntegerNumber (InsIs 1) 22 (OptFirst);
    rule K_ScefPdnConnections (InsIs 0) 18 (Push);
    rule K_RatType (InsIs 0) 19 (OptFirst);
    rule K_ServingPlmnRateControl (InsIs 0) 20 (OptFirst);
    rule K_Counter (InsIs 0) 21 (OptFirst);
    rule K_ExtendedTraceInformation (InsIs 0) 23 (OptFirst);
    rule K_AdditionalRrmPolicyIndex (InsBelow 2) 24 (Push);
    rule K_NodeIdentifier (InsIs 0) 25 (OptFirst);
    rule K_AlternativeImsi (InsIs 0) 26 (OptFirst);
    rule K_PrivateExtension (InsAny) 27 (Push)];
  md_final := [([(0%nat, false)], Some 2)];
  md_init := [[]; []; []; []; []; []; []; []; []; []; []; []; []; []; []; []; []; []; []; []; []; []; []; []; []; []; []; []] |}.

(* createbearerreq.rs: 10 (type), 66-71 (marshal), 73-97 (unmarshal), 99-169 (tovec), 171-264 (fromvec). *)
Definition md_createbearerreq : message_def := {|
  md_name := "CreateBearerRequest"; md_type := 95;
  md_start := Some MAX_HEADER_LENGTH;
  md_tovec := [0; 1; 2; 3; 4; 5; 6; 7; 8; 9; 10; 11; 12; 13; 14; 15; 16]%nat;
  md_arms := [rule K_Pti (InsIs 0) 0 (OptFirst);
    rule K_Ebi (InsIs 0) 1 (MandFirst 0);
    rule K_Pco (InsIs 0) 2 (OptFirst);
    rule K_BearerContext (InsIs 0) 3 (PushMand 1);
    rule K_Fqcsid (InsIs 0) 4 (OptFirst);
    rule K_Fqcsid (InsIs 1) 5 (OptFirst);
    rule K_ChangeReportingAction (InsIs 0) 6 (OptFirst);
    rule K_CSGInformationReportingAction (InsIs 0) 7 (OptFirst);
    rule K_HenbInfoReporting (InsIs 0) 8 (OptFirst);
    rule K_PresenceReportingAreaAction (InsIs 0) 9 (OptFirst);
    rule K_Indication (InsIs 0) 10 (OptFirst);
    rule K_LoadControlInfo (InsBelow 3) 11 (Push);
    rule K_OverloadControlInfo (InsBelow 2) 12 (Push);
    rule K_Fcontainer (InsIs 0) 13 (OptFirst);
    rule K_PgwChangeInfo (InsIs 0) 14 (Push);
    rule K_Fteid (InsIs 0) 15 (OptFirst);
    rule K_PrivateExtension (InsAny) 16 (Push)];
  md_final := [([(0%nat, false); (1%nat, false)], Some 73); ([(0%nat, false); (1%nat, true)], Some 73); ([(0%nat, true); (1%nat, false)], Some 93); ([(0%nat, true); (1%nat, true)], None)];
  md_init := [[]; []; []; []; []; []; []; []; []; []; []; []; []; []; []; []; []] |}.

(* createbearerresp.rs: 10 (type), 75-80 (marshal), 82-106 (unmarshal), 108-194 (tovec), 196-300 (fromvec). *)
Definition md_createbearerresp : message_def := {|
  md_name := "CreateBearerResponse"; md_type := 96;
  md_start := Some MAX_HEADER_LENGTH;
  md_tovec := [0; 1; 2; 3; 4; 5; 6; 7; 8; 9; 10; 11; 12; 13; 14; 15; 16; 17; 18; 19; 20]%nat;
  md_arms := [rule K_Cause (InsIs 0) 0 (MandFirst 0);
    rule K_BearerContext (InsIs 0) 1 (PushMand 1);
    rule K_Recovery (InsIs 0) 2 (OptFirst);
    rule K_Fqcsid (InsIs 0) 3 (OptFirst);
    rule K_Fqcsid (InsIs 1) 4 (OptFirst);
    rule K_Fqcsid (InsIs 2) 5 (OptFirst);
    rule K_Fqcsid (InsIs 3) 6 (OptFirst);
    rule K_Pco (InsIs 0) 7 (OptFirst);
    rule K_UeTimeZone (InsIs 0) 8 (OptFirst);
    rule K_Uli (InsIs 0) 9 (OptFirst);
    rule K_TwanId (InsIs 0) 10 (OptFirst);
    rule K_TwanId (InsIs 1) 14 (OptFirst);
    rule K_OverloadControlInfo (InsBelow 3) 11 (Push);
    rule K_PresenceReportingAreaInformation (InsIs 0) 12 (OptFirst);
    rule K_IpAddress (InsIs 0) 13 (OptFirst);
    rule K_TwanIdTimeStamp (InsIs 0) 15 (OptFirst);
    rule K_PortNumber (InsIs 0) 16 (OptFirst);
    rule K_PortNumber (InsIs 1) 18 (OptFirst);
    rule K_Fcontainer (InsIs 0) 17 (OptFirst);
    rule K_PSCellId (InsIs 0) 19 (OptFirst);
    rule K_PrivateExtension (InsAny) 20 (Push)];
  md_final := [([(0%nat, false)], Some 2); ([(1%nat, false)], Some 93); ([(0%nat, true); (1%nat, true)], None)];
  md_init := [[]; []; []; []; []; []; []; []; []; []; []; []; []; []; []; []; []; []; []; []; []] |}.

(* createforwardingtunnelreq.rs: 10 (type), 36-41 (marshal), 43-67 (unmarshal), 69-81 (tovec), 83-102 (fromvec). *)
Definition md_createforwardingtunnelreq : message_def := {|
  md_name := "CreateForwardingTunnelRequest"; md_type := 160;
  md_start := Some MAX_HEADER_LENGTH;
  md_tovec := [0; 1]%nat;
  md_arms := [rule K_S103pdf (InsIs 0) 0 (PushMand 0);
    rule K_PrivateExtension (InsAny) 1 (Push)];
  md_final := [([(0%nat, false)], Some 90)];
  md_init := [[]; []] |}.

(* createforwardingtunnelresp.rs: 10 (type), 38-43 (marshal), 45-69 (unmarshal), 71-85 (tovec), 87-111 (fromvec). *)
Definition md_createforwardingtunnelresp : message_def := {|
  md_name := "CreateForwardingTunnelResponse"; md_type := 161;
  md_start := Some MAX_HEADER_LENGTH;
  md_tovec := [0; 1; 2]%nat;
  md_arms := [rule K_Cause (InsIs 0) 0 (MandLast 0);
    rule K_S1udf (InsIs 0) 1 (Push);
    rule K_PrivateExtension (InsAny) 2 (Push)];
  md_final := [([(0%nat, false)], Some 90)];
  md_init := [[]; []; []] |}.

(* createindirectdatafwtunnelreq.rs: 10 (type), 46-51 (marshal), 53-77 (unmarshal), 79-111 (tovec), 113-157 (fromvec). *)
Definition md_createindirectdatafwtunnelreq : message_def := {|
  md_name := "CreateIndirectDataForwardingTunnelRequest"; md_type := 166;
  md_start := Some MAX_HEADER_LENGTH;
  md_tovec := [0; 1; 2; 3; 4; 5; 6]%nat;
  md_arms := [rule K_Imsi (InsIs 0) 0 (OptFirst);
    rule K_Mei (InsIs 0) 1 (OptFirst);
    rule K_Indication (InsIs 0) 2 (OptFirst);
    rule K_Fteid (InsIs 0) 3 (OptFirst);
    rule K_BearerContext (InsIs 0) 4 (PushMand 0);
    rule K_Recovery (InsIs 0) 5 (OptFirst);
    rule K_PrivateExtension (InsAny) 6 (Push)];
  md_final := [([(0%nat, false)], Some 93)];
  md_init := [[]; []; []; []; []; []; []] |}.

(* createindirectdatafwtunnelresp.rs: 10 (type), 42-47 (marshal), 49-73 (unmarshal), 75-97 (tovec), 99-135 (fromvec). *)
Definition md_createindirectdatafwtunnelresp : message_def := {|
  md_name := "CreateIndirectDataForwardingTunnelResponse"; md_type := 167;
  md_start := Some MAX_HEADER_LENGTH;
  md_tovec := [0; 1; 2; 3; 4]%nat;
  md_arms := [rule K_Cause (InsIs 0) 0 (MandLast 0);
    rule K_Fteid (InsIs 0) 1 (OptFirst);
    rule K_BearerContext (InsIs 0) 2 (PushMand 1);
    rule K_Recovery (InsIs 0) 3 (OptFirst);
    rule K_PrivateExtension (InsAny) 4 (Push)];
  md_final := [([(0%nat, true); (1%nat, true)], None); ([(0%nat, false); (1%nat, true)], Some 2); ([(0%nat, true); (1%nat, false)], Some 93); ([(0%nat, false); (1%nat, false)], Some 0)];
  md_init := [[]; []; []; []; []] |}.

(* createsessionreq.rs: 10 (type), 153-158 (marshal), 160-184 (unmarshal), 186-423 (tovec), 425-732 (fromvec). The codes collected in the vector mandatory are flags 0 (RATTYPE), 1 (FTEID), 2 (APN), 3 (BEARER_CTX). *)
Definition md_createsessionreq : message_def := {|
  md_name := "CreateSessionRequest"; md_type := 32;
  md_start := Some MAX_HEADER_LENGTH;
  md_tovec := [0; 1; 2; 3; 4; 5; 6; 7; 8; 9; 10; 11; 12; 13; 14; 15; 16; 17; 18; 19; 20; 21; 22; 23; 24; 25; 26; 27; 28; 29; 30; 31; 32; 33; 34; 35; 36; 37; 38; 39; 40; 41; 42; 43; 44; 45; 46; 47; 48; 49; 50; 51; 52; 53; 54; 55; 56; 57; 58; 59]%nat;
  md_arms := [rule K_Imsi (InsIs 0) 0 (OptFirst);
    rule K_Msisdn (InsIs 0) 1 (OptFirst);
    rule K_Mei (InsIs 0) 2 (OptFirst);
    rule K_Uli (InsIs 0) 3 (OptFirst);
    rule K_Uli (InsIs 1) 53 (OptFirst);
    rule K_ServingNetwork (InsIs 0) 4 (OptFirst);
    rule K_RatType (InsIs 0) 5 (MandFirst 0);
    rule K_Indication (InsIs 0) 6 (OptFirst);
    rule K_Fteid (InsIs 0) 7 (MandFirst 1);
    rule K_Fteid (InsIs 1) 8 (OptFirst);
    rule K_Apn (InsIs 0) 9 (MandFirst 2);
    rule K_SelectionMode (InsIs 0) 10 (OptFirst);
    rule K_PdnType (InsIs 0) 11 (OptFirst);
    rule K_PdnAddressAllocation (InsIs 0) 12 (OptFirst);
    rule K_ApnRestriction (InsIs 0) 13 (OptFirst);
    rule K_ApnAmbr (InsIs 0) 14 (OptFirst);
    rule K_Ebi (InsIs 0) 15 (OptFirst);
    rule K_Twmi (InsIs 0) 16 (OptFirst);
    rule K_Pco (InsIs 0) 17 (OptFirst);
    rule K_BearerContext (InsIs 0) 18 (PushMand 3);
    rule K_BearerContext (InsIs 1) 18 (Push);
    rule K_TraceInformation (InsIs 0) 19 (OptFirst);
    rule K_Recovery (InsIs 0) 20 (OptFirst);
    rule K_Fqcsid (InsIs 0) 21 (OptFirst);
    rule K_Fqcsid (InsIs 1) 22 (OptFirst);
    rule K_Fqcsid (InsIs 2) 23 (OptFirst);
    rule K_Fqcsid (InsIs 3) 24 (OptFirst);
    rule K_UeTimeZone (InsIs 0) 25 (OptFirst);
    rule K_Uci (InsIs 0) 26 (OptFirst);
    rule K_ChargingCharacteristics (InsIs 0) 27 (OptFirst);
    rule K_Ldn (InsAny) 28 (Push);
    rule K_Spi (InsIs 0) 29 (OptFirst);
    rule K_IpAddress (InsIs 0) 30 (OptFirst);
    rule K_IpAddress (InsIs 1) 33 (OptFirst);
    rule K_IpAddress (InsIs 2) 35 (OptFirst);
    rule K_IpAddress (InsIs 3) 37 (OptFirst);
    rule K_PortNumber (InsIs 0) 31 (OptFirst);
    rule K_PortNumber (InsIs 1) 34 (OptFirst);
    rule K_PortNumber (InsIs 2) 51 (OptFirst);
    rule K_Apco (InsIs 0) 32 (OptFirst);
    rule K_TwanId (InsIs 0) 36 (OptFirst);
    rule K_TwanId (InsIs 1) 43 (OptFirst);
    rule K_CnOperatorSelectionEntity (InsIs 0) 38 (OptFirst);
    rule K_PresenceReportingAreaInformation (InsIs 0) 39 (OptFirst);
    rule K_OverloadControlInfo (InsBelow 3) 40 (Push);
    rule K_MilliSecondTimeStamp (InsIs 0) 41 (OptFirst);
    rule K_IntegerNumber (InsIs 0) 42 (OptFirst);
    rule K_TwanIdTimeStamp (InsIs 0) 44 (OptFirst);
    rule K_Fcontainer (InsIs 0) 45 (OptFirst);
    rule K_RemoteUeContext (InsIs 0) 46 (Push);
    rule K_NodeIdentifier (InsIs 0) 47 (OptFirst);
    rule K_Epco (InsIs 0) 48 (OptFirst);
    rule K_ServingPlmnRateControl (InsIs 0) 49 (OptFirst);
    rule K_Counter (InsIs 0) 50 (OptFirst);
    rule K_MappedUeUsageType (InsIs 0) 52 (OptFirst);
    rule K_Fqdn (InsIs 0) 54 (OptFirst);
    rule K_SecondaryRatUsageDataReport (InsIs 0) 55 (Push);
    rule K_UpFunctionSelectionIndicationFlags (InsIs 0) 56 (OptFirst);
    rule K_ApnRateControlStatus (InsIs 0) 57 (OptFirst);
    rule K_PSCellId (InsIs 0) 58 (OptFirst);
    rule K_PrivateExtension (InsAny) 59 (Push)];
  md_final := [([(0%nat, false)], Some 82); ([(1%nat, false)], Some 87); ([(2%nat, false)], Some 71); ([(3%nat, false)], Some 93); ([(0%nat, true); (1%nat, true); (2%nat, true); (3%nat, true)], None)];
  md_init := [[]; []; []; []; []; []; []; []; []; []; []; []; []; []; []; []; []; []; []; []; []; []; []; []; []; []; []; []; []; []; []; []; []; []; []; []; []; []; []; []; []; []; []; []; []; []; []; []; []; []; []; []; []; []; []; []; []; []; []; []] |}.

(* createsessionresp.rs: 10 (type), 105-110 (marshal), 112-135 (unmarshal), 137-283 (tovec), 285-469 (fromvec). *)
Definition md_createsessionresp : message_def := {|
  md_name := "CreateSessionResponse"; md_type := 33;
  md_start := Some MAX_HEADER_LENGTH;
  md_tovec := [0; 1; 2; 3; 4; 5; 6; 7; 8; 9; 10; 11; 12; 13; 14; 15; 16; 17; 18; 19; 20; 21; 22; 23; 24; 25; 26; 27; 28; 29; 30; 31; 32; 33; 34; 35]%nat;
  md_arms := [rule K_Cause (InsIs 0) 0 (MandFirst 0);
    rule K_ChangeReportingAction (InsIs 0) 1 (OptFirst);
    rule K_CSGInformationReportingAction (InsIs 0) 2 (OptFirst);
    rule K_HenbInfoReporting (InsIs 0) 3 (OptFirst);
    rule K_Fteid (InsIs 0) 4 (OptFirst);
    rule K_Fteid (InsIs 1) 5 (OptFirst);
    rule K_PdnAddressAllocation (InsIs 0) 6 (OptFirst);
    rule K_ApnRestriction (InsIs 0) 7 (OptFirst);
    rule K_ApnAmbr (InsIs 0) 8 (OptFirst);
    rule K_Ebi (InsIs 0) 9 (OptFirst);
    rule K_Pco (InsIs 0) 10 (OptFirst);
    rule K_BearerContext (InsIs 0) 11 (PushMand 1);
    rule K_Recovery (InsIs 0) 12 (OptFirst);
    rule K_Fqcsid (InsIs 0) 15 (OptFirst);
    rule K_Fqcsid (InsIs 1) 16 (OptFirst);
    rule K_Ldn (InsIs 0) 17 (OptFirst);
    rule K_Ldn (InsIs 1) 18 (OptFirst);
    rule K_EpcTimer (InsIs 0) 19 (OptFirst);
    rule K_Apco (InsIs 0) 20 (OptFirst);
    rule K_Ip4Cp (InsIs 0) 21 (OptFirst);
    rule K_Indication (InsIs 0) 22 (OptFirst);
    rule K_PresenceReportingAreaAction (InsIs 0) 23 (OptFirst);
    rule K_LoadControlInfo (InsBelow 3) 24 (Push);
    rule K_OverloadControlInfo (InsBelow 2) 25 (Push);
    rule K_Fcontainer (InsIs 0) 26 (OptFirst);
    rule K_ChargingId (InsIs 0) 27 (OptFirst);
    rule K_Epco (InsIs 0) 28 (OptFirst);
    rule K_Fqdn (InsIs 0) 13 (OptFirst);
    rule K_Fqdn (InsIs 1) 29 (OptFirst);
    rule K_Fqdn (InsIs 3) 32 (Push);
    rule K_SgiPtpTunnelAddress (InsIs 0) 30 (OptFirst);
    rule K_PgwChangeInfo (InsIs 0) 31 (OptFirst);
    rule K_IpAddress (InsIs 0) 14 (OptFirst);
    rule K_IpAddress (InsIs 1) 33 (Push);
    rule K_UpSecurityPolicy (InsIs 0) 34 (OptFirst);
    rule K_PrivateExtension (InsAny) 35 (Push)];
  md_final := [([(0%nat, false); (1%nat, false)], Some 2); ([(0%nat, false); (1%nat, true)], Some 2); ([(0%nat, true); (1%nat, false)], Some 93); ([(0%nat, true); (1%nat, true)], None)];
  md_init := [[]; []; []; []; []; []; []; []; []; []; []; []; []; []; []; []; []; []; []; []; []; []; []; []; []; []; []; []; []; []; []; []; []; []; []; []] |}.

(* cspagingindication.rs: 10 (type), 51-56 (marshal), 58-82 (unmarshal), 84-115 (tovec), 117-173 (fromvec). *)
Definition md_cspagingindication : message_def := {|
  md_name := "CsPagingIndication"; md_type := 151;
  md_start := Some MAX_HEADER_LENGTH;
  md_tovec := [0; 1; 2; 3; 4; 5; 6; 7; 8]%nat;
  md_arms := [rule K_Imsi (InsIs 0) 0 (MandFirst 0);
    rule K_Fqdn (InsIs 0) 1 (MandFirst 1);
    rule K_Tmsi (InsIs 0) 2 (OptFirst);
    rule K_Uli (InsIs 0) 3 (OptFirst);
    rule K_GlobalCnId (InsIs 0) 4 (OptFirst);
    rule K_ChannelNeeded (InsIs 0) 5 (OptFirst);
    rule K_EmlppPriority (InsIs 0) 6 (OptFirst);
    rule K_ServiceIndicator (InsIs 0) 7 (OptFirst);
    rule K_PrivateExtension (InsAny) 8 (Push)];
  md_final := [([(0%nat, true); (1%nat, true)], None); ([(0%nat, false)], Some 1); ([(1%nat, false)], Some 136)];
  md_init := [[]; []; []; []; []; []; []; []; []] |}.

(* deletebearercommand.rs: 10 (type), 52-57 (marshal), 59-82 (unmarshal), 84-122 (tovec), 124-178 (fromvec). *)
Definition md_deletebearercommand : message_def := {|
  md_name := "DeleteBearerCommand"; md_type := 66;
  md_start := Some MAX_HEADER_LENGTH;
  md_tovec := [0; 1; 2; 3; 4; 5; 6; 7; 8]%nat;
  md_arms := [rule K_BearerContext (InsIs 0) 0 (PushMand 0);
    rule K_Uli (InsIs 0) 1 (OptFirst);
    rule K_UliTimestamp (InsIs 0) 2 (OptFirst);
    rule K_UeTimeZone (InsIs 0) 3 (OptFirst);
    rule K_OverloadControlInfo (InsBelow 2) 4 (Push);
    rule K_Fteid (InsIs 0) 5 (OptFirst);
    rule K_SecondaryRatUsageDataReport (InsIs 0) 6 (Push);
    rule K_PSCellId (InsIs 0) 7 (OptFirst);
    rule K_PrivateExtension (InsAny) 8 (Push)];
  md_final := [([(0%nat, false)], Some 93)];
  md_init := [[]; []; []; []; []; []; []; []; []] |}.

(* deletebearerfailureind.rs: 10 (type), 45-50 (marshal), 52-76 (unmarshal), 78-103 (tovec), 105-144 (fromvec). The test bearer_ctxs.is_empty() is flag 1, set at each push. *)
Definition md_deletebearerfailureind : message_def := {|
  md_name := "DeleteBearerFailureInd"; md_type := 67;
  md_start := Some MAX_HEADER_LENGTH;
  md_tovec := [0; 1; 2; 3; 4; 5]%nat;
  md_arms := [rule K_Cause (InsIs 0) 0 (MandFirst 0);
    rule K_BearerContext (InsIs 0) 1 (PushMand 1);
    rule K_Recovery (InsIs 0) 2 (OptFirst);
    rule K_Indication (InsIs 0) 3 (OptFirst);
    rule K_OverloadControlInfo (InsBelow 2) 4 (Push);
    rule K_PrivateExtension (InsAny) 5 (Push)];
  md_final := [([(0%nat, false); (1%nat, true)], Some 2); ([(0%nat, true); (1%nat, false)], Some 93); ([(0%nat, false); (1%nat, false)], Some 2); ([(0%nat, true); (1%nat, true)], None)];
  md_init := [[]; []; []; []; []; []] |}.

(* deletebearerreq.rs: 10 (type), 67-72 (marshal), 74-98 (unmarshal), 100-172 (tovec), 174-258 (fromvec). *)
Definition md_deletebearerreq : message_def := {|
  md_name := "DeleteBearerRequest"; md_type := 99;
  md_start := Some MAX_HEADER_LENGTH;
  md_tovec := [0; 1; 2; 3; 4; 5; 6; 7; 8; 9; 10; 11; 12; 13; 14; 15; 16]%nat;
  md_arms := [rule K_Ebi (InsIs 0) 0 (OptFirst);
    rule K_Ebi (InsIs 1) 1 (OptFirst);
    rule K_BearerContext (InsIs 0) 2 (Push);
    rule K_Pti (InsIs 0) 3 (OptFirst);
    rule K_Pco (InsIs 0) 4 (OptFirst);
    rule K_Fqcsid (InsIs 0) 5 (OptFirst);
    rule K_Fqcsid (InsIs 1) 6 (OptFirst);
    rule K_Cause (InsIs 0) 7 (OptFirst);
    rule K_Indication (InsIs 0) 8 (OptFirst);
    rule K_LoadControlInfo (InsBelow 3) 9 (Push);
    rule K_OverloadControlInfo (InsBelow 2) 10 (Push);
    rule K_Fcontainer (InsIs 0) 11 (OptFirst);
    rule K_ApnRateControlStatus (InsIs 0) 12 (OptFirst);
    rule K_Epco (InsIs 0) 13 (OptFirst);
    rule K_PgwChangeInfo (InsIs 2) 14 (Push);
    rule K_Fteid (InsIs 0) 15 (OptFirst);
    rule K_PrivateExtension (InsAny) 16 (Push)];
  md_final := [];
  md_init := [[]; []; []; []; []; []; []; []; []; []; []; []; []; []; []; []; []] |}.

(* deletebearerresp.rs: 10 (type), 81-86 (marshal), 88-112 (unmarshal), 114-197 (tovec), 199-322 (fromvec). *)
Definition md_deletebearerresp : message_def := {|
  md_name := "DeleteBearerResponse"; md_type := 100;
  md_start := Some MAX_HEADER_LENGTH;
  md_tovec := [0; 1; 2; 3; 4; 5; 6; 7; 8; 9; 10; 11; 12; 13; 14; 15; 16; 17; 18; 19; 20; 21; 22; 23]%nat;
  md_arms := [rule K_Cause (InsIs 0) 0 (MandFirst 0);
    rule K_Ebi (InsIs 0) 1 (OptFirst);
    rule K_BearerContext (InsIs 0) 2 (Push);
    rule K_Recovery (InsIs 0) 3 (OptFirst);
    rule K_Fqcsid (InsIs 0) 4 (OptFirst);
    rule K_Fqcsid (InsIs 1) 5 (OptFirst);
    rule K_Fqcsid (InsIs 2) 6 (OptFirst);
    rule K_Fqcsid (InsIs 3) 7 (OptFirst);
    rule K_Pco (InsIs 0) 8 (OptFirst);
    rule K_UeTimeZone (InsIs 0) 9 (OptFirst);
    rule K_Uli (InsIs 0) 10 (OptFirst);
    rule K_UliTimestamp (InsIs 0) 11 (OptFirst);
    rule K_TwanId (InsIs 0) 12 (OptFirst);
    rule K_TwanId (InsIs 1) 16 (OptFirst);
    rule K_TwanIdTimeStamp (InsIs 0) 13 (OptFirst);
    rule K_TwanIdTimeStamp (InsIs 1) 17 (OptFirst);
    rule K_OverloadControlInfo (InsBelow 3) 14 (Push);
    rule K_IpAddress (InsIs 0) 15 (OptFirst);
    rule K_PortNumber (InsIs 0) 18 (OptFirst);
    rule K_PortNumber (InsIs 1) 20 (OptFirst);
    rule K_Fcontainer (InsIs 0) 19 (OptFirst);
    rule K_SecondaryRatUsageDataReport (InsAny) 21 (Push);
    rule K_PSCellId (InsIs 0) 22 (OptFirst);
    rule K_PrivateExtension (InsAny) 23 (Push)];
  md_final := [([(0%nat, false)], Some 2)];
  md_init := [[]; []; []; []; []; []; []; []; []; []; []; []; []; []; []; []; []; []; []; []; []; []; []; []] |}.

(* deleteindirectdatafwtunnelreq.rs: 10 (type), 34-39 (marshal), 41-65 (unmarshal), 67-75 (tovec), 77-84 (fromvec). *)
Definition md_deleteindirectdatafwtunnelreq : message_def := {|
  md_name := "DeleteIndirectDataForwardingTunnelRequest"; md_type := 168;
  md_start := Some MAX_HEADER_LENGTH;
  md_tovec := [0]%nat;
  md_arms := [rule K_PrivateExtension (InsAny) 0 (Push)];
  md_final := [];
  md_init := [[]] |}.

(* deleteindirectdatafwtunnelresp.rs: 10 (type), 38-43 (marshal), 45-69 (unmarshal), 71-85 (tovec), 87-111 (fromvec). *)
Definition md_deleteindirectdatafwtunnelresp : message_def := {|
  md_name := "DeleteIndirectDataForwardingTunnelResponse"; md_type := 169;
  md_start := Some MAX_HEADER_LENGTH;
  md_tovec := [0; 1; 2]%nat;
  md_arms := [rule K_Cause (InsIs 0) 0 (MandLast 0);
    rule K_Recovery (InsIs 0) 1 (OptFirst);
    rule K_PrivateExtension (InsAny) 2 (Push)];
  md_final := [([(0%nat, false)], Some 2)];
  md_init := [[]; []; []] |}.

(* deletepdnconnectionsetreq.rs: 10 (type), 45-50 (marshal), 52-76 (unmarshal), 78-106 (tovec), 108-144 (fromvec). *)
Definition md_deletepdnconnectionsetreq : message_def := {|
  md_name := "DeletePdnConnectionSetRequest"; md_type := 101;
  md_start := Some MAX_HEADER_LENGTH;
  md_tovec := [0; 1; 2; 3; 4; 5]%nat;
  md_arms := [rule K_Fqcsid (InsIs 0) 0 (OptFirst);
    rule K_Fqcsid (InsIs 1) 1 (OptFirst);
    rule K_Fqcsid (InsIs 2) 2 (OptFirst);
    rule K_Fqcsid (InsIs 3) 3 (OptFirst);
    rule K_Fqcsid (InsIs 4) 4 (OptFirst);
    rule K_PrivateExtension (InsAny) 5 (Push)];
  md_final := [];
  md_init := [[]; []; []; []; []; []] |}.

(* deletepdnconnectionsetresp.rs: 10 (type), 38-43 (marshal), 45-69 (unmarshal), 71-85 (tovec), 87-111 (fromvec). *)
Definition md_deletepdnconnectionsetresp : message_def := {|
  md_name := "DeletePndConnectionSetResponse"; md_type := 102;
  md_start := Some MAX_HEADER_LENGTH;
  md_tovec := [0; 1; 2]%nat;
  md_arms := [rule K_Cause (InsIs 0) 0 (MandLast 0);
    rule K_Recovery (InsIs 0) 1 (OptFirst);
    rule K_PrivateExtension (InsAny) 2 (Push)];
  md_final := [([(0%nat, false)], Some 2)];
  md_init := [[]; []; []] |}.

(* deletesessionreq.rs: 10 (type), 77-82 (marshal), 84-108 (unmarshal), 110-201 (tovec), 203-314 (fromvec). *)
Definition md_deletesessionreq : message_def := {|
  md_name := "DeleteSessionRequest"; md_type := 36;
  md_start := Some MAX_HEADER_LENGTH;
  md_tovec := [0; 1; 2; 3; 4; 5; 6; 7; 8; 9; 10; 11; 12; 13; 14; 15; 16; 17; 18; 19; 20; 21]%nat;
  md_arms := [rule K_Cause (InsIs 0) 0 (OptFirst);
    rule K_Ebi (InsIs 0) 1 (OptFirst);
    rule K_Uli (InsIs 0) 2 (OptFirst);
    rule K_Indication (InsIs 0) 3 (OptFirst);
    rule K_Pco (InsIs 0) 4 (OptFirst);
    rule K_NodeType (InsIs 0) 5 (OptFirst);
    rule K_Fteid (InsIs 0) 6 (OptFirst);
    rule K_UeTimeZone (InsIs 0) 7 (OptFirst);
    rule K_UliTimestamp (InsIs 0) 8 (OptFirst);
    rule K_RanNasCause (InsIs 0) 9 (OptFirst);
    rule K_TwanId (InsIs 0) 10 (OptFirst);
    rule K_TwanId (InsIs 1) 13 (OptFirst);
    rule K_TwanIdTimeStamp (InsIs 0) 11 (OptFirst);
    rule K_TwanIdTimeStamp (InsIs 1) 14 (OptFirst);
    rule K_OverloadControlInfo (InsBelow 3) 12 (Push);
    rule K_IpAddress (InsIs 0) 15 (OptFirst);
    rule K_PortNumber (InsIs 0) 16 (OptFirst);
    rule K_PortNumber (InsIs 1) 18 (OptFirst);
    rule K_Epco (InsIs 0) 17 (OptFirst);
    rule K_SecondaryRatUsageDataReport (InsIs 0) 19 (Push);
    rule K_PSCellId (InsIs 0) 20 (OptFirst);
    rule K_PrivateExtension (InsAny) 21 (Push)];
  md_final := [];
  md_init := [[]; []; []; []; []; []; []; []; []; []; []; []; []; []; []; []; []; []; []; []; []; []] |}.

(* deletesessionresp.rs: 10 (type), 51-56 (marshal), 58-82 (unmarshal), 84-122 (tovec), 124-177 (fromvec). *)
Definition md_deletesessionresp : message_def := {|
  md_name := "DeleteSessionResponse"; md_type := 37;
  md_start := Some MAX_HEADER_LENGTH;
  md_tovec := [0; 1; 2; 3; 4; 5; 6; 7; 8]%nat;
  md_arms := [rule K_Cause (InsIs 0) 0 (MandFirst 0);
    rule K_Recovery (InsIs 0) 1 (OptFirst);
    rule K_Pco (InsIs 0) 2 (OptFirst);
    rule K_Indication (InsIs 0) 3 (OptFirst);
    rule K_LoadControlInfo (InsBelow 3) 4 (Push);
    rule K_OverloadControlInfo (InsBelow 2) 5 (Push);
    rule K_Epco (InsIs 0) 6 (OptFirst);
    rule K_ApnRateControlStatus (InsIs 0) 7 (OptFirst);
    rule K_PrivateExtension (InsAny) 8 (Push)];
  md_final := [([(0%nat, false)], Some 2)];
  md_init := [[]; []; []; []; []; []; []; []; []] |}.

(* detachacknowledge.rs: 10 (type), 38-43 (marshal), 45-69 (unmarshal), 71-85 (tovec), 87-111 (fromvec). *)
Definition md_detachacknowledge : message_def := {|
  md_name := "DetachAcknowledge"; md_type := 150;
  md_start := Some MAX_HEADER_LENGTH;
  md_tovec := [0; 1; 2]%nat;
  md_arms := [rule K_Cause (InsIs 0) 0 (MandLast 0);
    rule K_Recovery (InsIs 0) 1 (OptFirst);
    rule K_PrivateExtension (InsAny) 2 (Push)];
  md_final := [([(0%nat, false)], Some 2)];
  md_init := [[]; []; []] |}.

(* detachnotification.rs: 10 (type), 38-43 (marshal), 45-69 (unmarshal), 71-85 (tovec), 87-111 (fromvec). *)
Definition md_detachnotification : message_def := {|
  md_name := "DetachNotification"; md_type := 149;
  md_start := Some MAX_HEADER_LENGTH;
  md_tovec := [0; 1; 2]%nat;
  md_arms := [rule K_Cause (InsIs 0) 0 (MandFirst 0);
    rule K_DetachType (InsIs 0) 1 (OptFirst);
    rule K_PrivateExtension (InsAny) 2 (Push)];
  md_final := [([(0%nat, false)], Some 2)];
  md_init := [[]; []; []] |}.

(* downlinkdatanotification.rs: 10 (type), 55-60 (marshal), 62-86 (unmarshal), 88-131 (tovec), 133-191 (fromvec). *)
Definition md_downlinkdatanotification : message_def := {|
  md_name := "DownlinkDataNotification"; md_type := 179;
  md_start := Some MAX_HEADER_LENGTH;
  md_tovec := [0; 1; 2; 3; 4; 5; 6; 7; 8; 9; 10]%nat;
  md_arms := [rule K_Cause (InsIs 0) 0 (OptFirst);
    rule K_Ebi (InsIs 0) 1 (OptFirst);
    rule K_Arp (InsIs 0) 2 (OptFirst);
    rule K_Imsi (InsIs 0) 3 (OptFirst);
    rule K_Fteid (InsIs 0) 4 (OptFirst);
    rule K_Indication (InsIs 0) 5 (OptFirst);
    rule K_LoadControlInfo (InsIs 0) 6 (Push);
    rule K_OverloadControlInfo (InsIs 0) 7 (Push);
    rule K_PagingServiceInfo (InsIs 0) 8 (OptFirst);
    rule K_IntegerNumber (InsIs 0) 9 (OptFirst);
    rule K_PrivateExtension (InsAny) 10 (Push)];
  md_final := [];
  md_init := [[]; []; []; []; []; []; []; []; []; []; []] |}.

(* downlinkdatanotificationacknowledge.rs: 10 (type), 48-53 (marshal), 55-79 (unmarshal), 81-115 (tovec), 117-166 (fromvec). *)
Definition md_downlinkdatanotificationacknowledge : message_def := {|
  md_name := "DownlinkDataNotificationAcknowledge"; md_type := 177;
  md_start := Some MAX_HEADER_LENGTH;
  md_tovec := [0; 1; 2; 3; 4; 5; 6; 7]%nat;
  md_arms := [rule K_Cause (InsIs 0) 0 (MandLast 0);
    rule K_DelayValue (InsIs 0) 1 (OptFirst);
    rule K_Recovery (InsIs 0) 2 (OptFirst);
    rule K_Throttling (InsIs 0) 3 (OptFirst);
    rule K_Imsi (InsIs 0) 4 (OptFirst);
    rule K_EpcTimer (InsIs 0) 5 (OptFirst);
    rule K_IntegerNumber (InsIs 0) 6 (OptFirst);
    rule K_PrivateExtension (InsAny) 7 (Push)];
  md_final := [([(0%nat, false)], Some 2)];
  md_init := [[]; []; []; []; []; []; []; []] |}.

(* downlinkdatanotificationfailureindication.rs: 10 (type), 41-46 (marshal), 48-72 (unmarshal), 74-92 (tovec), 94-122 (fromvec). *)
Definition md_downlinkdatanotificationfailureindication : message_def := {|
  md_name := "DownlinkDataNotificationFailureIndication"; md_type := 70;
  md_start := Some MAX_HEADER_LENGTH;
  md_tovec := [0; 1; 2; 3]%nat;
  md_arms := [rule K_Cause (InsIs 0) 0 (MandFirst 0);
    rule K_NodeType (InsIs 0) 1 (OptFirst);
    rule K_Imsi (InsIs 0) 2 (OptFirst);
    rule K_PrivateExtension (InsAny) 3 (Push)];
  md_final := [([(0%nat, false)], Some 2)];
  md_init := [[]; []; []; []] |}.

(* echoreq.rs: 10 (type), 38-43 (marshal), 45-69 (unmarshal), 71-85 (tovec), 87-112 (fromvec). *)
Definition md_echoreq : message_def := {|
  md_name := "EchoRequest"; md_type := 1;
  md_start := Some MIN_HEADER_LENGTH;
  md_tovec := [0; 1; 2]%nat;
  md_arms := [rule K_Recovery (InsIs 0) 0 (MandFirst 0);
    rule K_NodeFeatures (InsIs 0) 1 (OptFirst);
    rule K_PrivateExtension (InsAny) 2 (Push)];
  md_final := [([(0%nat, false)], Some 3)];
  md_init := [[]; []; []] |}.

(* echoresp.rs: 10 (type), 38-43 (marshal), 45-69 (unmarshal), 71-84 (tovec), 86-111 (fromvec). *)
Definition md_echoresp : message_def := {|
  md_name := "EchoResponse"; md_type := 2;
  md_start := Some MIN_HEADER_LENGTH;
  md_tovec := [0; 1; 2]%nat;
  md_arms := [rule K_Recovery (InsIs 0) 0 (MandFirst 0);
    rule K_NodeFeatures (InsIs 0) 1 (OptFirst);
    rule K_PrivateExtension (InsAny) 2 (Push)];
  md_final := [([(0%nat, false)], Some 3)];
  md_init := [[]; []; []] |}.

(* forwardaccesscontextacknowledge.rs: 10 (type), 37-42 (marshal), 44-67 (unmarshal), 69-79 (tovec), 81-99 (fromvec). *)
Definition md_forwardaccesscontextacknowledge : message_def := {|
  md_name := "ForwardAccessContextAcknowledge"; md_type := 138;
  md_start := Some MAX_HEADER_LENGTH;
  md_tovec := [0; 1]%nat;
  md_arms := [rule K_Cause (InsIs 0) 0 (MandFirst 0);
    rule K_PrivateExtension (InsAny) 1 (Push)];
  md_final := [([(0%nat, false)], Some 2)];
  md_init := [[]; []] |}.

(* forwardaccesscontextnotification.rs: 10 (type), 42-47 (marshal), 49-73 (unmarshal), 75-99 (tovec), 101-129 (fromvec). *)
Definition md_forwardaccesscontextnotification : message_def := {|
  md_name := "ForwardAccessContextNotification"; md_type := 137;
  md_start := Some MAX_HEADER_LENGTH;
  md_tovec := [0; 1; 2; 3; 4]%nat;
  md_arms := [rule K_RabContext (InsIs 0) 0 (Push);
    rule K_SrcRncPdcpCtxInfo (InsIs 0) 1 (OptFirst);
    rule K_PduNumbers (InsIs 0) 2 (OptFirst);
    rule K_Fcontainer (InsBelow 2) 3 (Push);
    rule K_PrivateExtension (InsAny) 4 (Push)];
  md_final := [];
  md_init := [[]; []; []; []; []] |}.

(* forwardrelocationcompleteacknowledge.rs: 10 (type), 41-46 (marshal), 48-71 (unmarshal), 73-91 (tovec), 93-121 (fromvec). *)
Definition md_forwardrelocationcompleteacknowledge : message_def := {|
  md_name := "ForwardRelocationCompleteAcknowledge"; md_type := 136;
  md_start := Some MAX_HEADER_LENGTH;
  md_tovec := [0; 1; 2; 3]%nat;
  md_arms := [rule K_Cause (InsIs 0) 0 (MandFirst 0);
    rule K_Recovery (InsIs 0) 1 (OptFirst);
    rule K_SecondaryRatUsageDataReport (InsBelow 2) 2 (Push);
    rule K_PrivateExtension (InsAny) 3 (Push)];
  md_final := [([(0%nat, false)], Some 2)];
  md_init := [[]; []; []; []] |}.

(* forwardrelocationcompletenotification.rs: 10 (type), 37-42 (marshal), 44-67 (unmarshal), 69-81 (tovec), 83-96 (fromvec). *)
Definition md_forwardrelocationcompletenotification : message_def := {|
  md_name := "ForwardRelocationCompleteNotification"; md_type := 135;
  md_start := Some MAX_HEADER_LENGTH;
  md_tovec := [0; 1]%nat;
  md_arms := [rule K_Indication (InsIs 0) 0 (OptFirst);
    rule K_PrivateExtension (InsAny) 1 (Push)];
  md_final := [];
  md_init := [[]; []] |}.

(* forwardrelocationreq.rs: 10 (type), 111-116 (marshal), 118-141 (unmarshal), 143-299 (tovec), 301-505 (fromvec). *)
Definition md_forwardrelocationreq : message_def := {|
  md_name := "ForwardRelocationRequest"; md_type := 133;
  md_start := Some MAX_HEADER_LENGTH;
  md_tovec := [0; 1; 2; 3; 4; 5; 6; 7; 8; 9; 10; 11; 12; 13; 14; 15; 16; 17; 18; 19; 20; 21; 22; 23; 24; 25; 26; 27; 28; 29; 30; 31; 32; 33; 34; 35; 36; 37; 38]%nat;
  md_arms := [rule K_Imsi (InsIs 0) 0 (OptFirst);
    rule K_Fteid (InsIs 0) 1 (MandFirst 0);
    rule K_Fteid (InsIs 1) 3 (OptFirst);
    rule K_PdnConnections (InsIs 0) 2 (Push);
    rule K_Fqdn (InsBelow 3) 4 (Push);
    rule K_MmContext (InsIs 0) 5 (MandFirst 1);
    rule K_Indication (InsIs 0) 6 (OptFirst);
    rule K_Fcontainer (InsBelow 3) 7 (Push);
    rule K_TargetIdentification (InsIs 0) 8 (OptFirst);
    rule K_IpAddress (InsBelow 2) 9 (Push);
    rule K_Fcause (InsBelow 3) 10 (Push);
    rule K_SourceIdentification (InsIs 0) 11 (OptFirst);
    rule K_PlmnId (InsIs 0) 12 (OptFirst);
    rule K_Recovery (InsIs 0) 13 (OptFirst);
    rule K_TraceInformation (InsIs 0) 14 (OptFirst);
    rule K_RfspIndex (InsBelow 2) 15 (Push);
    rule K_CsgId (InsIs 0) 16 (OptFirst);
    rule K_CsgMembershipIndication (InsIs 0) 17 (OptFirst);
    rule K_UeTimeZone (InsIs 0) 18 (OptFirst);
    rule K_ServingNetwork (InsIs 0) 19 (OptFirst);
    rule K_Ldn (InsIs 0) 20 (OptFirst);
    rule K_AdditionalMmContextForSrvcc (InsIs 0) 21 (OptFirst);
    rule K_AdditionalFlagsSrvcc (InsIs 0) 22 (OptFirst);
    rule K_StnSr (InsIs 0) 23 (OptFirst);
    rule K_Msisdn (InsBelow 2) 24 (Push);
    rule K_MdtConfiguration (InsIs 0) 25 (OptFirst);
    rule K_Uci (InsIs 0) 26 (OptFirst);
    rule K_MonitoringEventInformation (InsIs 0) 27 (Push);
    rule K_MonitoringEventExtensionInfo (InsIs 0) 28 (Push);
    rule K_IntegerNumber (InsIs 0) 29 (OptFirst);
    rule K_ScefPdnConnections (InsIs 0) 30 (Push);
    rule K_PortNumber (InsIs 0) 31 (OptFirst);
    rule K_ServingPlmnRateControl (InsIs 0) 32 (OptFirst);
    rule K_ExtendedTraceInformation (InsIs 0) 33 (OptFirst);
    rule K_AdditionalRrmPolicyIndex (InsBelow 2) 34 (Push);
    rule K_V2xInformation (InsIs 0) 35 (OptFirst);
    rule K_NodeIdentifier (InsIs 0) 36 (OptFirst);
    rule K_AlternativeImsi (InsIs 0) 37 (OptFirst);
    rule K_PrivateExtension (InsAny) 38 (Push)];
  md_final := [([(0%nat, true); (1%nat, true)], None); ([(0%nat, false)], Some 1); ([(1%nat, false)], Some 107)];
  md_init := [[]; []; []; []; []; []; []; []; []; []; []; []; []; []; []; []; []; []; []; []; []; []; []; []; []; []; []; []; []; []; []; []; []; []; []; []; []; []; []] |}.

(* forwardrelocationresp.rs: 10 (type), 59-64 (marshal), 66-89 (unmarshal), 91-145 (tovec), 147-218 (fromvec). *)
Definition md_forwardrelocationresp : message_def := {|
  md_name := "ForwardRelocationResponse"; md_type := 134;
  md_start := Some MAX_HEADER_LENGTH;
  md_tovec := [0; 1; 2; 3; 4; 5; 6; 7; 8; 9; 10; 11; 12]%nat;
  md_arms := [rule K_Cause (InsIs 0) 0 (MandFirst 0);
    rule K_Fteid (InsIs 0) 1 (OptFirst);
    rule K_Indication (InsIs 0) 2 (OptFirst);
    rule K_BearerContext (InsBelow 4) 3 (Push);
    rule K_Fcause (InsBelow 3) 4 (Push);
    rule K_Fcontainer (InsBelow 3) 5 (Push);
    rule K_Ldn (InsIs 0) 6 (OptFirst);
    rule K_Fqdn (InsIs 0) 7 (OptFirst);
    rule K_Fqdn (InsIs 1) 8 (OptFirst);
    rule K_NodeNumber (InsBelow 3) 9 (Push);
    rule K_NodeIdentifier (InsBelow 4) 10 (Push);
    rule K_SrvccCause (InsIs 0) 11 (OptFirst);
    rule K_PrivateExtension (InsAny) 12 (Push)];
  md_final := [([(0%nat, false)], Some 2)];
  md_init := [[]; []; []; []; []; []; []; []; []; []; []; []; []] |}.

(* identificationreq.rs: 10 (type), 53-58 (marshal), 60-84 (unmarshal), 86-130 (tovec), 132-185 (fromvec). *)
Definition md_identificationreq : message_def := {|
  md_name := "IdentificationRequest"; md_type := 128;
  md_start := Some MAX_HEADER_LENGTH;
  md_tovec := [0; 1; 2; 3; 4; 5; 6; 7; 8; 9]%nat;
  md_arms := [rule K_Guti (InsIs 0) 0 (OptFirst);
    rule K_Uli (InsIs 0) 1 (OptFirst);
    rule K_Ptmsi (InsIs 0) 2 (OptFirst);
    rule K_PtmsiSignature (InsIs 0) 3 (OptFirst);
    rule K_CompleteRequestMessage (InsIs 0) 4 (OptFirst);
    rule K_IpAddress (InsIs 0) 5 (OptFirst);
    rule K_PortNumber (InsIs 0) 6 (OptFirst);
    rule K_HopCounter (InsIs 0) 7 (OptFirst);
    rule K_ServingNetwork (InsIs 0) 8 (OptFirst);
    rule K_PrivateExtension (InsAny) 9 (Push)];
  md_final := [];
  md_init := [[]; []; []; []; []; []; []; []; []; []] |}.

(* identificationresp.rs: 10 (type), 51-56 (marshal), 58-82 (unmarshal), 84-122 (tovec), 124-174 (fromvec). The cause starts as Cause::default() and nothing checks that it was received. *)
Definition md_identificationresp : message_def := {|
  md_name := "IdentificationResponse"; md_type := 129;
  md_start := Some MAX_HEADER_LENGTH;
  md_tovec := [0; 1; 2; 3; 4; 5; 6; 7; 8]%nat;
  md_arms := [rule K_Cause (InsIs 0) 0 (MandFirst 0);
    rule K_Imsi (InsIs 0) 1 (OptFirst);
    rule K_MmContext (InsIs 0) 2 (OptFirst);
    rule K_TraceInformation (InsIs 0) 3 (OptFirst);
    rule K_IntegerNumber (InsIs 0) 4 (OptFirst);
    rule K_MonitoringEventInformation (InsIs 0) 5 (Push);
    rule K_MonitoringEventExtensionInfo (InsIs 0) 6 (Push);
    rule K_ExtendedTraceInformation (InsIs 0) 7 (OptFirst);
    rule K_PrivateExtension (InsAny) 8 (Push)];
  md_final := [];
  md_init := [[IE_Cause cause_default]; []; []; []; []; []; []; []; []] |}.

(* isrstatusindication.rs: 10 (type), 36-41 (marshal), 43-67 (unmarshal), 69-79 (tovec), 81-100 (fromvec). *)
Definition md_isrstatusindication : message_def := {|
  md_name := "IsrStatusIndication"; md_type := 157;
  md_start := Some MAX_HEADER_LENGTH;
  md_tovec := [0; 1]%nat;
  md_arms := [rule K_ActionIndication (InsIs 0) 0 (MandLast 0);
    rule K_PrivateExtension (InsAny) 1 (Push)];
  md_final := [([(0%nat, false)], Some 168)];
  md_init := [[]; []] |}.

(* mbmssessionstartreq.rs: 10 (type), 63-68 (marshal), 70-94 (unmarshal), 96-144 (tovec), 146-246 (fromvec). *)
Definition md_mbmssessionstartreq : message_def := {|
  md_name := "MbmsSessionStartRequest"; md_type := 231;
  md_start := Some MAX_HEADER_LENGTH;
  md_tovec := [0; 1; 2; 3; 4; 5; 6; 7; 8; 9; 10; 11; 12; 13; 14]%nat;
  md_arms := [rule K_Fteid (InsIs 0) 0 (MandFirst 0);
    rule K_Tmgi (InsIs 0) 1 (MandFirst 1);
    rule K_MbmsSd (InsIs 0) 2 (MandFirst 2);
    rule K_MbmsSa (InsIs 0) 3 (MandFirst 3);
    rule K_MbmsSessionId (InsIs 0) 4 (OptFirst);
    rule K_MbmsFlowId (InsIs 0) 5 (OptFirst);
    rule K_BearerQos (InsIs 0) 6 (MandFirst 4);
    rule K_MbmsIpMulticastDistribution (InsIs 0) 7 (MandFirst 5);
    rule K_MbmsIpMulticastDistribution (InsIs 1) 12 (OptFirst);
    rule K_Recovery (InsIs 0) 8 (OptFirst);
    rule K_MbmsTimeToDataTransfer (InsIs 0) 9 (OptFirst);
    rule K_AbsoluteTimeMbmsDataTransfer (InsIs 0) 10 (OptFirst);
    rule K_MbmsFlags (InsIs 0) 11 (OptFirst);
    rule K_EcgiList (InsIs 0) 13 (OptFirst);
    rule K_PrivateExtension (InsAny) 14 (Push)];
  md_final := [([(0%nat, false)], Some 87); ([(1%nat, false)], Some 158); ([(2%nat, false)], Some 138); ([(3%nat, false)], Some 139); ([(4%nat, false)], Some 80); ([(5%nat, false)], Some 139)];
  md_init := [[]; []; []; []; []; []; []; []; []; []; []; []; []; []; []] |}.

(* mbmssessionstartresp.rs: 10 (type), 45-50 (marshal), 52-76 (unmarshal), 78-99 (tovec), 101-149 (fromvec). *)
Definition md_mbmssessionstartresp : message_def := {|
  md_name := "MbmsSessionStartResponse"; md_type := 232;
  md_start := Some MAX_HEADER_LENGTH;
  md_tovec := [0; 1; 2; 3; 4; 5]%nat;
  md_arms := [rule K_Cause (InsIs 0) 0 (MandFirst 0);
    rule K_Fteid (InsIs 0) 1 (MandFirst 1);
    rule K_Fteid (InsIs 1) 3 (OptFirst);
    rule K_MbmsDistributionAck (InsIs 0) 2 (OptFirst);
    rule K_Recovery (InsIs 0) 4 (OptFirst);
    rule K_PrivateExtension (InsAny) 5 (Push)];
  md_final := [([(0%nat, false)], Some 2); ([(1%nat, false)], Some 87)];
  md_init := [[]; []; []; []; []; []] |}.

(* mbmssessionstopreq.rs: 10 (type), 41-46 (marshal), 48-72 (unmarshal), 74-94 (tovec), 96-119 (fromvec). *)
Definition md_mbmssessionstopreq : message_def := {|
  md_name := "MbmsSessionStopRequest"; md_type := 235;
  md_start := Some MAX_HEADER_LENGTH;
  md_tovec := [0; 1; 2; 3]%nat;
  md_arms := [rule K_MbmsFlowId (InsIs 0) 0 (OptFirst);
    rule K_AbsoluteTimeMbmsDataTransfer (InsIs 0) 1 (OptFirst);
    rule K_MbmsFlags (InsIs 0) 2 (OptFirst);
    rule K_PrivateExtension (InsAny) 3 (Push)];
  md_final := [];
  md_init := [[]; []; []; []] |}.

(* mbmssessionstopresp.rs: 10 (type), 39-44 (marshal), 46-70 (unmarshal), 72-84 (tovec), 86-110 (fromvec). *)
Definition md_mbmssessionstopresp : message_def := {|
  md_name := "MbmsSessionStopResponse"; md_type := 236;
  md_start := Some MAX_HEADER_LENGTH;
  md_tovec := [0; 1; 2]%nat;
  md_arms := [rule K_Cause (InsIs 0) 0 (MandFirst 0);
    rule K_Recovery (InsIs 0) 1 (OptFirst);
    rule K_PrivateExtension (InsAny) 2 (Push)];
  md_final := [([(0%nat, false)], Some 2)];
  md_init := [[]; []; []] |}.

(* mbmssessionupdatereq.rs: 10 (type), 55-60 (marshal), 62-86 (unmarshal), 88-130 (tovec), 132-203 (fromvec). *)
Definition md_mbmssessionupdatereq : message_def := {|
  md_name := "MbmsSessionUpdateRequest"; md_type := 233;
  md_start := Some MAX_HEADER_LENGTH;
  md_tovec := [0; 1; 2; 3; 4; 5; 6; 7; 8; 9; 10]%nat;
  md_arms := [rule K_MbmsSa (InsIs 0) 0 (OptFirst);
    rule K_Tmgi (InsIs 0) 1 (MandFirst 0);
    rule K_Fteid (InsIs 0) 2 (OptFirst);
    rule K_MbmsSd (InsIs 0) 3 (MandFirst 1);
    rule K_BearerQos (InsIs 0) 4 (MandFirst 2);
    rule K_MbmsSessionId (InsIs 0) 5 (OptFirst);
    rule K_MbmsFlowId (InsIs 0) 6 (OptFirst);
    rule K_MbmsTimeToDataTransfer (InsIs 0) 7 (OptFirst);
    rule K_AbsoluteTimeMbmsDataTransfer (InsIs 0) 8 (OptFirst);
    rule K_EcgiList (InsIs 0) 9 (OptFirst);
    rule K_PrivateExtension (InsAny) 10 (Push)];
  md_final := [([(0%nat, false)], Some 158); ([(1%nat, false)], Some 138); ([(2%nat, false)], Some 80)];
  md_init := [[]; []; []; []; []; []; []; []; []; []; []] |}.

(* mbmssessionupdateresp.rs: 10 (type), 43-48 (marshal), 50-74 (unmarshal), 76-96 (tovec), 98-132 (fromvec). *)
Definition md_mbmssessionupdateresp : message_def := {|
  md_name := "MbmsSessionUpdateResponse"; md_type := 234;
  md_start := Some MAX_HEADER_LENGTH;
  md_tovec := [0; 1; 2; 3; 4]%nat;
  md_arms := [rule K_Cause (InsIs 0) 0 (MandFirst 0);
    rule K_MbmsDistributionAck (InsIs 0) 1 (OptFirst);
    rule K_Fteid (InsIs 0) 2 (OptFirst);
    rule K_Recovery (InsIs 0) 3 (OptFirst);
    rule K_PrivateExtension (InsAny) 4 (Push)];
  md_final := [([(0%nat, false)], Some 2)];
  md_init := [[]; []; []; []; []] |}.

(* modifyaccessbearersreq.rs: 10 (type), 49-54 (marshal), 56-80 (unmarshal), 82-118 (tovec), 120-162 (fromvec). *)
Definition md_modifyaccessbearersreq : message_def := {|
  md_name := "ModifyAccessBearersRequest"; md_type := 211;
  md_start := Some MAX_HEADER_LENGTH;
  md_tovec := [0; 1; 2; 3; 4; 5; 6; 7]%nat;
  md_arms := [rule K_Indication (InsIs 0) 0 (OptFirst);
    rule K_Fteid (InsIs 0) 1 (OptFirst);
    rule K_DelayValue (InsIs 0) 2 (OptFirst);
    rule K_BearerContext (InsBelow 2) 3 (Push);
    rule K_Recovery (InsIs 0) 4 (OptFirst);
    rule K_SecondaryRatUsageDataReport (InsIs 0) 5 (Push);
    rule K_PSCellId (InsIs 0) 6 (OptFirst);
    rule K_PrivateExtension (InsAny) 7 (Push)];
  md_final := [];
  md_init := [[]; []; []; []; []; []; []; []] |}.

(* modifyaccessbearersresp.rs: 10 (type), 47-52 (marshal), 54-78 (unmarshal), 80-110 (tovec), 112-155 (fromvec). *)
Definition md_modifyaccessbearersresp : message_def := {|
  md_name := "ModifyAccessBearersResponse"; md_type := 212;
  md_start := Some MAX_HEADER_LENGTH;
  md_tovec := [0; 1; 2; 3; 4; 5; 6]%nat;
  md_arms := [rule K_Cause (InsIs 0) 0 (MandFirst 0);
    rule K_BearerContext (InsBelow 2) 1 (Push);
    rule K_Recovery (InsIs 0) 2 (OptFirst);
    rule K_Indication (InsIs 0) 3 (OptFirst);
    rule K_LoadControlInfo (InsIs 0) 4 (OptFirst);
    rule K_OverloadControlInfo (InsIs 0) 5 (OptFirst);
    rule K_PrivateExtension (InsAny) 6 (Push)];
  md_final := [([(0%nat, false)], Some 2)];
  md_init := [[]; []; []; []; []; []; []] |}.

(* modifybearercommand.rs: 10 (type), 43-48 (marshal), 50-74 (unmarshal), 76-98 (tovec), 100-135 (fromvec). *)
Definition md_modifybearercommand : message_def := {|
  md_name := "ModifyBearerCommand"; md_type := 64;
  md_start := Some MAX_HEADER_LENGTH;
  md_tovec := [0; 1; 2; 3; 4]%nat;
  md_arms := [rule K_ApnAmbr (InsIs 0) 0 (MandFirst 0);
    rule K_BearerContext (InsIs 0) 1 (PushMandFirst 1);
    rule K_OverloadControlInfo (InsBelow 3) 2 (Push);
    rule K_Fteid (InsIs 0) 3 (OptFirst);
    rule K_PrivateExtension (InsAny) 4 (Push)];
  md_final := [([(0%nat, false); (1%nat, false)], Some 72); ([(0%nat, false); (1%nat, true)], Some 72); ([(0%nat, true); (1%nat, false)], Some 93); ([(0%nat, true); (1%nat, true)], None)];
  md_init := [[]; []; []; []; []] |}.

(* modifybearerfailureind.rs: 10 (type), 43-48 (marshal), 50-74 (unmarshal), 76-97 (tovec), 99-132 (fromvec). *)
Definition md_modifybearerfailureind : message_def := {|
  md_name := "ModifyBearerFailureInd"; md_type := 65;
  md_start := Some MAX_HEADER_LENGTH;
  md_tovec := [0; 1; 2; 3; 4]%nat;
  md_arms := [rule K_Cause (InsIs 0) 0 (MandFirst 0);
    rule K_Recovery (InsIs 0) 1 (OptFirst);
    rule K_Indication (InsIs 0) 2 (OptFirst);
    rule K_OverloadControlInfo (InsBelow 2) 3 (Push);
    rule K_PrivateExtension (InsAny) 4 (Push)];
  md_final := [([(0%nat, false)], Some 2)];
  md_init := [[]; []; []; []; []] |}.

(* modifybearerreq.rs: 10 (type), 99-104 (marshal), 106-130 (unmarshal), 132-268 (tovec), 270-433 (fromvec). *)
Definition md_modifybearerreq : message_def := {|
  md_name := "ModifyBearerRequest"; md_type := 34;
  md_start := Some MAX_HEADER_LENGTH;
  md_tovec := [0; 1; 2; 3; 4; 5; 6; 7; 8; 9; 10; 11; 12; 13; 14; 15; 16; 17; 18; 19; 20; 21; 22; 23; 24; 25; 26; 27; 28; 29; 30; 31; 32]%nat;
  md_arms := [rule K_Mei (InsIs 0) 0 (OptFirst);
    rule K_Uli (InsIs 0) 1 (OptFirst);
    rule K_Uli (InsIs 1) 27 (OptFirst);
    rule K_ServingNetwork (InsIs 0) 2 (OptFirst);
    rule K_RatType (InsIs 0) 3 (OptFirst);
    rule K_Indication (InsIs 0) 4 (OptFirst);
    rule K_Fteid (InsIs 0) 5 (OptFirst);
    rule K_ApnAmbr (InsIs 0) 6 (OptFirst);
    rule K_DelayValue (InsIs 0) 7 (OptFirst);
    rule K_BearerContext (InsBelow 2) 8 (Push);
    rule K_Recovery (InsIs 0) 9 (OptFirst);
    rule K_UeTimeZone (InsIs 0) 10 (OptFirst);
    rule K_Fqcsid (InsIs 0) 11 (OptFirst);
    rule K_Fqcsid (InsIs 1) 12 (OptFirst);
    rule K_Uci (InsIs 0) 13 (OptFirst);
    rule K_IpAddress (InsIs 0) 18 (OptFirst);
    rule K_IpAddress (InsIs 1) 14 (OptFirst);
    rule K_IpAddress (InsIs 2) 20 (OptFirst);
    rule K_PortNumber (InsIs 0) 19 (OptFirst);
    rule K_PortNumber (InsIs 1) 15 (OptFirst);
    rule K_Ldn (InsIs 0) 16 (OptFirst);
    rule K_Ldn (InsIs 1) 17 (OptFirst);
    rule K_CnOperatorSelectionEntity (InsIs 0) 21 (OptFirst);
    rule K_PresenceReportingAreaInformation (InsIs 0) 22 (OptFirst);
    rule K_OverloadControlInfo (InsBelow 3) 23 (Push);
    rule K_ServingPlmnRateControl (InsIs 0) 24 (OptFirst);
    rule K_Counter (InsIs 0) 25 (OptFirst);
    rule K_Imsi (InsIs 0) 26 (OptFirst);
    rule K_TwanId (InsIs 0) 28 (OptFirst);
    rule K_TwanIdTimeStamp (InsIs 0) 29 (OptFirst);
    rule K_SecondaryRatUsageDataReport (InsIs 0) 30 (Push);
    rule K_PSCellId (InsIs 0) 31 (OptFirst);
    rule K_PrivateExtension (InsAny) 32 (Push)];
  md_final := [];
  md_init := [[]; []; []; []; []; []; []; []; []; []; []; []; []; []; []; []; []; []; []; []; []; []; []; []; []; []; []; []; []; []; []; []; []] |}.

(* modifybearerresp.rs: 10 (type), 79-84 (marshal), 86-110 (unmarshal), 112-206 (tovec), 208-327 (fromvec). *)
Definition md_modifybearerresp : message_def := {|
  md_name := "ModifyBearerResponse"; md_type := 35;
  md_start := Some MAX_HEADER_LENGTH;
  md_tovec := [0; 1; 2; 3; 4; 5; 6; 7; 8; 9; 10; 11; 12; 13; 14; 15; 16; 17; 18; 19; 20; 21; 22]%nat;
  md_arms := [rule K_Cause (InsIs 0) 0 (MandFirst 0);
    rule K_Msisdn (InsIs 0) 1 (OptFirst);
    rule K_Ebi (InsIs 0) 2 (OptFirst);
    rule K_ApnRestriction (InsIs 0) 3 (OptFirst);
    rule K_Pco (InsIs 0) 4 (OptFirst);
    rule K_BearerContext (InsBelow 2) 5 (Push);
    rule K_ChangeReportingAction (InsIs 0) 6 (OptFirst);
    rule K_CSGInformationReportingAction (InsIs 0) 7 (OptFirst);
    rule K_HenbInfoReporting (InsIs 0) 8 (OptFirst);
    rule K_Fqdn (InsIs 0) 9 (OptFirst);
    rule K_IpAddress (InsIs 0) 10 (OptFirst);
    rule K_Fqcsid (InsIs 0) 11 (OptFirst);
    rule K_Fqcsid (InsIs 1) 12 (OptFirst);
    rule K_Recovery (InsIs 0) 13 (OptFirst);
    rule K_Ldn (InsIs 0) 14 (OptFirst);
    rule K_Ldn (InsIs 1) 15 (OptFirst);
    rule K_Indication (InsIs 0) 16 (OptFirst);
    rule K_PresenceReportingAreaAction (InsIs 0) 17 (OptFirst);
    rule K_LoadControlInfo (InsBelow 3) 18 (Push);
    rule K_OverloadControlInfo (InsBelow 2) 19 (Push);
    rule K_ChargingId (InsIs 0) 20 (OptFirst);
    rule K_PgwChangeInfo (InsIs 0) 21 (OptFirst);
    rule K_PrivateExtension (InsAny) 22 (Push)];
  md_final := [([(0%nat, false)], Some 2)];
  md_init := [[]; []; []; []; []; []; []; []; []; []; []; []; []; []; []; []; []; []; []; []; []; []; []] |}.

(* pgwdownlinktriggeringacknowledge.rs: 10 (type), 40-45 (marshal), 47-71 (unmarshal), 73-91 (tovec), 93-122 (fromvec). *)
Definition md_pgwdownlinktriggeringacknowledge : message_def := {|
  md_name := "PgwDownlinkTriggeringAcknowledge"; md_type := 104;
  md_start := Some MAX_HEADER_LENGTH;
  md_tovec := [0; 1; 2; 3]%nat;
  md_arms := [rule K_Cause (InsIs 0) 0 (MandFirst 0);
    rule K_Imsi (InsIs 0) 1 (OptFirst);
    rule K_IpAddress (InsIs 0) 2 (OptFirst);
    rule K_PrivateExtension (InsAny) 3 (Push)];
  md_final := [([(0%nat, false)], Some 2)];
  md_init := [[]; []; []; []] |}.

(* pgwdownlinktriggeringnotification.rs: 10 (type), 40-45 (marshal), 47-71 (unmarshal), 73-91 (tovec), 93-122 (fromvec). *)
Definition md_pgwdownlinktriggeringnotification : message_def := {|
  md_name := "PgwDownlinkTriggeringNotification"; md_type := 103;
  md_start := Some MAX_HEADER_LENGTH;
  md_tovec := [0; 1; 2; 3]%nat;
  md_arms := [rule K_Imsi (InsIs 0) 0 (MandFirst 0);
    rule K_IpAddress (InsIs 0) 1 (OptFirst);
    rule K_Fteid (InsIs 0) 2 (OptFirst);
    rule K_PrivateExtension (InsAny) 3 (Push)];
  md_final := [([(0%nat, false)], Some 1)];
  md_init := [[]; []; []; []] |}.

(* pgwrestartnotification.rs: 10 (type), 40-45 (marshal), 47-71 (unmarshal), 73-88 (tovec), 90-119 (fromvec). *)
Definition md_pgwrestartnotification : message_def := {|
  md_name := "PgwRestartNotification"; md_type := 180;
  md_start := Some MAX_HEADER_LENGTH;
  md_tovec := [0; 1; 2; 3]%nat;
  md_arms := [rule K_IpAddress (InsIs 0) 0 (MandFirst 0);
    rule K_IpAddress (InsIs 1) 1 (MandFirst 1);
    rule K_Cause (InsIs 0) 2 (OptLast);
    rule K_PrivateExtension (InsAny) 3 (Push)];
  md_final := [([(0%nat, true); (1%nat, true)], None); ([], Some 74)];
  md_init := [[]; []; []; []] |}.

(* pgwrestartnotificationacknowledge.rs: 10 (type), 36-41 (marshal), 43-67 (unmarshal), 69-79 (tovec), 81-100 (fromvec). *)
Definition md_pgwrestartnotificationacknowledge : message_def := {|
  md_name := "PgwRestartNotificationAcknowledge"; md_type := 180;
  md_start := Some MAX_HEADER_LENGTH;
  md_tovec := [0; 1]%nat;
  md_arms := [rule K_Cause (InsIs 0) 0 (MandLast 0);
    rule K_PrivateExtension (InsAny) 1 (Push)];
  md_final := [([(0%nat, false)], Some 2)];
  md_init := [[]; []] |}.

(* raninformationrelay.rs: 10 (type), 38-43 (marshal), 45-69 (unmarshal), 71-85 (tovec), 87-111 (fromvec). *)
Definition md_raninformationrelay : message_def := {|
  md_name := "RanInformationRelay"; md_type := 152;
  md_start := Some MAX_HEADER_LENGTH;
  md_tovec := [0; 1; 2]%nat;
  md_arms := [rule K_Fcause (InsIs 0) 0 (MandFirst 0);
    rule K_TargetIdentification (InsIs 0) 1 (OptFirst);
    rule K_PrivateExtension (InsAny) 2 (Push)];
  md_final := [([(0%nat, false)], Some 119)];
  md_init := [[]; []; []] |}.

(* releaseaccessbearersreq.rs: 10 (type), 45-50 (marshal), 52-76 (unmarshal), 78-106 (tovec), 108-141 (fromvec). *)
Definition md_releaseaccessbearersreq : message_def := {|
  md_name := "ReleaseAccessBearersRequest"; md_type := 170;
  md_start := Some MAX_HEADER_LENGTH;
  md_tovec := [0; 1; 2; 3; 4; 5]%nat;
  md_arms := [rule K_Ebi (InsIs 0) 0 (Push);
    rule K_NodeType (InsIs 0) 1 (OptFirst);
    rule K_Indication (InsIs 0) 2 (OptFirst);
    rule K_SecondaryRatUsageDataReport (InsIs 0) 3 (Push);
    rule K_PSCellId (InsIs 0) 4 (OptFirst);
    rule K_PrivateExtension (InsAny) 5 (Push)];
  md_final := [];
  md_init := [[]; []; []; []; []; []] |}.

(* releaseaccessbearersresp.rs: 10 (type), 45-50 (marshal), 52-76 (unmarshal), 78-104 (tovec), 106-144 (fromvec). *)
Definition md_releaseaccessbearersresp : message_def := {|
  md_name := "ReleaseAccessBearersResponse"; md_type := 171;
  md_start := Some MAX_HEADER_LENGTH;
  md_tovec := [0; 1; 2; 3; 4; 5]%nat;
  md_arms := [rule K_Cause (InsIs 0) 0 (MandFirst 0);
    rule K_Recovery (InsIs 0) 1 (OptFirst);
    rule K_Indication (InsIs 0) 2 (OptFirst);
    rule K_LoadControlInfo (InsBelow 3) 3 (Push);
    rule K_OverloadControlInfo (InsBelow 2) 4 (Push);
    rule K_PrivateExtension (InsAny) 5 (Push)];
  md_final := [([(0%nat, false)], Some 2)];
  md_init := [[]; []; []; []; []; []] |}.

(* relocationcancelreq.rs: 10 (type), 42-47 (marshal), 49-73 (unmarshal), 75-99 (tovec), 101-129 (fromvec). *)
Definition md_relocationcancelreq : message_def := {|
  md_name := "RelocationCancelRequest"; md_type := 139;
  md_start := Some MAX_HEADER_LENGTH;
  md_tovec := [0; 1; 2; 3; 4]%nat;
  md_arms := [rule K_Imsi (InsIs 0) 0 (OptFirst);
    rule K_Mei (InsIs 0) 1 (OptFirst);
    rule K_Indication (InsIs 0) 2 (OptFirst);
    rule K_Fcause (InsIs 0) 3 (OptFirst);
    rule K_PrivateExtension (InsAny) 4 (Push)];
  md_final := [];
  md_init := [[]; []; []; []; []] |}.

(* relocationcancelresp.rs: 10 (type), 37-42 (marshal), 44-67 (unmarshal), 69-79 (tovec), 81-99 (fromvec). *)
Definition md_relocationcancelresp : message_def := {|
  md_name := "RelocationCancelResponse"; md_type := 140;
  md_start := Some MAX_HEADER_LENGTH;
  md_tovec := [0; 1]%nat;
  md_arms := [rule K_Cause (InsIs 0) 0 (MandFirst 0);
    rule K_PrivateExtension (InsAny) 1 (Push)];
  md_final := [([(0%nat, false)], Some 2)];
  md_init := [[]; []] |}.

(* remoteuereportacknowledge.rs: 10 (type), 36-41 (marshal), 43-67 (unmarshal), 69-79 (tovec), 81-100 (fromvec). *)
Definition md_remoteuereportacknowledge : message_def := {|
  md_name := "RemoteUeReportAcknowledge"; md_type := 41;
  md_start := Some MAX_HEADER_LENGTH;
  md_tovec := [0; 1]%nat;
  md_arms := [rule K_Cause (InsIs 0) 0 (MandLast 0);
    rule K_PrivateExtension (InsAny) 1 (Push)];
  md_final := [([(0%nat, false)], Some 2)];
  md_init := [[]; []] |}.

(* remoteuereportnotification.rs: 10 (type), 39-44 (marshal), 46-69 (unmarshal), 71-87 (tovec), 89-102 (fromvec). *)
Definition md_remoteuereportnotification : message_def := {|
  md_name := "RemoteUeReportNotification"; md_type := 40;
  md_start := Some MAX_HEADER_LENGTH;
  md_tovec := [0; 1; 2]%nat;
  md_arms := [rule K_RemoteUeContext (InsIs 0) 0 (Push);
    rule K_RemoteUeContext (InsIs 1) 1 (Push);
    rule K_PrivateExtension (InsAny) 2 (Push)];
  md_final := [];
  md_init := [[]; []; []] |}.

(* resumeacknowledge.rs: 10 (type), 37-42 (marshal), 44-68 (unmarshal), 70-80 (tovec), 82-100 (fromvec). *)
Definition md_resumeacknowledge : message_def := {|
  md_name := "ResumeAcknowledge"; md_type := 165;
  md_start := Some MAX_HEADER_LENGTH;
  md_tovec := [0; 1]%nat;
  md_arms := [rule K_Cause (InsIs 0) 0 (MandFirst 0);
    rule K_PrivateExtension (InsAny) 1 (Push)];
  md_final := [([(0%nat, false)], Some 2)];
  md_init := [[]; []] |}.

(* resumenotification.rs: 10 (type), 43-48 (marshal), 50-73 (unmarshal), 75-95 (tovec), 97-130 (fromvec). *)
Definition md_resumenotification : message_def := {|
  md_name := "ResumeNotification"; md_type := 164;
  md_start := Some MAX_HEADER_LENGTH;
  md_tovec := [0; 1; 2; 3; 4]%nat;
  md_arms := [rule K_Imsi (InsIs 0) 0 (MandFirst 0);
    rule K_Ebi (InsIs 0) 1 (OptFirst);
    rule K_NodeType (InsIs 0) 2 (OptFirst);
    rule K_Fteid (InsIs 0) 3 (OptFirst);
    rule K_PrivateExtension (InsAny) 4 (Push)];
  md_final := [([(0%nat, false)], Some 1)];
  md_init := [[]; []; []; []; []] |}.

(* stoppagingindication.rs: 10 (type), 37-42 (marshal), 44-67 (unmarshal), 69-81 (tovec), 83-96 (fromvec). *)
Definition md_stoppagingindication : message_def := {|
  md_name := "StopPagingIndication"; md_type := 164;
  md_start := Some MAX_HEADER_LENGTH;
  md_tovec := [0; 1]%nat;
  md_arms := [rule K_Imsi (InsIs 0) 0 (OptLast);
    rule K_PrivateExtension (InsAny) 1 (Push)];
  md_final := [];
  md_init := [[]; []] |}.

(* suspendacknowledge.rs: 10 (type), 37-42 (marshal), 44-68 (unmarshal), 70-80 (tovec), 82-100 (fromvec). *)
Definition md_suspendacknowledge : message_def := {|
  md_name := "SuspendAcknowledge"; md_type := 163;
  md_start := Some MAX_HEADER_LENGTH;
  md_tovec := [0; 1]%nat;
  md_arms := [rule K_Cause (InsIs 0) 0 (MandFirst 0);
    rule K_PrivateExtension (InsAny) 1 (Push)];
  md_final := [([(0%nat, false)], Some 2)];
  md_init := [[]; []] |}.

(* suspendnotification.rs: 10 (type), 53-58 (marshal), 60-84 (unmarshal), 86-122 (tovec), 124-177 (fromvec). *)
Definition md_suspendnotification : message_def := {|
  md_name := "SuspendNotification"; md_type := 162;
  md_start := Some MAX_HEADER_LENGTH;
  md_tovec := [0; 1; 2; 3; 4; 5; 6; 7; 8; 9]%nat;
  md_arms := [rule K_Imsi (InsIs 0) 0 (OptFirst);
    rule K_Uli (InsIs 0) 1 (OptFirst);
    rule K_Ebi (InsIs 0) 2 (OptFirst);
    rule K_Ptmsi (InsIs 0) 3 (OptFirst);
    rule K_NodeType (InsIs 0) 4 (OptFirst);
    rule K_IpAddress (InsIs 0) 5 (OptFirst);
    rule K_PortNumber (InsIs 0) 6 (OptFirst);
    rule K_HopCounter (InsIs 0) 7 (OptFirst);
    rule K_Fteid (InsIs 0) 8 (OptFirst);
    rule K_PrivateExtension (InsAny) 9 (Push)];
  md_final := [];
  md_init := [[]; []; []; []; []; []; []; []; []; []] |}.

(* tracesessionactivation.rs: 10 (type), 39-44 (marshal), 46-70 (unmarshal), 72-86 (tovec), 88-115 (fromvec). *)
Definition md_tracesessionactivation : message_def := {|
  md_name := "TraceSessionActivation"; md_type := 71;
  md_start := Some MAX_HEADER_LENGTH;
  md_tovec := [0; 1; 2]%nat;
  md_arms := [rule K_Imsi (InsIs 0) 0 (OptFirst);
    rule K_TraceInformation (InsIs 0) 1 (MandFirst 0);
    rule K_Mei (InsIs 0) 2 (OptFirst)];
  md_final := [([(0%nat, false)], Some 96)];
  md_init := [[]; []; []] |}.

(* tracesessiondeactivation.rs: 10 (type), 35-40 (marshal), 42-66 (unmarshal), 68-70 (tovec), 72-86 (fromvec). *)
Definition md_tracesessiondeactivation : message_def := {|
  md_name := "TraceSessionDeactivation"; md_type := 72;
  md_start := Some MAX_HEADER_LENGTH;
  md_tovec := [0]%nat;
  md_arms := [rule K_TraceInformation (InsIs 0) 0 (MandFirst 0)];
  md_final := [([(0%nat, false)], Some 96)];
  md_init := [[]] |}.

(* ueactivityacknowledge.rs: 10 (type), 37-42 (marshal), 44-68 (unmarshal), 70-80 (tovec), 82-100 (fromvec). *)
Definition md_ueactivityacknowledge : message_def := {|
  md_name := "UeActivityAcknowledge"; md_type := 156;
  md_start := Some MAX_HEADER_LENGTH;
  md_tovec := [0; 1]%nat;
  md_arms := [rule K_Cause (InsIs 0) 0 (MandFirst 0);
    rule K_PrivateExtension (InsAny) 1 (Push)];
  md_final := [([(0%nat, false)], Some 2)];
  md_init := [[]; []] |}.

(* ueactivitynotification.rs: 10 (type), 35-40 (marshal), 42-66 (unmarshal), 68-76 (tovec), 78-85 (fromvec). *)
Definition md_ueactivitynotification : message_def := {|
  md_name := "UeActivityNotification"; md_type := 155;
  md_start := Some MAX_HEADER_LENGTH;
  md_tovec := [0]%nat;
  md_arms := [rule K_PrivateExtension (InsAny) 0 (Push)];
  md_final := [];
  md_init := [[]] |}.

(* ueregistrationqueryreq.rs: 10 (type), 36-41 (marshal), 43-67 (unmarshal), 69-79 (tovec), 81-100 (fromvec). *)
Definition md_ueregistrationqueryreq : message_def := {|
  md_name := "UeRegistrationQueryRequest"; md_type := 158;
  md_start := Some MAX_HEADER_LENGTH;
  md_tovec := [0; 1]%nat;
  md_arms := [rule K_Imsi (InsIs 0) 0 (MandLast 0);
    rule K_PrivateExtension (InsAny) 1 (Push)];
  md_final := [([(0%nat, false)], Some 1)];
  md_init := [[]; []] |}.

(* ueregistrationqueryresp.rs: 10 (type), 40-45 (marshal), 47-71 (unmarshal), 73-87 (tovec), 89-121 (fromvec). *)
Definition md_ueregistrationqueryresp : message_def := {|
  md_name := "UeRegistrationQueryResponse"; md_type := 159;
  md_start := Some MAX_HEADER_LENGTH;
  md_tovec := [0; 1; 2; 3]%nat;
  md_arms := [rule K_Cause (InsIs 0) 0 (MandFirst 0);
    rule K_Imsi (InsIs 0) 1 (MandFirst 1);
    rule K_PlmnId (InsIs 0) 2 (MandFirst 2);
    rule K_PrivateExtension (InsAny) 3 (Push)];
  md_final := [([(0%nat, true); (1%nat, true); (2%nat, true)], None); ([(0%nat, false)], Some 2); ([(1%nat, false)], Some 1); ([(2%nat, false)], Some 120)];
  md_init := [[]; []; []; []] |}.

(* updatebearerreq.rs: 10 (type), 67-72 (marshal), 74-98 (unmarshal), 100-163 (tovec), 165-258 (fromvec). The test bearer_ctxs.is_empty() is flag 1, set at each push. *)
Definition md_updatebearerreq : message_def := {|
  md_name := "UpdateBearerRequest"; md_type := 97;
  md_start := Some MAX_HEADER_LENGTH;
  md_tovec := [0; 1; 2; 3; 4; 5; 6; 7; 8; 9; 10; 11; 12; 13; 14; 15; 16]%nat;
  md_arms := [rule K_BearerContext (InsIs 0) 0 (PushMand 1);
    rule K_Pti (InsIs 0) 1 (OptFirst);
    rule K_Pco (InsIs 0) 2 (OptFirst);
    rule K_ApnAmbr (InsIs 0) 3 (MandFirst 0);
    rule K_ChangeReportingAction (InsIs 0) 4 (OptFirst);
    rule K_CSGInformationReportingAction (InsIs 0) 5 (OptFirst);
    rule K_HenbInfoReporting (InsIs 0) 6 (OptFirst);
    rule K_Indication (InsIs 0) 7 (OptFirst);
    rule K_Fqcsid (InsIs 0) 8 (OptFirst);
    rule K_Fqcsid (InsIs 1) 9 (OptFirst);
    rule K_PresenceReportingAreaAction (InsIs 0) 10 (OptFirst);
    rule K_LoadControlInfo (InsBelow 3) 11 (Push);
    rule K_OverloadControlInfo (InsBelow 2) 12 (Push);
    rule K_Fcontainer (InsIs 0) 13 (OptFirst);
    rule K_PgwChangeInfo (InsIs 0) 14 (Push);
    rule K_Fteid (InsIs 0) 15 (OptFirst);
    rule K_PrivateExtension (InsAny) 16 (Push)];
  md_final := [([(0%nat, false); (1%nat, false)], Some 93); ([(0%nat, false); (1%nat, true)], Some 72); ([(0%nat, true); (1%nat, false)], Some 93); ([(0%nat, true); (1%nat, true)], None)];
  md_init := [[]; []; []; []; []; []; []; []; []; []; []; []; []; []; []; []; []] |}.

(* updatebearerresp.rs: 10 (type), 77-82 (marshal), 84-108 (unmarshal), 110-183 (tovec), 185-295 (fromvec). *)
Definition md_updatebearerresp : message_def := {|
  md_name := "UpdateBearerResponse"; md_type := 98;
  md_start := Some MAX_HEADER_LENGTH;
  md_tovec := [0; 1; 2; 3; 4; 5; 6; 7; 8; 9; 10; 11; 12; 13; 14; 15; 16; 17; 18; 19; 20; 21]%nat;
  md_arms := [rule K_Cause (InsIs 0) 0 (MandFirst 0);
    rule K_BearerContext (InsIs 0) 1 (PushMand 1);
    rule K_Pco (InsIs 0) 2 (OptFirst);
    rule K_Recovery (InsIs 0) 3 (OptFirst);
    rule K_Fqcsid (InsIs 0) 4 (OptFirst);
    rule K_Fqcsid (InsIs 1) 5 (OptFirst);
    rule K_Fqcsid (InsIs 2) 6 (OptFirst);
    rule K_Fqcsid (InsIs 3) 7 (OptFirst);
    rule K_Indication (InsIs 0) 8 (OptFirst);
    rule K_UeTimeZone (InsIs 0) 9 (OptFirst);
    rule K_Uli (InsIs 0) 10 (OptFirst);
    rule K_TwanId (InsIs 0) 11 (OptFirst);
    rule K_TwanId (InsIs 1) 15 (OptFirst);
    rule K_OverloadControlInfo (InsBelow 3) 12 (Push);
    rule K_PresenceReportingAreaInformation (InsIs 0) 13 (OptFirst);
    rule K_IpAddress (InsIs 0) 14 (OptFirst);
    rule K_TwanIdTimeStamp (InsIs 1) 16 (OptFirst);
    rule K_PortNumber (InsIs 0) 17 (OptFirst);
    rule K_PortNumber (InsIs 1) 19 (OptFirst);
    rule K_Fcontainer (InsIs 0) 18 (OptFirst);
    rule K_PSCellId (InsIs 0) 20 (OptFirst);
    rule K_PrivateExtension (InsAny) 21 (Push)];
  md_final := [([(0%nat, false); (1%nat, false)], Some 2); ([(0%nat, false); (1%nat, true)], Some 2); ([(0%nat, true); (1%nat, false)], Some 93); ([(0%nat, true); (1%nat, true)], None)];
  md_init := [[]; []; []; []; []; []; []; []; []; []; []; []; []; []; []; []; []; []; []; []; []; []] |}.

(* updatepdnconnectionsetreq.rs: 10 (type), 39-44 (marshal), 46-70 (unmarshal), 72-88 (tovec), 90-111 (fromvec). *)
Definition md_updatepdnconnectionsetreq : message_def := {|
  md_name := "UpdatePdnConnectionSetRequest"; md_type := 200;
  md_start := Some MAX_HEADER_LENGTH;
  md_tovec := [0; 1; 2]%nat;
  md_arms := [rule K_Fqcsid (InsIs 0) 0 (OptFirst);
    rule K_Fqcsid (InsIs 1) 1 (OptFirst);
    rule K_PrivateExtension (InsAny) 2 (Push)];
  md_final := [];
  md_init := [[]; []; []] |}.

(* updatepdnconnectionsetresp.rs: 10 (type), 40-45 (marshal), 47-71 (unmarshal), 73-91 (tovec), 93-122 (fromvec). *)
Definition md_updatepdnconnectionsetresp : message_def := {|
  md_name := "UpdatePndConnectionSetResponse"; md_type := 201;
  md_start := Some MAX_HEADER_LENGTH;
  md_tovec := [0; 1; 2; 3]%nat;
  md_arms := [rule K_Cause (InsIs 0) 0 (MandLast 0);
    rule K_Fqcsid (InsIs 0) 1 (OptFirst);
    rule K_Recovery (InsIs 0) 2 (OptFirst);
    rule K_PrivateExtension (InsAny) 3 (Push)];
  md_final := [([(0%nat, false)], Some 2)];
  md_init := [[]; []; []; []] |}.

(* versionnotsupported.rs: 10 (type), 30-33 (marshal), 35-45 (unmarshal), 47-49 (tovec), 51-53 (fromvec). *)
Definition md_versionnotsupported : message_def := {|
  md_name := "VersionNotSupported"; md_type := 3;
  md_start := None;
  md_tovec := []%nat;
  md_arms := [];
  md_final := [];
  md_init := [] |}.
