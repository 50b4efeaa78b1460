(* The test vectors of the unit tests in /repo/src/gtpv2, run through the model.  These are tests of the
   transcription, not properties: every [Example] takes the octets of one test and says that the model's
   decoder returns the value (or the error) that the test expects, and, where the test (or its marshal
   twin) asks for it, that the model's encoder gives those octets back. *)
From Verif Require Import Base V2Base V2Decoder V2Msg V2MsgTables V2GroupedIe.
Local Open Scope N_scope.

(* gtpv2/header.rs, test_gtpv2_hdr_t0_unmarshal *)
Example header__test_gtpv2_hdr_t0_unmarshal : h2_unmarshal [64; 1; 0; 8; 109; 61; 124; 0] = Ok (mkHdr2 1 false None 8 None 7159164).
Proof. vm_compute. reflexivity. Qed.
Example header__test_gtpv2_hdr_t0_unmarshal_back : h2_marshal ((mkHdr2 1 false None 8 None 7159164)) = [64; 1; 0; 8; 109; 61; 124; 0].
Proof. vm_compute. reflexivity. Qed.
(* gtpv2/header.rs, test_gtpv2_hdr_t0_version_incorrect_unmarshal *)
Example header__test_gtpv2_hdr_t0_version_incorrect_unmarshal : h2_unmarshal [32; 1; 0; 6; 109; 61; 124; 0] = Err HeaderVersionNotSupported.
Proof. vm_compute. reflexivity. Qed.
(* gtpv2/header.rs, test_gtpv2_hdr_t0_invalid_length_unmarshal *)
Example header__test_gtpv2_hdr_t0_invalid_length_unmarshal : h2_unmarshal [64; 1; 0; 2; 109; 61; 124; 0] = Err (MessageInvalidLength 0).
Proof. vm_compute. reflexivity. Qed.
(* gtpv2/header.rs, test_gtpv2_hdr_t1_unmarshal *)
Example header__test_gtpv2_hdr_t1_unmarshal : h2_unmarshal [72; 52; 0; 12; 65; 118; 246; 30; 60; 234; 87; 0] = Ok (mkHdr2 52 false None 12 (Some
  1098315294) 3992151).
Proof. vm_compute. reflexivity. Qed.
Example header__test_gtpv2_hdr_t1_unmarshal_back : h2_marshal ((mkHdr2 52 false None 12 (Some 1098315294) 3992151)) = [72; 52; 0; 12; 65; 118; 246;
  30; 60; 234; 87; 0].
Proof. vm_compute. reflexivity. Qed.
(* gtpv2/header.rs, test_gtpv2_hdr_t1_invalid_length_unmarshal *)
Example header__test_gtpv2_hdr_t1_invalid_length_unmarshal : h2_unmarshal [72; 52; 0; 6; 65; 118; 246; 30; 60; 234; 87; 0] = Err (MessageInvalidLength
  0).
Proof. vm_compute. reflexivity. Qed.
(* gtpv2/header.rs, test_gtpv2_hdr_t1_with_msg_prio_unmarshal *)
Example header__test_gtpv2_hdr_t1_with_msg_prio_unmarshal : h2_unmarshal [76; 52; 0; 12; 65; 118; 246; 30; 60; 234; 87; 240] = Ok (mkHdr2 52 false
  (Some 15) 12 (Some 1098315294) 3992151).
Proof. vm_compute. reflexivity. Qed.
Example header__test_gtpv2_hdr_t1_with_msg_prio_unmarshal_back : h2_marshal ((mkHdr2 52 false (Some 15) 12 (Some 1098315294) 3992151)) = [76; 52; 0;
  12; 65; 118; 246; 30; 60; 234; 87; 240].
Proof. vm_compute. reflexivity. Qed.
(* gtpv2/messages/alertmmeacknowledge.rs, test_alert_mme_ack_unmarshal *)
Example alertmmeacknowledge__test_alert_mme_ack_unmarshal : msg_unmarshal md_alertmmeacknowledge Debug [72; 154; 0; 24; 164; 120; 149; 128; 75; 41;
  30; 0; 2; 0; 2; 0; 16; 0; 255; 0; 6; 0; 7; 219; 7; 0; 1; 0] = Ok (mkMsg (mkHdr2 154 false None 24 (Some 2759366016) 4925726) [[IE_Cause (mkIe 2 2 0
  (mkCause 16 false false false None))]; [IE_PrivateExtension (mkIe 255 6 0 (mkPrivateExt 2011 [7; 0; 1; 0]))]]).
Proof. vm_compute. reflexivity. Qed.
Example alertmmeacknowledge__test_alert_mme_ack_unmarshal_back : (fun x => msg_marshal md_alertmmeacknowledge x []) ((mkMsg (mkHdr2 154 false None 24
  (Some 2759366016) 4925726) [[IE_Cause (mkIe 2 2 0 (mkCause 16 false false false None))]; [IE_PrivateExtension (mkIe 255 6 0 (mkPrivateExt 2011 [7;
  0; 1; 0]))]])) = [72; 154; 0; 24; 164; 120; 149; 128; 75; 41; 30; 0; 2; 0; 2; 0; 16; 0; 255; 0; 6; 0; 7; 219; 7; 0; 1; 0].
Proof. vm_compute. reflexivity. Qed.
(* gtpv2/messages/alertmmenotification.rs, test_alert_mme_notification_unmarshal *)
Example alertmmenotification__test_alert_mme_notification_unmarshal : msg_unmarshal md_alertmmenotification Debug [72; 153; 0; 18; 164; 120; 149; 128;
  75; 41; 30; 0; 255; 0; 6; 0; 7; 219; 7; 0; 1; 0] = Ok (mkMsg (mkHdr2 153 false None 18 (Some 2759366016) 4925726) [[IE_PrivateExtension (mkIe 255 6
  0 (mkPrivateExt 2011 [7; 0; 1; 0]))]]).
Proof. vm_compute. reflexivity. Qed.
Example alertmmenotification__test_alert_mme_notification_unmarshal_back : (fun x => msg_marshal md_alertmmenotification x []) ((mkMsg (mkHdr2 153
  false None 18 (Some 2759366016) 4925726) [[IE_PrivateExtension (mkIe 255 6 0 (mkPrivateExt 2011 [7; 0; 1; 0]))]])) = [72; 153; 0; 18; 164; 120; 149;
  128; 75; 41; 30; 0; 255; 0; 6; 0; 7; 219; 7; 0; 1; 0].
Proof. vm_compute. reflexivity. Qed.
(* gtpv2/messages/bearerresourcecommand.rs, test_bearer_resource_command_unmarshal *)
Example bearerresourcecommand__test_bearer_resource_command_unmarshal : msg_unmarshal md_bearerresourcecommand Debug [72; 68; 0; 151; 0; 0; 0; 0; 0;
  0; 104; 0; 73; 0; 1; 0; 5; 100; 0; 1; 0; 255; 85; 0; 4; 0; 0; 0; 0; 0; 82; 0; 1; 0; 6; 83; 0; 3; 0; 98; 242; 16; 86; 0; 13; 0; 24; 98; 242; 16; 11;
  217; 98; 242; 16; 1; 186; 64; 2; 78; 0; 35; 0; 128; 128; 33; 16; 1; 0; 0; 16; 129; 6; 0; 0; 0; 0; 131; 6; 0; 0; 0; 0; 0; 13; 0; 0; 3; 0; 0; 10; 0;
  0; 5; 0; 0; 16; 0; 180; 0; 18; 0; 183; 0; 4; 0; 255; 170; 238; 17; 182; 0; 1; 0; 96; 156; 0; 1; 0; 127; 180; 0; 18; 1; 183; 0; 4; 0; 255; 170; 238;
  34; 182; 0; 1; 0; 96; 156; 0; 1; 0; 126; 87; 0; 9; 2; 134; 6; 209; 130; 76; 193; 254; 139; 45] = Ok (mkMsg (mkHdr2 68 false None 151 (Some 0) 104)
  [[IE_Ebi (mkIe 73 1 0 5)]; [IE_Pti (mkIe 100 1 0 255)]; []; [IE_TrafficAggregateDescription (mkIe 85 4 0 [0; 0; 0; 0])]; [IE_RatType (mkIe 82 1 0
  Rat_Eutran)]; [IE_ServingNetwork (mkIe 83 3 0 (mkPlmn 262 1 false))]; [IE_Uli (mkIe 86 13 0 [Loc_Tai (mkTai (mkPlmn 262 1 false) 3033); Loc_Ecgi
  (mkEcgi (mkPlmn 262 1 false) 28983298)])]; []; []; []; []; [IE_Pco (mkIe 78 35 0 [128; 128; 33; 16; 1; 0; 0; 16; 129; 6; 0; 0; 0; 0; 131; 6; 0; 0;
  0; 0; 0; 13; 0; 0; 3; 0; 0; 10; 0; 0; 5; 0; 0; 16; 0])]; []; [IE_OverloadControlInfo (mkIe 180 18 0 (mkOverloadControlInfo (mkIe 183 4 0 4289392145)
  (mkIe 182 1 0 96) (mkIe 156 1 0 (mkEpcTimer 3 31)) None)); IE_OverloadControlInfo (mkIe 180 18 1 (mkOverloadControlInfo (mkIe 183 4 0 4289392162)
  (mkIe 182 1 0 96) (mkIe 156 1 0 (mkEpcTimer 3 30)) None))]; []; []; [IE_Fteid (mkIe 87 9 2 (mkFteid 6 114393676 (Some [193; 254; 139; 45]) None))];
  []; []]).
Proof. vm_compute. reflexivity. Qed.
Example bearerresourcecommand__test_bearer_resource_command_unmarshal_back : (fun x => msg_marshal md_bearerresourcecommand x []) ((mkMsg (mkHdr2 68
  false None 151 (Some 0) 104) [[IE_Ebi (mkIe 73 1 0 5)]; [IE_Pti (mkIe 100 1 0 255)]; []; [IE_TrafficAggregateDescription (mkIe 85 4 0 [0; 0; 0;
  0])]; [IE_RatType (mkIe 82 1 0 Rat_Eutran)]; [IE_ServingNetwork (mkIe 83 3 0 (mkPlmn 262 1 false))]; [IE_Uli (mkIe 86 13 0 [Loc_Tai (mkTai (mkPlmn
  262 1 false) 3033); Loc_Ecgi (mkEcgi (mkPlmn 262 1 false) 28983298)])]; []; []; []; []; [IE_Pco (mkIe 78 35 0 [128; 128; 33; 16; 1; 0; 0; 16; 129;
  6; 0; 0; 0; 0; 131; 6; 0; 0; 0; 0; 0; 13; 0; 0; 3; 0; 0; 10; 0; 0; 5; 0; 0; 16; 0])]; []; [IE_OverloadControlInfo (mkIe 180 18 0
  (mkOverloadControlInfo (mkIe 183 4 0 4289392145) (mkIe 182 1 0 96) (mkIe 156 1 0 (mkEpcTimer 3 31)) None)); IE_OverloadControlInfo (mkIe 180 18 1
  (mkOverloadControlInfo (mkIe 183 4 0 4289392162) (mkIe 182 1 0 96) (mkIe 156 1 0 (mkEpcTimer 3 30)) None))]; []; []; [IE_Fteid (mkIe 87 9 2 (mkFteid
  6 114393676 (Some [193; 254; 139; 45]) None))]; []; []])) = [72; 68; 0; 151; 0; 0; 0; 0; 0; 0; 104; 0; 73; 0; 1; 0; 5; 100; 0; 1; 0; 255; 85; 0; 4;
  0; 0; 0; 0; 0; 82; 0; 1; 0; 6; 83; 0; 3; 0; 98; 242; 16; 86; 0; 13; 0; 24; 98; 242; 16; 11; 217; 98; 242; 16; 1; 186; 64; 2; 78; 0; 35; 0; 128; 128;
  33; 16; 1; 0; 0; 16; 129; 6; 0; 0; 0; 0; 131; 6; 0; 0; 0; 0; 0; 13; 0; 0; 3; 0; 0; 10; 0; 0; 5; 0; 0; 16; 0; 180; 0; 18; 0; 183; 0; 4; 0; 255; 170;
  238; 17; 182; 0; 1; 0; 96; 156; 0; 1; 0; 127; 180; 0; 18; 1; 183; 0; 4; 0; 255; 170; 238; 34; 182; 0; 1; 0; 96; 156; 0; 1; 0; 126; 87; 0; 9; 2; 134;
  6; 209; 130; 76; 193; 254; 139; 45].
Proof. vm_compute. reflexivity. Qed.
(* gtpv2/messages/bearerresourcefailureind.rs, test_bearer_failure_ind_unmarshal *)
Example bearerresourcefailureind__test_bearer_failure_ind_unmarshal : msg_unmarshal md_bearerresourcefailureind Debug [72; 69; 0; 68; 0; 0; 0; 0; 0;
  0; 104; 0; 2; 0; 2; 0; 77; 0; 73; 0; 1; 0; 5; 100; 0; 1; 0; 255; 180; 0; 18; 0; 183; 0; 4; 0; 255; 170; 238; 17; 182; 0; 1; 0; 96; 156; 0; 1; 0;
  127; 180; 0; 18; 1; 183; 0; 4; 0; 255; 170; 238; 34; 182; 0; 1; 0; 96; 156; 0; 1; 0; 126] = Ok (mkMsg (mkHdr2 69 false None 68 (Some 0) 104)
  [[IE_Cause (mkIe 2 2 0 (mkCause 77 false false false None))]; [IE_Ebi (mkIe 73 1 0 5)]; [IE_Pti (mkIe 100 1 0 255)]; []; [IE_OverloadControlInfo
  (mkIe 180 18 0 (mkOverloadControlInfo (mkIe 183 4 0 4289392145) (mkIe 182 1 0 96) (mkIe 156 1 0 (mkEpcTimer 3 31)) None)); IE_OverloadControlInfo
  (mkIe 180 18 1 (mkOverloadControlInfo (mkIe 183 4 0 4289392162) (mkIe 182 1 0 96) (mkIe 156 1 0 (mkEpcTimer 3 30)) None))]; []; []; []]).
Proof. vm_compute. reflexivity. Qed.
Example bearerresourcefailureind__test_bearer_failure_ind_unmarshal_back : (fun x => msg_marshal md_bearerresourcefailureind x []) ((mkMsg (mkHdr2 69
  false None 68 (Some 0) 104) [[IE_Cause (mkIe 2 2 0 (mkCause 77 false false false None))]; [IE_Ebi (mkIe 73 1 0 5)]; [IE_Pti (mkIe 100 1 0 255)]; [];
  [IE_OverloadControlInfo (mkIe 180 18 0 (mkOverloadControlInfo (mkIe 183 4 0 4289392145) (mkIe 182 1 0 96) (mkIe 156 1 0 (mkEpcTimer 3 31)) None));
  IE_OverloadControlInfo (mkIe 180 18 1 (mkOverloadControlInfo (mkIe 183 4 0 4289392162) (mkIe 182 1 0 96) (mkIe 156 1 0 (mkEpcTimer 3 30)) None))];
  []; []; []])) = [72; 69; 0; 68; 0; 0; 0; 0; 0; 0; 104; 0; 2; 0; 2; 0; 77; 0; 73; 0; 1; 0; 5; 100; 0; 1; 0; 255; 180; 0; 18; 0; 183; 0; 4; 0; 255;
  170; 238; 17; 182; 0; 1; 0; 96; 156; 0; 1; 0; 127; 180; 0; 18; 1; 183; 0; 4; 0; 255; 170; 238; 34; 182; 0; 1; 0; 96; 156; 0; 1; 0; 126].
Proof. vm_compute. reflexivity. Qed.
(* gtpv2/messages/changenotificationreq.rs, test_change_notification_req_unmarshal *)
Example changenotificationreq__test_change_notification_req_unmarshal : msg_unmarshal md_changenotificationreq Debug [72; 38; 0; 121; 230; 77; 164;
  239; 38; 0; 46; 0; 1; 0; 8; 0; 9; 65; 80; 1; 1; 55; 120; 244; 75; 0; 8; 0; 104; 73; 41; 80; 1; 80; 148; 112; 82; 0; 1; 0; 6; 86; 0; 13; 0; 24; 50;
  244; 2; 13; 89; 50; 244; 2; 0; 197; 88; 2; 73; 0; 1; 0; 5; 178; 0; 8; 0; 0; 0; 0; 5; 0; 0; 255; 2; 199; 0; 5; 0; 238; 107; 40; 0; 9; 201; 0; 27; 0;
  3; 0; 5; 0; 0; 0; 255; 0; 0; 255; 255; 0; 0; 0; 0; 255; 255; 255; 0; 0; 0; 0; 0; 0; 0; 255; 255; 255; 0; 6; 0; 7; 219; 7; 0; 1; 0] = Ok (mkMsg
  (mkHdr2 38 false None 121 (Some 3863848175) 2490414) [[IE_Imsi (mkIe 1 8 0 [57; 48; 49; 52; 48; 53; 49; 48; 49; 48; 55; 51; 56; 55; 52])]; [IE_Mei
  (mkIe 75 8 0 [56; 54; 57; 52; 57; 50; 48; 53; 49; 48; 48; 53; 52; 57; 48; 55])]; []; [IE_RatType (mkIe 82 1 0 Rat_Eutran)]; [IE_Uli (mkIe 86 13 0
  [Loc_Tai (mkTai (mkPlmn 234 20 false) 3417); Loc_Ecgi (mkEcgi (mkPlmn 234 20 false) 12933122)])]; []; []; [IE_Ebi (mkIe 73 1 0 5)];
  [IE_PresenceReportingAreaInformation (mkIe 178 8 0 (mkPrai (Ipra 0) (Some [Opra 255])))]; [IE_Counter (mkIe 199 5 0 (mkCounter 4000000000 9))];
  [IE_SecondaryRatUsageDataReport (mkIe 201 27 0 (mkRatReport true true 0 5 255 65535 4294967040 65535 None))]; []; [IE_PrivateExtension (mkIe 255 6 0
  (mkPrivateExt 2011 [7; 0; 1; 0]))]]).
Proof. vm_compute. reflexivity. Qed.
Example changenotificationreq__test_change_notification_req_unmarshal_back : (fun x => msg_marshal md_changenotificationreq x []) ((mkMsg (mkHdr2 38
  false None 121 (Some 3863848175) 2490414) [[IE_Imsi (mkIe 1 8 0 [57; 48; 49; 52; 48; 53; 49; 48; 49; 48; 55; 51; 56; 55; 52])]; [IE_Mei (mkIe 75 8 0
  [56; 54; 57; 52; 57; 50; 48; 53; 49; 48; 48; 53; 52; 57; 48; 55])]; []; [IE_RatType (mkIe 82 1 0 Rat_Eutran)]; [IE_Uli (mkIe 86 13 0 [Loc_Tai (mkTai
  (mkPlmn 234 20 false) 3417); Loc_Ecgi (mkEcgi (mkPlmn 234 20 false) 12933122)])]; []; []; [IE_Ebi (mkIe 73 1 0 5)];
  [IE_PresenceReportingAreaInformation (mkIe 178 8 0 (mkPrai (Ipra 0) (Some [Opra 255])))]; [IE_Counter (mkIe 199 5 0 (mkCounter 4000000000 9))];
  [IE_SecondaryRatUsageDataReport (mkIe 201 27 0 (mkRatReport true true 0 5 255 65535 4294967040 65535 None))]; []; [IE_PrivateExtension (mkIe 255 6 0
  (mkPrivateExt 2011 [7; 0; 1; 0]))]])) = [72; 38; 0; 121; 230; 77; 164; 239; 38; 0; 46; 0; 1; 0; 8; 0; 9; 65; 80; 1; 1; 55; 120; 244; 75; 0; 8; 0;
  104; 73; 41; 80; 1; 80; 148; 112; 82; 0; 1; 0; 6; 86; 0; 13; 0; 24; 50; 244; 2; 13; 89; 50; 244; 2; 0; 197; 88; 2; 73; 0; 1; 0; 5; 178; 0; 8; 0; 0;
  0; 0; 5; 0; 0; 255; 2; 199; 0; 5; 0; 238; 107; 40; 0; 9; 201; 0; 27; 0; 3; 0; 5; 0; 0; 0; 255; 0; 0; 255; 255; 0; 0; 0; 0; 255; 255; 255; 0; 0; 0;
  0; 0; 0; 0; 255; 255; 255; 0; 6; 0; 7; 219; 7; 0; 1; 0].
Proof. vm_compute. reflexivity. Qed.
(* gtpv2/messages/changenotificationresp.rs, test_change_notification_resp_unmarshal *)
Example changenotificationresp__test_change_notification_resp_unmarshal : msg_unmarshal md_changenotificationresp Debug [72; 39; 0; 114; 164; 120;
  149; 128; 75; 41; 30; 0; 1; 0; 8; 0; 9; 65; 80; 1; 1; 55; 120; 244; 75; 0; 8; 0; 104; 73; 41; 80; 1; 80; 148; 112; 2; 0; 2; 0; 16; 0; 131; 0; 1; 0;
  1; 146; 0; 1; 0; 7; 177; 0; 62; 0; 1; 255; 255; 255; 17; 1; 1; 1; 1; 1; 98; 242; 16; 11; 217; 98; 242; 16; 255; 255; 255; 98; 242; 16; 255; 255;
  255; 98; 242; 16; 1; 186; 64; 2; 98; 242; 16; 255; 255; 170; 255; 98; 242; 16; 255; 255; 221; 221; 98; 242; 16; 255; 255; 170; 170; 1; 98; 242; 16;
  15; 255; 255] = Ok (mkMsg (mkHdr2 39 false None 114 (Some 2759366016) 4925726) [[IE_Imsi (mkIe 1 8 0 [57; 48; 49; 52; 48; 53; 49; 48; 49; 48; 55;
  51; 56; 55; 52])]; [IE_Mei (mkIe 75 8 0 [56; 54; 57; 52; 57; 50; 48; 53; 49; 48; 48; 53; 52; 57; 48; 55])]; [IE_Cause (mkIe 2 2 0 (mkCause 16 false
  false false None))]; [IE_ChangeReportingAction (mkIe 131 1 0 1)]; [IE_CSGInformationReportingAction (mkIe 146 1 0 7)];
  [IE_PresenceReportingAreaAction (mkIe 177 62 0 (mkPraa false 1 16777215 [mkTai (mkPlmn 262 1 false) 3033] [mkRai (mkPlmn 262 1 false) 65535 170]
  [mkMacroEnb (mkPlmn 262 1 false) 16777215] [mkMacroEnb (mkPlmn 262 1 false) 16777215] [mkEcgi (mkPlmn 262 1 false) 28983298] [mkSai (mkPlmn 262 1
  false) 65535 56797] [mkCgi (mkPlmn 262 1 false) 65535 43690] [mkExtMacroEnb (mkPlmn 262 1 false) false 1048575]))]; []]).
Proof. vm_compute. reflexivity. Qed.
Example changenotificationresp__test_change_notification_resp_unmarshal_back : (fun x => msg_marshal md_changenotificationresp x []) ((mkMsg (mkHdr2
  39 false None 114 (Some 2759366016) 4925726) [[IE_Imsi (mkIe 1 8 0 [57; 48; 49; 52; 48; 53; 49; 48; 49; 48; 55; 51; 56; 55; 52])]; [IE_Mei (mkIe 75
  8 0 [56; 54; 57; 52; 57; 50; 48; 53; 49; 48; 48; 53; 52; 57; 48; 55])]; [IE_Cause (mkIe 2 2 0 (mkCause 16 false false false None))];
  [IE_ChangeReportingAction (mkIe 131 1 0 1)]; [IE_CSGInformationReportingAction (mkIe 146 1 0 7)]; [IE_PresenceReportingAreaAction (mkIe 177 62 0
  (mkPraa false 1 16777215 [mkTai (mkPlmn 262 1 false) 3033] [mkRai (mkPlmn 262 1 false) 65535 170] [mkMacroEnb (mkPlmn 262 1 false) 16777215]
  [mkMacroEnb (mkPlmn 262 1 false) 16777215] [mkEcgi (mkPlmn 262 1 false) 28983298] [mkSai (mkPlmn 262 1 false) 65535 56797] [mkCgi (mkPlmn 262 1
  false) 65535 43690] [mkExtMacroEnb (mkPlmn 262 1 false) false 1048575]))]; []])) = [72; 39; 0; 114; 164; 120; 149; 128; 75; 41; 30; 0; 1; 0; 8; 0;
  9; 65; 80; 1; 1; 55; 120; 244; 75; 0; 8; 0; 104; 73; 41; 80; 1; 80; 148; 112; 2; 0; 2; 0; 16; 0; 131; 0; 1; 0; 1; 146; 0; 1; 0; 7; 177; 0; 62; 0; 1;
  255; 255; 255; 17; 1; 1; 1; 1; 1; 98; 242; 16; 11; 217; 98; 242; 16; 255; 255; 255; 98; 242; 16; 255; 255; 255; 98; 242; 16; 1; 186; 64; 2; 98; 242;
  16; 255; 255; 170; 255; 98; 242; 16; 255; 255; 221; 221; 98; 242; 16; 255; 255; 170; 170; 1; 98; 242; 16; 15; 255; 255].
Proof. vm_compute. reflexivity. Qed.
(* gtpv2/messages/contextacknowledge.rs, test_ctx_ack_unmarshal *)
Example contextacknowledge__test_ctx_ack_unmarshal : msg_unmarshal md_contextacknowledge Debug [72; 132; 0; 125; 164; 120; 149; 128; 75; 41; 30; 0; 2;
  0; 2; 0; 16; 0; 87; 0; 9; 0; 151; 39; 137; 47; 112; 139; 7; 133; 184; 93; 0; 31; 0; 73; 0; 1; 0; 5; 80; 0; 22; 0; 100; 9; 0; 0; 0; 0; 0; 0; 0; 0; 0;
  0; 0; 0; 0; 0; 0; 0; 0; 0; 0; 0; 93; 0; 31; 0; 73; 0; 1; 0; 6; 80; 0; 22; 0; 100; 9; 0; 0; 0; 0; 0; 0; 0; 0; 0; 0; 0; 0; 0; 0; 0; 0; 0; 0; 0; 0;
  175; 0; 10; 0; 9; 145; 153; 65; 80; 1; 145; 22; 120; 243; 175; 0; 10; 2; 9; 145; 153; 65; 80; 1; 145; 22; 120; 243] = Ok (mkMsg (mkHdr2 132 false
  None 125 (Some 2759366016) 4925726) [[IE_Cause (mkIe 2 2 0 (mkCause 16 false false false None))]; []; [IE_Fteid (mkIe 87 9 0 (mkFteid 23 663302000
  (Some [139; 7; 133; 184]) None))]; [IE_BearerContext (mkIe 93 31 0 (mkBearerContext (mkIe 73 1 0 5) None None [] (Some (mkIe 80 22 0 (mkBearerQos 0
  9 1 9 0 0 0 0))) None None None None None None None None None)); IE_BearerContext (mkIe 93 31 0 (mkBearerContext (mkIe 73 1 0 6) None None [] (Some
  (mkIe 80 22 0 (mkBearerQos 0 9 1 9 0 0 0 0))) None None None None None None None None None))]; [IE_NodeNumber (mkIe 175 10 0 [57; 57; 49; 52; 48;
  53; 49; 48; 49; 57; 54; 49; 56; 55; 51]); IE_NodeNumber (mkIe 175 10 2 [57; 57; 49; 52; 48; 53; 49; 48; 49; 57; 54; 49; 56; 55; 51])]; []; []]).
Proof. vm_compute. reflexivity. Qed.
Example contextacknowledge__test_ctx_ack_unmarshal_back : (fun x => msg_marshal md_contextacknowledge x []) ((mkMsg (mkHdr2 132 false None 125 (Some
  2759366016) 4925726) [[IE_Cause (mkIe 2 2 0 (mkCause 16 false false false None))]; []; [IE_Fteid (mkIe 87 9 0 (mkFteid 23 663302000 (Some [139; 7;
  133; 184]) None))]; [IE_BearerContext (mkIe 93 31 0 (mkBearerContext (mkIe 73 1 0 5) None None [] (Some (mkIe 80 22 0 (mkBearerQos 0 9 1 9 0 0 0
  0))) None None None None None None None None None)); IE_BearerContext (mkIe 93 31 0 (mkBearerContext (mkIe 73 1 0 6) None None [] (Some (mkIe 80 22
  0 (mkBearerQos 0 9 1 9 0 0 0 0))) None None None None None None None None None))]; [IE_NodeNumber (mkIe 175 10 0 [57; 57; 49; 52; 48; 53; 49; 48;
  49; 57; 54; 49; 56; 55; 51]); IE_NodeNumber (mkIe 175 10 2 [57; 57; 49; 52; 48; 53; 49; 48; 49; 57; 54; 49; 56; 55; 51])]; []; []])) = [72; 132; 0;
  125; 164; 120; 149; 128; 75; 41; 30; 0; 2; 0; 2; 0; 16; 0; 87; 0; 9; 0; 151; 39; 137; 47; 112; 139; 7; 133; 184; 93; 0; 31; 0; 73; 0; 1; 0; 5; 80;
  0; 22; 0; 100; 9; 0; 0; 0; 0; 0; 0; 0; 0; 0; 0; 0; 0; 0; 0; 0; 0; 0; 0; 0; 0; 93; 0; 31; 0; 73; 0; 1; 0; 6; 80; 0; 22; 0; 100; 9; 0; 0; 0; 0; 0; 0;
  0; 0; 0; 0; 0; 0; 0; 0; 0; 0; 0; 0; 0; 0; 175; 0; 10; 0; 9; 145; 153; 65; 80; 1; 145; 22; 120; 243; 175; 0; 10; 2; 9; 145; 153; 65; 80; 1; 145; 22;
  120; 243].
Proof. vm_compute. reflexivity. Qed.
(* gtpv2/messages/contextreq.rs, test_ctx_req_unmarshal *)
Example contextreq__test_ctx_req_unmarshal : msg_unmarshal md_contextreq Debug [72; 130; 0; 74; 164; 120; 149; 128; 75; 41; 30; 0; 1; 0; 8; 0; 153;
  65; 85; 1; 145; 22; 120; 243; 117; 0; 10; 0; 153; 249; 16; 1; 44; 10; 255; 255; 255; 255; 111; 0; 4; 0; 255; 255; 255; 255; 116; 0; 6; 0; 1; 170;
  187; 204; 221; 238; 82; 0; 1; 0; 6; 83; 0; 3; 0; 153; 249; 16; 255; 0; 6; 0; 0; 0; 1; 98; 156; 196] = Ok (mkMsg (mkHdr2 130 false None 74 (Some
  2759366016) 4925726) [[IE_Imsi (mkIe 1 8 0 [57; 57; 49; 52; 53; 53; 49; 48; 49; 57; 54; 49; 56; 55; 51])]; [IE_Guti (mkIe 117 10 0 (mkGuti (mkPlmn
  999 1 false) 300 10 4294967295))]; []; [IE_Ptmsi (mkIe 111 4 0 4294967295)]; []; [IE_CompleteRequestMessage (mkIe 116 6 0 (ReqTau [170; 187; 204;
  221; 238]))]; []; []; [IE_RatType (mkIe 82 1 0 Rat_Eutran)]; []; []; [IE_ServingNetwork (mkIe 83 3 0 (mkPlmn 999 1 false))]; []; []; []; []; []; [];
  []; [IE_PrivateExtension (mkIe 255 6 0 (mkPrivateExt 0 [1; 98; 156; 196]))]]).
Proof. vm_compute. reflexivity. Qed.
Example contextreq__test_ctx_req_unmarshal_back : (fun x => msg_marshal md_contextreq x []) ((mkMsg (mkHdr2 130 false None 74 (Some 2759366016)
  4925726) [[IE_Imsi (mkIe 1 8 0 [57; 57; 49; 52; 53; 53; 49; 48; 49; 57; 54; 49; 56; 55; 51])]; [IE_Guti (mkIe 117 10 0 (mkGuti (mkPlmn 999 1 false)
  300 10 4294967295))]; []; [IE_Ptmsi (mkIe 111 4 0 4294967295)]; []; [IE_CompleteRequestMessage (mkIe 116 6 0 (ReqTau [170; 187; 204; 221; 238]))];
  []; []; [IE_RatType (mkIe 82 1 0 Rat_Eutran)]; []; []; [IE_ServingNetwork (mkIe 83 3 0 (mkPlmn 999 1 false))]; []; []; []; []; []; []; [];
  [IE_PrivateExtension (mkIe 255 6 0 (mkPrivateExt 0 [1; 98; 156; 196]))]])) = [72; 130; 0; 74; 164; 120; 149; 128; 75; 41; 30; 0; 1; 0; 8; 0; 153;
  65; 85; 1; 145; 22; 120; 243; 117; 0; 10; 0; 153; 249; 16; 1; 44; 10; 255; 255; 255; 255; 111; 0; 4; 0; 255; 255; 255; 255; 116; 0; 6; 0; 1; 170;
  187; 204; 221; 238; 82; 0; 1; 0; 6; 83; 0; 3; 0; 153; 249; 16; 255; 0; 6; 0; 0; 0; 1; 98; 156; 196].
Proof. vm_compute. reflexivity. Qed.
(* gtpv2/messages/contextresp.rs, test_ctx_resp_unmarshal *)
Example contextresp__test_ctx_resp_unmarshal : msg_unmarshal md_contextresp Debug [72; 131; 1; 177; 164; 120; 149; 128; 75; 41; 30; 0; 2; 0; 2; 0; 22;
  0; 107; 1; 136; 0; 152; 39; 129; 39; 0; 255; 255; 255; 255; 255; 255; 255; 255; 255; 255; 255; 255; 255; 255; 255; 255; 255; 255; 255; 255; 255;
  255; 255; 255; 255; 255; 255; 255; 255; 255; 255; 255; 255; 255; 255; 255; 1; 2; 3; 4; 5; 6; 7; 8; 9; 10; 11; 12; 13; 14; 15; 16; 3; 2; 7; 8; 3; 3;
  9; 10; 11; 12; 13; 14; 15; 0; 0; 0; 0; 0; 0; 0; 0; 0; 0; 0; 0; 0; 0; 0; 0; 0; 0; 0; 0; 0; 0; 0; 0; 0; 0; 0; 1; 2; 3; 4; 5; 6; 7; 8; 9; 10; 11; 12;
  13; 14; 15; 16; 3; 2; 7; 8; 1; 2; 3; 4; 5; 6; 7; 8; 9; 10; 11; 12; 13; 14; 15; 16; 1; 2; 3; 4; 5; 6; 7; 8; 9; 10; 11; 12; 13; 14; 15; 16; 3; 3; 9;
  10; 1; 2; 170; 170; 170; 170; 170; 170; 170; 170; 170; 170; 170; 170; 170; 170; 170; 170; 170; 170; 170; 170; 170; 170; 170; 170; 170; 170; 170;
  170; 170; 170; 170; 170; 5; 0; 0; 7; 208; 0; 0; 31; 64; 0; 0; 7; 208; 0; 0; 31; 64; 4; 1; 2; 3; 4; 4; 1; 2; 3; 4; 4; 1; 2; 3; 4; 0; 173; 255; 255;
  255; 255; 255; 255; 255; 255; 255; 255; 255; 255; 255; 255; 255; 255; 255; 255; 255; 255; 255; 255; 255; 255; 255; 255; 255; 255; 255; 255; 255;
  255; 255; 255; 255; 255; 255; 255; 255; 255; 255; 255; 255; 255; 255; 255; 255; 255; 255; 255; 255; 255; 255; 255; 255; 255; 255; 255; 255; 255;
  255; 255; 255; 255; 4; 1; 2; 3; 4; 4; 1; 2; 3; 4; 1; 3; 4; 1; 2; 3; 4; 4; 1; 2; 3; 4; 2; 0; 34; 0; 12; 116; 101; 115; 116; 46; 97; 112; 110; 46; 99;
  111; 109; 18; 52; 86; 120; 18; 52; 86; 120; 18; 52; 86; 120; 1; 2; 3; 4; 5; 6; 7; 8; 0; 35; 0; 13; 116; 101; 115; 116; 50; 46; 97; 112; 110; 46; 99;
  111; 109; 18; 52; 86; 120; 18; 52; 86; 120; 18; 52; 86; 120; 1; 2; 3; 4; 5; 6; 7; 8; 4; 1; 2; 3; 4; 4; 1; 2; 3; 4; 2; 87; 0; 9; 0; 134; 39; 137; 47;
  112; 139; 7; 133; 184; 255; 0; 6; 0; 7; 219; 7; 0; 1; 0] = Ok (mkMsg (mkHdr2 131 false None 433 (Some 2759366016) 4925726) [[IE_Cause (mkIe 2 2 0
  (mkCause 22 false false false None))]; []; [IE_MmContext (MmEps (mkIe 107 392 0 (mkMmEps SecurityMode_EpsSecurityContextAndQuadruplets 0
  NasIntegrityProtectionValues_NoIntegrity NasCipherValues_Eea1 2556159 16777215 [255; 255; 255; 255; 255; 255; 255; 255; 255; 255; 255; 255; 255;
  255; 255; 255; 255; 255; 255; 255; 255; 255; 255; 255; 255; 255; 255; 255; 255; 255; 255; 255] (Some [mkQuad [1; 2; 3; 4; 5; 6; 7; 8; 9; 10; 11; 12;
  13; 14; 15; 16] [2; 7; 8] [3; 9; 10] [11; 12; 13; 14; 15; 0; 0; 0; 0; 0; 0; 0; 0; 0; 0; 0; 0; 0; 0; 0; 0; 0; 0; 0; 0; 0; 0; 0; 0; 0; 0; 0]]) (Some
  [mkQuint [1; 2; 3; 4; 5; 6; 7; 8; 9; 10; 11; 12; 13; 14; 15; 16] [2; 7; 8] [1; 2; 3; 4; 5; 6; 7; 8; 9; 10; 11; 12; 13; 14; 15; 16] [1; 2; 3; 4; 5;
  6; 7; 8; 9; 10; 11; 12; 13; 14; 15; 16] [3; 9; 10]]) (Some [1; 2]) (Some [170; 170; 170; 170; 170; 170; 170; 170; 170; 170; 170; 170; 170; 170; 170;
  170; 170; 170; 170; 170; 170; 170; 170; 170; 170; 170; 170; 170; 170; 170; 170; 170]) (Some 5) (Some (mkAmbrMm 2000 8000)) (Some (mkAmbrMm 2000
  8000)) (Some [1; 2; 3; 4]) (Some [1; 2; 3; 4]) (Some [1; 2; 3; 4]) (mkAccessRestriction false false false false false false false false) (Some
  (mkOldEps 5 (Some 5) [255; 255; 255; 255; 255; 255; 255; 255; 255; 255; 255; 255; 255; 255; 255; 255; 255; 255; 255; 255; 255; 255; 255; 255; 255;
  255; 255; 255; 255; 255; 255; 255] (Some [255; 255; 255; 255; 255; 255; 255; 255; 255; 255; 255; 255; 255; 255; 255; 255; 255; 255; 255; 255; 255;
  255; 255; 255; 255; 255; 255; 255; 255; 255; 255; 255]))) (Some [1; 2; 3; 4]) (Some [1; 2; 3; 4]) (Some (mkExtAccessRestriction false false false
  true true)) (Some [1; 2; 3; 4]) (Some [1; 2; 3; 4]) (Some [mkApnRateMm [116; 101; 115; 116; 46; 97; 112; 110; 46; 99; 111; 109] 305419896 305419896
  305419896 [1; 2; 3; 4; 5; 6; 7; 8]; mkApnRateMm [116; 101; 115; 116; 50; 46; 97; 112; 110; 46; 99; 111; 109] 305419896 305419896 305419896 [1; 2; 3;
  4; 5; 6; 7; 8]]) (Some [1; 2; 3; 4]) (Some [1; 2; 3; 4]) (Some 2))))]; []; [IE_Fteid (mkIe 87 9 0 (mkFteid 6 663302000 (Some [139; 7; 133; 184])
  None))]; []; []; []; []; []; []; []; []; []; []; []; []; []; []; []; []; []; []; []; []; []; []; [IE_PrivateExtension (mkIe 255 6 0 (mkPrivateExt
  2011 [7; 0; 1; 0]))]]).
Proof. vm_compute. reflexivity. Qed.
Example contextresp__test_ctx_resp_unmarshal_back : (fun x => msg_marshal md_contextresp x []) ((mkMsg (mkHdr2 131 false None 433 (Some 2759366016)
  4925726) [[IE_Cause (mkIe 2 2 0 (mkCause 22 false false false None))]; []; [IE_MmContext (MmEps (mkIe 107 392 0 (mkMmEps
  SecurityMode_EpsSecurityContextAndQuadruplets 0 NasIntegrityProtectionValues_NoIntegrity NasCipherValues_Eea1 2556159 16777215 [255; 255; 255; 255;
  255; 255; 255; 255; 255; 255; 255; 255; 255; 255; 255; 255; 255; 255; 255; 255; 255; 255; 255; 255; 255; 255; 255; 255; 255; 255; 255; 255] (Some
  [mkQuad [1; 2; 3; 4; 5; 6; 7; 8; 9; 10; 11; 12; 13; 14; 15; 16] [2; 7; 8] [3; 9; 10] [11; 12; 13; 14; 15; 0; 0; 0; 0; 0; 0; 0; 0; 0; 0; 0; 0; 0; 0;
  0; 0; 0; 0; 0; 0; 0; 0; 0; 0; 0; 0; 0]]) (Some [mkQuint [1; 2; 3; 4; 5; 6; 7; 8; 9; 10; 11; 12; 13; 14; 15; 16] [2; 7; 8] [1; 2; 3; 4; 5; 6; 7; 8;
  9; 10; 11; 12; 13; 14; 15; 16] [1; 2; 3; 4; 5; 6; 7; 8; 9; 10; 11; 12; 13; 14; 15; 16] [3; 9; 10]]) (Some [1; 2]) (Some [170; 170; 170; 170; 170;
  170; 170; 170; 170; 170; 170; 170; 170; 170; 170; 170; 170; 170; 170; 170; 170; 170; 170; 170; 170; 170; 170; 170; 170; 170; 170; 170]) (Some 5)
  (Some (mkAmbrMm 2000 8000)) (Some (mkAmbrMm 2000 8000)) (Some [1; 2; 3; 4]) (Some [1; 2; 3; 4]) (Some [1; 2; 3; 4]) (mkAccessRestriction false false
  false false false false false false) (Some (mkOldEps 5 (Some 5) [255; 255; 255; 255; 255; 255; 255; 255; 255; 255; 255; 255; 255; 255; 255; 255;
  255; 255; 255; 255; 255; 255; 255; 255; 255; 255; 255; 255; 255; 255; 255; 255] (Some [255; 255; 255; 255; 255; 255; 255; 255; 255; 255; 255; 255;
  255; 255; 255; 255; 255; 255; 255; 255; 255; 255; 255; 255; 255; 255; 255; 255; 255; 255; 255; 255]))) (Some [1; 2; 3; 4]) (Some [1; 2; 3; 4]) (Some
  (mkExtAccessRestriction false false false true true)) (Some [1; 2; 3; 4]) (Some [1; 2; 3; 4]) (Some [mkApnRateMm [116; 101; 115; 116; 46; 97; 112;
  110; 46; 99; 111; 109] 305419896 305419896 305419896 [1; 2; 3; 4; 5; 6; 7; 8]; mkApnRateMm [116; 101; 115; 116; 50; 46; 97; 112; 110; 46; 99; 111;
  109] 305419896 305419896 305419896 [1; 2; 3; 4; 5; 6; 7; 8]]) (Some [1; 2; 3; 4]) (Some [1; 2; 3; 4]) (Some 2))))]; []; [IE_Fteid (mkIe 87 9 0
  (mkFteid 6 663302000 (Some [139; 7; 133; 184]) None))]; []; []; []; []; []; []; []; []; []; []; []; []; []; []; []; []; []; []; []; []; []; [];
  [IE_PrivateExtension (mkIe 255 6 0 (mkPrivateExt 2011 [7; 0; 1; 0]))]])) = [72; 131; 1; 177; 164; 120; 149; 128; 75; 41; 30; 0; 2; 0; 2; 0; 22; 0;
  107; 1; 136; 0; 152; 39; 129; 39; 0; 255; 255; 255; 255; 255; 255; 255; 255; 255; 255; 255; 255; 255; 255; 255; 255; 255; 255; 255; 255; 255; 255;
  255; 255; 255; 255; 255; 255; 255; 255; 255; 255; 255; 255; 255; 255; 1; 2; 3; 4; 5; 6; 7; 8; 9; 10; 11; 12; 13; 14; 15; 16; 3; 2; 7; 8; 3; 3; 9;
  10; 11; 12; 13; 14; 15; 0; 0; 0; 0; 0; 0; 0; 0; 0; 0; 0; 0; 0; 0; 0; 0; 0; 0; 0; 0; 0; 0; 0; 0; 0; 0; 0; 1; 2; 3; 4; 5; 6; 7; 8; 9; 10; 11; 12; 13;
  14; 15; 16; 3; 2; 7; 8; 1; 2; 3; 4; 5; 6; 7; 8; 9; 10; 11; 12; 13; 14; 15; 16; 1; 2; 3; 4; 5; 6; 7; 8; 9; 10; 11; 12; 13; 14; 15; 16; 3; 3; 9; 10;
  1; 2; 170; 170; 170; 170; 170; 170; 170; 170; 170; 170; 170; 170; 170; 170; 170; 170; 170; 170; 170; 170; 170; 170; 170; 170; 170; 170; 170; 170;
  170; 170; 170; 170; 5; 0; 0; 7; 208; 0; 0; 31; 64; 0; 0; 7; 208; 0; 0; 31; 64; 4; 1; 2; 3; 4; 4; 1; 2; 3; 4; 4; 1; 2; 3; 4; 0; 173; 255; 255; 255;
  255; 255; 255; 255; 255; 255; 255; 255; 255; 255; 255; 255; 255; 255; 255; 255; 255; 255; 255; 255; 255; 255; 255; 255; 255; 255; 255; 255; 255;
  255; 255; 255; 255; 255; 255; 255; 255; 255; 255; 255; 255; 255; 255; 255; 255; 255; 255; 255; 255; 255; 255; 255; 255; 255; 255; 255; 255; 255;
  255; 255; 255; 4; 1; 2; 3; 4; 4; 1; 2; 3; 4; 1; 3; 4; 1; 2; 3; 4; 4; 1; 2; 3; 4; 2; 0; 34; 0; 12; 116; 101; 115; 116; 46; 97; 112; 110; 46; 99; 111;
  109; 18; 52; 86; 120; 18; 52; 86; 120; 18; 52; 86; 120; 1; 2; 3; 4; 5; 6; 7; 8; 0; 35; 0; 13; 116; 101; 115; 116; 50; 46; 97; 112; 110; 46; 99; 111;
  109; 18; 52; 86; 120; 18; 52; 86; 120; 18; 52; 86; 120; 1; 2; 3; 4; 5; 6; 7; 8; 4; 1; 2; 3; 4; 4; 1; 2; 3; 4; 2; 87; 0; 9; 0; 134; 39; 137; 47; 112;
  139; 7; 133; 184; 255; 0; 6; 0; 7; 219; 7; 0; 1; 0].
Proof. vm_compute. reflexivity. Qed.
(* gtpv2/messages/createbearerreq.rs, test_create_bearer_req_unmarshal *)
Example createbearerreq__test_create_bearer_req_unmarshal : msg_unmarshal md_createbearerreq Debug [72; 95; 0; 93; 9; 9; 164; 86; 0; 0; 47; 0; 73; 0;
  1; 0; 5; 78; 0; 20; 0; 128; 128; 33; 16; 2; 0; 0; 16; 129; 6; 8; 8; 8; 8; 131; 6; 10; 64; 208; 97; 93; 0; 52; 0; 73; 0; 1; 0; 0; 87; 0; 9; 2; 133;
  59; 149; 152; 90; 62; 153; 137; 85; 80; 0; 22; 0; 44; 9; 0; 0; 0; 0; 0; 0; 0; 0; 0; 0; 0; 0; 0; 0; 0; 0; 0; 0; 0; 0; 94; 0; 4; 0; 1; 98; 156; 196] =
  Ok (mkMsg (mkHdr2 95 false None 93 (Some 151626838) 47) [[]; [IE_Ebi (mkIe 73 1 0 5)]; [IE_Pco (mkIe 78 20 0 [128; 128; 33; 16; 2; 0; 0; 16; 129; 6;
  8; 8; 8; 8; 131; 6; 10; 64; 208; 97])]; [IE_BearerContext (mkIe 93 52 0 (mkBearerContext (mkIe 73 1 0 0) None None [mkIe 87 9 2 (mkFteid 5 999659610
  (Some [62; 153; 137; 85]) None)] (Some (mkIe 80 22 0 (mkBearerQos 0 11 0 9 0 0 0 0))) (Some (mkIe 94 4 0 23239876)) None None None None None None
  None None))]; []; []; []; []; []; []; []; []; []; []; []; []; []]).
Proof. vm_compute. reflexivity. Qed.
Example createbearerreq__test_create_bearer_req_unmarshal_back : (fun x => msg_marshal md_createbearerreq x []) ((mkMsg (mkHdr2 95 false None 93 (Some
  151626838) 47) [[]; [IE_Ebi (mkIe 73 1 0 5)]; [IE_Pco (mkIe 78 20 0 [128; 128; 33; 16; 2; 0; 0; 16; 129; 6; 8; 8; 8; 8; 131; 6; 10; 64; 208; 97])];
  [IE_BearerContext (mkIe 93 52 0 (mkBearerContext (mkIe 73 1 0 0) None None [mkIe 87 9 2 (mkFteid 5 999659610 (Some [62; 153; 137; 85]) None)] (Some
  (mkIe 80 22 0 (mkBearerQos 0 11 0 9 0 0 0 0))) (Some (mkIe 94 4 0 23239876)) None None None None None None None None))]; []; []; []; []; []; []; [];
  []; []; []; []; []; []])) = [72; 95; 0; 93; 9; 9; 164; 86; 0; 0; 47; 0; 73; 0; 1; 0; 5; 78; 0; 20; 0; 128; 128; 33; 16; 2; 0; 0; 16; 129; 6; 8; 8;
  8; 8; 131; 6; 10; 64; 208; 97; 93; 0; 52; 0; 73; 0; 1; 0; 0; 87; 0; 9; 2; 133; 59; 149; 152; 90; 62; 153; 137; 85; 80; 0; 22; 0; 44; 9; 0; 0; 0; 0;
  0; 0; 0; 0; 0; 0; 0; 0; 0; 0; 0; 0; 0; 0; 0; 0; 94; 0; 4; 0; 1; 98; 156; 196].
Proof. vm_compute. reflexivity. Qed.
(* gtpv2/messages/createbearerresp.rs, test_create_bearer_resp_unmarshal *)
Example createbearerresp__test_create_bearer_resp_unmarshal : msg_unmarshal md_createbearerresp Debug [72; 96; 0; 105; 9; 9; 164; 86; 0; 0; 47; 0; 2;
  0; 2; 0; 16; 0; 93; 0; 58; 0; 2; 0; 2; 0; 16; 0; 73; 0; 1; 0; 5; 87; 0; 9; 2; 133; 59; 149; 152; 90; 62; 153; 137; 85; 80; 0; 22; 0; 44; 9; 0; 0; 0;
  0; 0; 0; 0; 0; 0; 0; 0; 0; 0; 0; 0; 0; 0; 0; 0; 0; 94; 0; 4; 0; 1; 98; 156; 196; 3; 0; 1; 0; 17; 78; 0; 20; 0; 128; 128; 33; 16; 2; 0; 0; 16; 129;
  6; 8; 8; 8; 8; 131; 6; 10; 64; 208; 97] = Ok (mkMsg (mkHdr2 96 false None 105 (Some 151626838) 47) [[IE_Cause (mkIe 2 2 0 (mkCause 16 false false
  false None))]; [IE_BearerContext (mkIe 93 58 0 (mkBearerContext (mkIe 73 1 0 5) (Some (mkIe 2 2 0 (mkCause 16 false false false None))) None [mkIe
  87 9 2 (mkFteid 5 999659610 (Some [62; 153; 137; 85]) None)] (Some (mkIe 80 22 0 (mkBearerQos 0 11 0 9 0 0 0 0))) (Some (mkIe 94 4 0 23239876)) None
  None None None None None None None))]; [IE_Recovery (mkIe 3 1 0 17)]; []; []; []; []; [IE_Pco (mkIe 78 20 0 [128; 128; 33; 16; 2; 0; 0; 16; 129; 6;
  8; 8; 8; 8; 131; 6; 10; 64; 208; 97])]; []; []; []; []; []; []; []; []; []; []; []; []; []]).
Proof. vm_compute. reflexivity. Qed.
Example createbearerresp__test_create_bearer_resp_unmarshal_back : (fun x => msg_marshal md_createbearerresp x []) ((mkMsg (mkHdr2 96 false None 105
  (Some 151626838) 47) [[IE_Cause (mkIe 2 2 0 (mkCause 16 false false false None))]; [IE_BearerContext (mkIe 93 58 0 (mkBearerContext (mkIe 73 1 0 5)
  (Some (mkIe 2 2 0 (mkCause 16 false false false None))) None [mkIe 87 9 2 (mkFteid 5 999659610 (Some [62; 153; 137; 85]) None)] (Some (mkIe 80 22 0
  (mkBearerQos 0 11 0 9 0 0 0 0))) (Some (mkIe 94 4 0 23239876)) None None None None None None None None))]; [IE_Recovery (mkIe 3 1 0 17)]; []; [];
  []; []; [IE_Pco (mkIe 78 20 0 [128; 128; 33; 16; 2; 0; 0; 16; 129; 6; 8; 8; 8; 8; 131; 6; 10; 64; 208; 97])]; []; []; []; []; []; []; []; []; [];
  []; []; []; []])) = [72; 96; 0; 105; 9; 9; 164; 86; 0; 0; 47; 0; 2; 0; 2; 0; 16; 0; 93; 0; 58; 0; 2; 0; 2; 0; 16; 0; 73; 0; 1; 0; 5; 87; 0; 9; 2;
  133; 59; 149; 152; 90; 62; 153; 137; 85; 80; 0; 22; 0; 44; 9; 0; 0; 0; 0; 0; 0; 0; 0; 0; 0; 0; 0; 0; 0; 0; 0; 0; 0; 0; 0; 94; 0; 4; 0; 1; 98; 156;
  196; 3; 0; 1; 0; 17; 78; 0; 20; 0; 128; 128; 33; 16; 2; 0; 0; 16; 129; 6; 8; 8; 8; 8; 131; 6; 10; 64; 208; 97].
Proof. vm_compute. reflexivity. Qed.
(* gtpv2/messages/createforwardingtunnelreq.rs, test_create_fwd_tunnel_req_unmarshal *)
Example createforwardingtunnelreq__test_create_fwd_tunnel_req_unmarshal : msg_unmarshal md_createforwardingtunnelreq Debug [72; 160; 0; 72; 9; 9; 164;
  86; 0; 0; 47; 0; 90; 0; 23; 0; 16; 0; 0; 0; 0; 0; 0; 0; 0; 0; 0; 0; 0; 0; 0; 0; 0; 0; 0; 0; 0; 1; 5; 90; 0; 23; 0; 16; 0; 0; 0; 0; 0; 0; 0; 0; 0; 0;
  0; 0; 0; 0; 0; 0; 0; 0; 0; 0; 1; 6; 255; 0; 6; 0; 0; 0; 1; 98; 156; 196] = Ok (mkMsg (mkHdr2 160 false None 72 (Some 151626838) 47) [[IE_S103pdf
  (mkIe 90 23 0 (mkS103 (IpV6 [0; 0; 0; 0; 0; 0; 0; 0; 0; 0; 0; 0; 0; 0; 0; 0]) 0 [5])); IE_S103pdf (mkIe 90 23 0 (mkS103 (IpV6 [0; 0; 0; 0; 0; 0; 0;
  0; 0; 0; 0; 0; 0; 0; 0; 0]) 0 [6]))]; [IE_PrivateExtension (mkIe 255 6 0 (mkPrivateExt 0 [1; 98; 156; 196]))]]).
Proof. vm_compute. reflexivity. Qed.
Example createforwardingtunnelreq__test_create_fwd_tunnel_req_unmarshal_back : (fun x => msg_marshal md_createforwardingtunnelreq x []) ((mkMsg
  (mkHdr2 160 false None 72 (Some 151626838) 47) [[IE_S103pdf (mkIe 90 23 0 (mkS103 (IpV6 [0; 0; 0; 0; 0; 0; 0; 0; 0; 0; 0; 0; 0; 0; 0; 0]) 0 [5]));
  IE_S103pdf (mkIe 90 23 0 (mkS103 (IpV6 [0; 0; 0; 0; 0; 0; 0; 0; 0; 0; 0; 0; 0; 0; 0; 0]) 0 [6]))]; [IE_PrivateExtension (mkIe 255 6 0 (mkPrivateExt
  0 [1; 98; 156; 196]))]])) = [72; 160; 0; 72; 9; 9; 164; 86; 0; 0; 47; 0; 90; 0; 23; 0; 16; 0; 0; 0; 0; 0; 0; 0; 0; 0; 0; 0; 0; 0; 0; 0; 0; 0; 0; 0;
  0; 1; 5; 90; 0; 23; 0; 16; 0; 0; 0; 0; 0; 0; 0; 0; 0; 0; 0; 0; 0; 0; 0; 0; 0; 0; 0; 0; 1; 6; 255; 0; 6; 0; 0; 0; 1; 98; 156; 196].
Proof. vm_compute. reflexivity. Qed.
(* gtpv2/messages/createforwardingtunnelresp.rs, test_create_fwd_tunnel_resp_unmarshal *)
Example createforwardingtunnelresp__test_create_fwd_tunnel_resp_unmarshal : msg_unmarshal md_createforwardingtunnelresp Debug [72; 161; 0; 64; 9; 9;
  164; 86; 0; 0; 47; 0; 2; 0; 2; 0; 16; 0; 91; 0; 10; 0; 5; 4; 10; 10; 10; 10; 0; 0; 255; 170; 91; 0; 22; 0; 6; 16; 0; 253; 0; 255; 0; 0; 0; 0; 0; 0;
  0; 0; 0; 0; 0; 0; 0; 0; 170; 255; 255; 0; 6; 0; 0; 0; 1; 98; 156; 196] = Ok (mkMsg (mkHdr2 161 false None 64 (Some 151626838) 47) [[IE_Cause (mkIe 2
  2 0 (mkCause 16 false false false None))]; [IE_S1udf (mkIe 91 10 0 (mkS1udf 5 (IpV4 [10; 10; 10; 10]) 65450)); IE_S1udf (mkIe 91 22 0 (mkS1udf 6
  (IpV6 [0; 253; 0; 255; 0; 0; 0; 0; 0; 0; 0; 0; 0; 0; 0; 0]) 43775))]; [IE_PrivateExtension (mkIe 255 6 0 (mkPrivateExt 0 [1; 98; 156; 196]))]]).
Proof. vm_compute. reflexivity. Qed.
Example createforwardingtunnelresp__test_create_fwd_tunnel_resp_unmarshal_back : (fun x => msg_marshal md_createforwardingtunnelresp x []) ((mkMsg
  (mkHdr2 161 false None 64 (Some 151626838) 47) [[IE_Cause (mkIe 2 2 0 (mkCause 16 false false false None))]; [IE_S1udf (mkIe 91 10 0 (mkS1udf 5
  (IpV4 [10; 10; 10; 10]) 65450)); IE_S1udf (mkIe 91 22 0 (mkS1udf 6 (IpV6 [0; 253; 0; 255; 0; 0; 0; 0; 0; 0; 0; 0; 0; 0; 0; 0]) 43775))];
  [IE_PrivateExtension (mkIe 255 6 0 (mkPrivateExt 0 [1; 98; 156; 196]))]])) = [72; 161; 0; 64; 9; 9; 164; 86; 0; 0; 47; 0; 2; 0; 2; 0; 16; 0; 91; 0;
  10; 0; 5; 4; 10; 10; 10; 10; 0; 0; 255; 170; 91; 0; 22; 0; 6; 16; 0; 253; 0; 255; 0; 0; 0; 0; 0; 0; 0; 0; 0; 0; 0; 0; 0; 0; 170; 255; 255; 0; 6; 0;
  0; 0; 1; 98; 156; 196].
Proof. vm_compute. reflexivity. Qed.
(* gtpv2/messages/createindirectdatafwtunnelreq.rs, test_create_indirect_data_fw_tunnel_req_unmarshal *)
Example createindirectdatafwtunnelreq__test_create_indirect_data_fw_tunnel_req_unmarshal : msg_unmarshal md_createindirectdatafwtunnelreq Debug [72;
  166; 0; 135; 9; 9; 164; 86; 0; 0; 47; 0; 1; 0; 8; 0; 9; 65; 80; 1; 145; 22; 120; 243; 75; 0; 8; 0; 104; 103; 132; 64; 16; 35; 3; 48; 77; 0; 10; 0;
  64; 0; 0; 0; 0; 0; 0; 0; 0; 0; 87; 0; 9; 0; 133; 59; 149; 152; 90; 62; 153; 137; 85; 93; 0; 57; 0; 73; 0; 1; 0; 5; 87; 0; 9; 0; 128; 59; 149; 152;
  90; 62; 153; 137; 85; 87; 0; 9; 1; 132; 59; 149; 152; 90; 62; 153; 137; 86; 87; 0; 9; 2; 143; 59; 149; 152; 90; 62; 153; 137; 87; 87; 0; 9; 6; 166;
  59; 149; 152; 90; 62; 153; 137; 89; 3; 0; 1; 0; 100; 255; 0; 6; 0; 0; 0; 1; 98; 156; 196] = Ok (mkMsg (mkHdr2 166 false None 135 (Some 151626838)
  47) [[IE_Imsi (mkIe 1 8 0 [57; 48; 49; 52; 48; 53; 49; 48; 49; 57; 54; 49; 56; 55; 51])]; [IE_Mei (mkIe 75 8 0 [56; 54; 55; 54; 52; 56; 48; 52; 48;
  49; 51; 50; 51; 48; 48; 51])]; [IE_Indication (mkIe 77 10 0 (mkIndication false true false false false false false false false false false false
  false false false false false false false false false false false false false false false false false false false false false false false false
  false false false false false false false false false false false false false false false false false false false false false false false false
  false false false false false false false false false false false false false false false))]; [IE_Fteid (mkIe 87 9 0 (mkFteid 5 999659610 (Some [62;
  153; 137; 85]) None))]; [IE_BearerContext (mkIe 93 57 0 (mkBearerContext (mkIe 73 1 0 5) None None [mkIe 87 9 0 (mkFteid 0 999659610 (Some [62; 153;
  137; 85]) None); mkIe 87 9 1 (mkFteid 4 999659610 (Some [62; 153; 137; 86]) None); mkIe 87 9 2 (mkFteid 15 999659610 (Some [62; 153; 137; 87])
  None); mkIe 87 9 6 (mkFteid 38 999659610 (Some [62; 153; 137; 89]) None)] None None None None None None None None None None))]; [IE_Recovery (mkIe 3
  1 0 100)]; [IE_PrivateExtension (mkIe 255 6 0 (mkPrivateExt 0 [1; 98; 156; 196]))]]).
Proof. vm_compute. reflexivity. Qed.
Example createindirectdatafwtunnelreq__test_create_indirect_data_fw_tunnel_req_unmarshal_back : (fun x => msg_marshal md_createindirectdatafwtunnelreq
  x []) ((mkMsg (mkHdr2 166 false None 135 (Some 151626838) 47) [[IE_Imsi (mkIe 1 8 0 [57; 48; 49; 52; 48; 53; 49; 48; 49; 57; 54; 49; 56; 55; 51])];
  [IE_Mei (mkIe 75 8 0 [56; 54; 55; 54; 52; 56; 48; 52; 48; 49; 51; 50; 51; 48; 48; 51])]; [IE_Indication (mkIe 77 10 0 (mkIndication false true false
  false false false false false false false false false false false false false false false false false false false false false false false false
  false false false false false false false false false false false false false false false false false false false false false false false false
  false false false false false false false false false false false false false false false false false false false false false false false false))];
  [IE_Fteid (mkIe 87 9 0 (mkFteid 5 999659610 (Some [62; 153; 137; 85]) None))]; [IE_BearerContext (mkIe 93 57 0 (mkBearerContext (mkIe 73 1 0 5) None
  None [mkIe 87 9 0 (mkFteid 0 999659610 (Some [62; 153; 137; 85]) None); mkIe 87 9 1 (mkFteid 4 999659610 (Some [62; 153; 137; 86]) None); mkIe 87 9
  2 (mkFteid 15 999659610 (Some [62; 153; 137; 87]) None); mkIe 87 9 6 (mkFteid 38 999659610 (Some [62; 153; 137; 89]) None)] None None None None None
  None None None None None))]; [IE_Recovery (mkIe 3 1 0 100)]; [IE_PrivateExtension (mkIe 255 6 0 (mkPrivateExt 0 [1; 98; 156; 196]))]])) = [72; 166;
  0; 135; 9; 9; 164; 86; 0; 0; 47; 0; 1; 0; 8; 0; 9; 65; 80; 1; 145; 22; 120; 243; 75; 0; 8; 0; 104; 103; 132; 64; 16; 35; 3; 48; 77; 0; 10; 0; 64; 0;
  0; 0; 0; 0; 0; 0; 0; 0; 87; 0; 9; 0; 133; 59; 149; 152; 90; 62; 153; 137; 85; 93; 0; 57; 0; 73; 0; 1; 0; 5; 87; 0; 9; 0; 128; 59; 149; 152; 90; 62;
  153; 137; 85; 87; 0; 9; 1; 132; 59; 149; 152; 90; 62; 153; 137; 86; 87; 0; 9; 2; 143; 59; 149; 152; 90; 62; 153; 137; 87; 87; 0; 9; 6; 166; 59; 149;
  152; 90; 62; 153; 137; 89; 3; 0; 1; 0; 100; 255; 0; 6; 0; 0; 0; 1; 98; 156; 196].
Proof. vm_compute. reflexivity. Qed.
(* gtpv2/messages/createindirectdatafwtunnelresp.rs, test_create_indirect_data_fw_tunnel_resp_unmarshal *)
Example createindirectdatafwtunnelresp__test_create_indirect_data_fw_tunnel_resp_unmarshal : msg_unmarshal md_createindirectdatafwtunnelresp Debug
  [72; 167; 0; 103; 9; 9; 164; 86; 0; 0; 47; 0; 2; 0; 2; 0; 16; 0; 87; 0; 9; 0; 133; 59; 149; 152; 90; 62; 153; 137; 85; 93; 0; 57; 0; 73; 0; 1; 0; 5;
  87; 0; 9; 0; 128; 59; 149; 152; 90; 62; 153; 137; 85; 87; 0; 9; 1; 132; 59; 149; 152; 90; 62; 153; 137; 86; 87; 0; 9; 2; 143; 59; 149; 152; 90; 62;
  153; 137; 87; 87; 0; 9; 6; 166; 59; 149; 152; 90; 62; 153; 137; 89; 3; 0; 1; 0; 100; 255; 0; 6; 0; 0; 0; 1; 98; 156; 196] = Ok (mkMsg (mkHdr2 167
  false None 103 (Some 151626838) 47) [[IE_Cause (mkIe 2 2 0 (mkCause 16 false false false None))]; [IE_Fteid (mkIe 87 9 0 (mkFteid 5 999659610 (Some
  [62; 153; 137; 85]) None))]; [IE_BearerContext (mkIe 93 57 0 (mkBearerContext (mkIe 73 1 0 5) None None [mkIe 87 9 0 (mkFteid 0 999659610 (Some [62;
  153; 137; 85]) None); mkIe 87 9 1 (mkFteid 4 999659610 (Some [62; 153; 137; 86]) None); mkIe 87 9 2 (mkFteid 15 999659610 (Some [62; 153; 137; 87])
  None); mkIe 87 9 6 (mkFteid 38 999659610 (Some [62; 153; 137; 89]) None)] None None None None None None None None None None))]; [IE_Recovery (mkIe 3
  1 0 100)]; [IE_PrivateExtension (mkIe 255 6 0 (mkPrivateExt 0 [1; 98; 156; 196]))]]).
Proof. vm_compute. reflexivity. Qed.
Example createindirectdatafwtunnelresp__test_create_indirect_data_fw_tunnel_resp_unmarshal_back : (fun x => msg_marshal
  md_createindirectdatafwtunnelresp x []) ((mkMsg (mkHdr2 167 false None 103 (Some 151626838) 47) [[IE_Cause (mkIe 2 2 0 (mkCause 16 false false false
  None))]; [IE_Fteid (mkIe 87 9 0 (mkFteid 5 999659610 (Some [62; 153; 137; 85]) None))]; [IE_BearerContext (mkIe 93 57 0 (mkBearerContext (mkIe 73 1
  0 5) None None [mkIe 87 9 0 (mkFteid 0 999659610 (Some [62; 153; 137; 85]) None); mkIe 87 9 1 (mkFteid 4 999659610 (Some [62; 153; 137; 86]) None);
  mkIe 87 9 2 (mkFteid 15 999659610 (Some [62; 153; 137; 87]) None); mkIe 87 9 6 (mkFteid 38 999659610 (Some [62; 153; 137; 89]) None)] None None None
  None None None None None None None))]; [IE_Recovery (mkIe 3 1 0 100)]; [IE_PrivateExtension (mkIe 255 6 0 (mkPrivateExt 0 [1; 98; 156; 196]))]])) =
  [72; 167; 0; 103; 9; 9; 164; 86; 0; 0; 47; 0; 2; 0; 2; 0; 16; 0; 87; 0; 9; 0; 133; 59; 149; 152; 90; 62; 153; 137; 85; 93; 0; 57; 0; 73; 0; 1; 0; 5;
  87; 0; 9; 0; 128; 59; 149; 152; 90; 62; 153; 137; 85; 87; 0; 9; 1; 132; 59; 149; 152; 90; 62; 153; 137; 86; 87; 0; 9; 2; 143; 59; 149; 152; 90; 62;
  153; 137; 87; 87; 0; 9; 6; 166; 59; 149; 152; 90; 62; 153; 137; 89; 3; 0; 1; 0; 100; 255; 0; 6; 0; 0; 0; 1; 98; 156; 196].
Proof. vm_compute. reflexivity. Qed.
(* gtpv2/messages/createsessionreq.rs, test_create_session_req_unmarshal *)
Example createsessionreq__test_create_session_req_unmarshal : msg_unmarshal md_createsessionreq Debug [72; 32; 1; 6; 0; 0; 0; 0; 0; 0; 104; 0; 1; 0;
  8; 0; 9; 65; 80; 1; 1; 55; 120; 244; 76; 0; 8; 0; 136; 34; 88; 1; 1; 55; 120; 244; 75; 0; 8; 0; 104; 16; 89; 80; 70; 83; 24; 112; 86; 0; 13; 0; 24;
  98; 242; 16; 11; 217; 98; 242; 16; 1; 186; 64; 2; 83; 0; 3; 0; 98; 242; 16; 82; 0; 1; 0; 6; 87; 0; 9; 0; 134; 6; 209; 130; 76; 193; 254; 139; 45;
  71; 0; 32; 0; 3; 105; 111; 116; 4; 49; 110; 99; 101; 3; 110; 101; 116; 6; 109; 110; 99; 48; 52; 48; 6; 109; 99; 99; 57; 48; 49; 4; 103; 112; 114;
  115; 128; 0; 1; 0; 0; 99; 0; 1; 0; 1; 79; 0; 5; 0; 1; 0; 0; 0; 0; 127; 0; 1; 0; 0; 72; 0; 8; 0; 0; 0; 3; 232; 0; 0; 3; 232; 78; 0; 35; 0; 128; 128;
  33; 16; 1; 0; 0; 16; 129; 6; 0; 0; 0; 0; 131; 6; 0; 0; 0; 0; 0; 13; 0; 0; 3; 0; 0; 10; 0; 0; 5; 0; 0; 16; 0; 93; 0; 44; 0; 73; 0; 1; 0; 5; 87; 0; 9;
  2; 132; 6; 209; 130; 76; 193; 254; 139; 45; 80; 0; 22; 0; 108; 9; 0; 0; 0; 0; 0; 0; 0; 0; 0; 0; 0; 0; 0; 0; 0; 0; 0; 0; 0; 0; 3; 0; 1; 0; 187; 114;
  0; 2; 0; 2; 1; 95; 0; 2; 0; 8; 0] = Ok (mkMsg (mkHdr2 32 false None 262 (Some 0) 104) [[IE_Imsi (mkIe 1 8 0 [57; 48; 49; 52; 48; 53; 49; 48; 49; 48;
  55; 51; 56; 55; 52])]; [IE_Msisdn (mkIe 76 8 0 [56; 56; 50; 50; 56; 53; 49; 48; 49; 48; 55; 51; 56; 55; 52])]; [IE_Mei (mkIe 75 8 0 [56; 54; 48; 49;
  57; 53; 48; 53; 54; 52; 51; 53; 56; 49; 48; 55])]; [IE_Uli (mkIe 86 13 0 [Loc_Tai (mkTai (mkPlmn 262 1 false) 3033); Loc_Ecgi (mkEcgi (mkPlmn 262 1
  false) 28983298)])]; [IE_ServingNetwork (mkIe 83 3 0 (mkPlmn 262 1 false))]; [IE_RatType (mkIe 82 1 0 Rat_Eutran)]; []; [IE_Fteid (mkIe 87 9 0
  (mkFteid 6 114393676 (Some [193; 254; 139; 45]) None))]; []; [IE_Apn (mkIe 71 32 0 [105; 111; 116; 46; 49; 110; 99; 101; 46; 110; 101; 116; 46; 109;
  110; 99; 48; 52; 48; 46; 109; 99; 99; 57; 48; 49; 46; 103; 112; 114; 115])]; [IE_SelectionMode (mkIe 128 1 0 0)]; [IE_PdnType (mkIe 99 1 0
  Pdn_Ipv4)]; [IE_PdnAddressAllocation (mkIe 79 5 0 (Paa_V4 [0; 0; 0; 0]))]; [IE_ApnRestriction (mkIe 127 1 0 Restriction_NoApnRestriction)];
  [IE_ApnAmbr (mkIe 72 8 0 (mkAmbr 1000 1000))]; []; []; [IE_Pco (mkIe 78 35 0 [128; 128; 33; 16; 1; 0; 0; 16; 129; 6; 0; 0; 0; 0; 131; 6; 0; 0; 0; 0;
  0; 13; 0; 0; 3; 0; 0; 10; 0; 0; 5; 0; 0; 16; 0])]; [IE_BearerContext (mkIe 93 44 0 (mkBearerContext (mkIe 73 1 0 5) None None [mkIe 87 9 2 (mkFteid
  4 114393676 (Some [193; 254; 139; 45]) None)] (Some (mkIe 80 22 0 (mkBearerQos 0 11 1 9 0 0 0 0))) None None None None None None None None None))];
  []; [IE_Recovery (mkIe 3 1 0 187)]; []; []; []; []; [IE_UeTimeZone (mkIe 114 2 0 (mkUeTimeZone 2 1))]; []; [IE_ChargingCharacteristics (mkIe 95 2 0
  2048)]; []; []; []; []; []; []; []; []; []; []; []; []; []; []; []; []; []; []; []; []; []; []; []; []; []; []; []; []; []; []; []; []]).
Proof. vm_compute. reflexivity. Qed.
Example createsessionreq__test_create_session_req_unmarshal_back : (fun x => msg_marshal md_createsessionreq x []) ((mkMsg (mkHdr2 32 false None 262
  (Some 0) 104) [[IE_Imsi (mkIe 1 8 0 [57; 48; 49; 52; 48; 53; 49; 48; 49; 48; 55; 51; 56; 55; 52])]; [IE_Msisdn (mkIe 76 8 0 [56; 56; 50; 50; 56; 53;
  49; 48; 49; 48; 55; 51; 56; 55; 52])]; [IE_Mei (mkIe 75 8 0 [56; 54; 48; 49; 57; 53; 48; 53; 54; 52; 51; 53; 56; 49; 48; 55])]; [IE_Uli (mkIe 86 13
  0 [Loc_Tai (mkTai (mkPlmn 262 1 false) 3033); Loc_Ecgi (mkEcgi (mkPlmn 262 1 false) 28983298)])]; [IE_ServingNetwork (mkIe 83 3 0 (mkPlmn 262 1
  false))]; [IE_RatType (mkIe 82 1 0 Rat_Eutran)]; []; [IE_Fteid (mkIe 87 9 0 (mkFteid 6 114393676 (Some [193; 254; 139; 45]) None))]; []; [IE_Apn
  (mkIe 71 32 0 [105; 111; 116; 46; 49; 110; 99; 101; 46; 110; 101; 116; 46; 109; 110; 99; 48; 52; 48; 46; 109; 99; 99; 57; 48; 49; 46; 103; 112; 114;
  115])]; [IE_SelectionMode (mkIe 128 1 0 0)]; [IE_PdnType (mkIe 99 1 0 Pdn_Ipv4)]; [IE_PdnAddressAllocation (mkIe 79 5 0 (Paa_V4 [0; 0; 0; 0]))];
  [IE_ApnRestriction (mkIe 127 1 0 Restriction_NoApnRestriction)]; [IE_ApnAmbr (mkIe 72 8 0 (mkAmbr 1000 1000))]; []; []; [IE_Pco (mkIe 78 35 0 [128;
  128; 33; 16; 1; 0; 0; 16; 129; 6; 0; 0; 0; 0; 131; 6; 0; 0; 0; 0; 0; 13; 0; 0; 3; 0; 0; 10; 0; 0; 5; 0; 0; 16; 0])]; [IE_BearerContext (mkIe 93 44 0
  (mkBearerContext (mkIe 73 1 0 5) None None [mkIe 87 9 2 (mkFteid 4 114393676 (Some [193; 254; 139; 45]) None)] (Some (mkIe 80 22 0 (mkBearerQos 0 11
  1 9 0 0 0 0))) None None None None None None None None None))]; []; [IE_Recovery (mkIe 3 1 0 187)]; []; []; []; []; [IE_UeTimeZone (mkIe 114 2 0
  (mkUeTimeZone 2 1))]; []; [IE_ChargingCharacteristics (mkIe 95 2 0 2048)]; []; []; []; []; []; []; []; []; []; []; []; []; []; []; []; []; []; [];
  []; []; []; []; []; []; []; []; []; []; []; []; []; []])) = [72; 32; 1; 6; 0; 0; 0; 0; 0; 0; 104; 0; 1; 0; 8; 0; 9; 65; 80; 1; 1; 55; 120; 244; 76;
  0; 8; 0; 136; 34; 88; 1; 1; 55; 120; 244; 75; 0; 8; 0; 104; 16; 89; 80; 70; 83; 24; 112; 86; 0; 13; 0; 24; 98; 242; 16; 11; 217; 98; 242; 16; 1;
  186; 64; 2; 83; 0; 3; 0; 98; 242; 16; 82; 0; 1; 0; 6; 87; 0; 9; 0; 134; 6; 209; 130; 76; 193; 254; 139; 45; 71; 0; 32; 0; 3; 105; 111; 116; 4; 49;
  110; 99; 101; 3; 110; 101; 116; 6; 109; 110; 99; 48; 52; 48; 6; 109; 99; 99; 57; 48; 49; 4; 103; 112; 114; 115; 128; 0; 1; 0; 0; 99; 0; 1; 0; 1; 79;
  0; 5; 0; 1; 0; 0; 0; 0; 127; 0; 1; 0; 0; 72; 0; 8; 0; 0; 0; 3; 232; 0; 0; 3; 232; 78; 0; 35; 0; 128; 128; 33; 16; 1; 0; 0; 16; 129; 6; 0; 0; 0; 0;
  131; 6; 0; 0; 0; 0; 0; 13; 0; 0; 3; 0; 0; 10; 0; 0; 5; 0; 0; 16; 0; 93; 0; 44; 0; 73; 0; 1; 0; 5; 87; 0; 9; 2; 132; 6; 209; 130; 76; 193; 254; 139;
  45; 80; 0; 22; 0; 108; 9; 0; 0; 0; 0; 0; 0; 0; 0; 0; 0; 0; 0; 0; 0; 0; 0; 0; 0; 0; 0; 3; 0; 1; 0; 187; 114; 0; 2; 0; 2; 1; 95; 0; 2; 0; 8; 0].
Proof. vm_compute. reflexivity. Qed.
(* gtpv2/messages/createsessionresp.rs, test_create_session_resp_unmarshal *)
Example createsessionresp__test_create_session_resp_unmarshal : msg_unmarshal md_createsessionresp Debug [72; 33; 0; 144; 9; 9; 164; 86; 0; 0; 47; 0;
  2; 0; 2; 0; 16; 0; 87; 0; 9; 1; 135; 185; 123; 190; 7; 62; 153; 137; 78; 79; 0; 5; 0; 1; 10; 216; 113; 95; 127; 0; 1; 0; 0; 72; 0; 8; 0; 0; 0; 3;
  232; 0; 0; 3; 232; 78; 0; 20; 0; 128; 128; 33; 16; 2; 0; 0; 16; 129; 6; 8; 8; 8; 8; 131; 6; 10; 64; 208; 97; 93; 0; 58; 0; 2; 0; 2; 0; 16; 0; 73; 0;
  1; 0; 5; 87; 0; 9; 2; 133; 59; 149; 152; 90; 62; 153; 137; 85; 80; 0; 22; 0; 44; 9; 0; 0; 0; 0; 0; 0; 0; 0; 0; 0; 0; 0; 0; 0; 0; 0; 0; 0; 0; 0; 94;
  0; 4; 0; 1; 98; 156; 196; 3; 0; 1; 0; 17] = Ok (mkMsg (mkHdr2 33 false None 144 (Some 151626838) 47) [[IE_Cause (mkIe 2 2 0 (mkCause 16 false false
  false None))]; []; []; []; []; [IE_Fteid (mkIe 87 9 1 (mkFteid 7 3111894535 (Some [62; 153; 137; 78]) None))]; [IE_PdnAddressAllocation (mkIe 79 5 0
  (Paa_V4 [10; 216; 113; 95]))]; [IE_ApnRestriction (mkIe 127 1 0 Restriction_NoApnRestriction)]; [IE_ApnAmbr (mkIe 72 8 0 (mkAmbr 1000 1000))]; [];
  [IE_Pco (mkIe 78 20 0 [128; 128; 33; 16; 2; 0; 0; 16; 129; 6; 8; 8; 8; 8; 131; 6; 10; 64; 208; 97])]; [IE_BearerContext (mkIe 93 58 0
  (mkBearerContext (mkIe 73 1 0 5) (Some (mkIe 2 2 0 (mkCause 16 false false false None))) None [mkIe 87 9 2 (mkFteid 5 999659610 (Some [62; 153; 137;
  85]) None)] (Some (mkIe 80 22 0 (mkBearerQos 0 11 0 9 0 0 0 0))) (Some (mkIe 94 4 0 23239876)) None None None None None None None None))];
  [IE_Recovery (mkIe 3 1 0 17)]; []; []; []; []; []; []; []; []; []; []; []; []; []; []; []; []; []; []; []; []; []; []; []]).
Proof. vm_compute. reflexivity. Qed.
Example createsessionresp__test_create_session_resp_unmarshal_back : (fun x => msg_marshal md_createsessionresp x []) ((mkMsg (mkHdr2 33 false None
  144 (Some 151626838) 47) [[IE_Cause (mkIe 2 2 0 (mkCause 16 false false false None))]; []; []; []; []; [IE_Fteid (mkIe 87 9 1 (mkFteid 7 3111894535
  (Some [62; 153; 137; 78]) None))]; [IE_PdnAddressAllocation (mkIe 79 5 0 (Paa_V4 [10; 216; 113; 95]))]; [IE_ApnRestriction (mkIe 127 1 0
  Restriction_NoApnRestriction)]; [IE_ApnAmbr (mkIe 72 8 0 (mkAmbr 1000 1000))]; []; [IE_Pco (mkIe 78 20 0 [128; 128; 33; 16; 2; 0; 0; 16; 129; 6; 8;
  8; 8; 8; 131; 6; 10; 64; 208; 97])]; [IE_BearerContext (mkIe 93 58 0 (mkBearerContext (mkIe 73 1 0 5) (Some (mkIe 2 2 0 (mkCause 16 false false
  false None))) None [mkIe 87 9 2 (mkFteid 5 999659610 (Some [62; 153; 137; 85]) None)] (Some (mkIe 80 22 0 (mkBearerQos 0 11 0 9 0 0 0 0))) (Some
  (mkIe 94 4 0 23239876)) None None None None None None None None))]; [IE_Recovery (mkIe 3 1 0 17)]; []; []; []; []; []; []; []; []; []; []; []; [];
  []; []; []; []; []; []; []; []; []; []; []])) = [72; 33; 0; 144; 9; 9; 164; 86; 0; 0; 47; 0; 2; 0; 2; 0; 16; 0; 87; 0; 9; 1; 135; 185; 123; 190; 7;
  62; 153; 137; 78; 79; 0; 5; 0; 1; 10; 216; 113; 95; 127; 0; 1; 0; 0; 72; 0; 8; 0; 0; 0; 3; 232; 0; 0; 3; 232; 78; 0; 20; 0; 128; 128; 33; 16; 2; 0;
  0; 16; 129; 6; 8; 8; 8; 8; 131; 6; 10; 64; 208; 97; 93; 0; 58; 0; 2; 0; 2; 0; 16; 0; 73; 0; 1; 0; 5; 87; 0; 9; 2; 133; 59; 149; 152; 90; 62; 153;
  137; 85; 80; 0; 22; 0; 44; 9; 0; 0; 0; 0; 0; 0; 0; 0; 0; 0; 0; 0; 0; 0; 0; 0; 0; 0; 0; 0; 94; 0; 4; 0; 1; 98; 156; 196; 3; 0; 1; 0; 17].
Proof. vm_compute. reflexivity. Qed.
(* gtpv2/messages/cspagingindication.rs, test_cs_paging_indication_unmarshal *)
Example cspagingindication__test_cs_paging_indication_unmarshal : msg_unmarshal md_cspagingindication Debug [72; 151; 0; 126; 164; 120; 149; 128; 75;
  41; 30; 0; 1; 0; 8; 0; 153; 65; 85; 1; 145; 22; 120; 243; 136; 0; 53; 0; 5; 116; 111; 112; 111; 110; 5; 110; 111; 100; 101; 115; 3; 109; 115; 99; 2;
  115; 101; 3; 101; 112; 99; 5; 109; 110; 99; 48; 53; 6; 109; 99; 99; 50; 51; 52; 11; 51; 103; 112; 112; 110; 101; 116; 119; 111; 114; 107; 3; 111;
  114; 103; 0; 88; 0; 4; 0; 62; 107; 88; 94; 86; 0; 13; 0; 24; 66; 247; 16; 171; 234; 66; 247; 16; 0; 42; 70; 16; 89; 0; 5; 0; 153; 249; 16; 15; 160;
  133; 0; 1; 0; 255; 134; 0; 1; 0; 0; 149; 0; 1; 0; 2] = Ok (mkMsg (mkHdr2 151 false None 126 (Some 2759366016) 4925726) [[IE_Imsi (mkIe 1 8 0 [57;
  57; 49; 52; 53; 53; 49; 48; 49; 57; 54; 49; 56; 55; 51])]; [IE_Fqdn (mkIe 136 53 0 [116; 111; 112; 111; 110; 46; 110; 111; 100; 101; 115; 46; 109;
  115; 99; 46; 115; 101; 46; 101; 112; 99; 46; 109; 110; 99; 48; 53; 46; 109; 99; 99; 50; 51; 52; 46; 51; 103; 112; 112; 110; 101; 116; 119; 111; 114;
  107; 46; 111; 114; 103; 46])]; [IE_Tmsi (mkIe 88 4 0 1047222366)]; [IE_Uli (mkIe 86 13 0 [Loc_Tai (mkTai (mkPlmn 247 1 false) 44010); Loc_Ecgi
  (mkEcgi (mkPlmn 247 1 false) 2770448)])]; [IE_GlobalCnId (mkIe 89 5 0 (mkGlobalCn (mkPlmn 999 1 false) 4000))]; [IE_ChannelNeeded (mkIe 133 1 0
  255)]; [IE_EmlppPriority (mkIe 134 1 0 0)]; [IE_ServiceIndicator (mkIe 149 1 0 ServiceIndication_SmsIndicator)]; []]).
Proof. vm_compute. reflexivity. Qed.
Example cspagingindication__test_cs_paging_indication_unmarshal_back : (fun x => msg_marshal md_cspagingindication x []) ((mkMsg (mkHdr2 151 false
  None 126 (Some 2759366016) 4925726) [[IE_Imsi (mkIe 1 8 0 [57; 57; 49; 52; 53; 53; 49; 48; 49; 57; 54; 49; 56; 55; 51])]; [IE_Fqdn (mkIe 136 53 0
  [116; 111; 112; 111; 110; 46; 110; 111; 100; 101; 115; 46; 109; 115; 99; 46; 115; 101; 46; 101; 112; 99; 46; 109; 110; 99; 48; 53; 46; 109; 99; 99;
  50; 51; 52; 46; 51; 103; 112; 112; 110; 101; 116; 119; 111; 114; 107; 46; 111; 114; 103; 46])]; [IE_Tmsi (mkIe 88 4 0 1047222366)]; [IE_Uli (mkIe 86
  13 0 [Loc_Tai (mkTai (mkPlmn 247 1 false) 44010); Loc_Ecgi (mkEcgi (mkPlmn 247 1 false) 2770448)])]; [IE_GlobalCnId (mkIe 89 5 0 (mkGlobalCn (mkPlmn
  999 1 false) 4000))]; [IE_ChannelNeeded (mkIe 133 1 0 255)]; [IE_EmlppPriority (mkIe 134 1 0 0)]; [IE_ServiceIndicator (mkIe 149 1 0
  ServiceIndication_SmsIndicator)]; []])) = [72; 151; 0; 126; 164; 120; 149; 128; 75; 41; 30; 0; 1; 0; 8; 0; 153; 65; 85; 1; 145; 22; 120; 243; 136;
  0; 53; 0; 5; 116; 111; 112; 111; 110; 5; 110; 111; 100; 101; 115; 3; 109; 115; 99; 2; 115; 101; 3; 101; 112; 99; 5; 109; 110; 99; 48; 53; 6; 109;
  99; 99; 50; 51; 52; 11; 51; 103; 112; 112; 110; 101; 116; 119; 111; 114; 107; 3; 111; 114; 103; 0; 88; 0; 4; 0; 62; 107; 88; 94; 86; 0; 13; 0; 24;
  66; 247; 16; 171; 234; 66; 247; 16; 0; 42; 70; 16; 89; 0; 5; 0; 153; 249; 16; 15; 160; 133; 0; 1; 0; 255; 134; 0; 1; 0; 0; 149; 0; 1; 0; 2].
Proof. vm_compute. reflexivity. Qed.
(* gtpv2/messages/deletebearercommand.rs, test_delete_bearer_cmd_unmarshal *)
Example deletebearercommand__test_delete_bearer_cmd_unmarshal : msg_unmarshal md_deletebearercommand Debug [72; 66; 0; 152; 230; 77; 164; 239; 38; 0;
  46; 0; 93; 0; 34; 0; 73; 0; 1; 0; 5; 87; 0; 25; 1; 196; 35; 237; 56; 37; 217; 171; 141; 243; 42; 4; 74; 69; 0; 4; 0; 0; 0; 0; 0; 0; 0; 0; 0; 40; 86;
  0; 13; 0; 24; 50; 244; 2; 13; 89; 50; 244; 2; 0; 197; 88; 2; 114; 0; 2; 0; 0; 0; 180; 0; 18; 0; 183; 0; 4; 0; 255; 170; 238; 17; 182; 0; 1; 0; 96;
  156; 0; 1; 0; 127; 180; 0; 18; 1; 183; 0; 4; 0; 255; 170; 238; 34; 182; 0; 1; 0; 96; 156; 0; 1; 0; 126; 87; 0; 25; 0; 198; 35; 237; 56; 32; 217;
  171; 141; 242; 42; 4; 74; 69; 0; 4; 0; 0; 0; 0; 0; 0; 0; 0; 0; 39; 255; 0; 6; 0; 7; 219; 7; 0; 1; 0] = Ok (mkMsg (mkHdr2 66 false None 152 (Some
  3863848175) 2490414) [[IE_BearerContext (mkIe 93 34 0 (mkBearerContext (mkIe 73 1 0 5) None None [mkIe 87 25 1 (mkFteid 4 602748965 (Some [217; 171;
  141; 243]) (Some [42; 4; 74; 69; 0; 4; 0; 0; 0; 0; 0; 0; 0; 0; 0; 40]))] None None None None None None None None None None))]; [IE_Uli (mkIe 86 13 0
  [Loc_Tai (mkTai (mkPlmn 234 20 false) 3417); Loc_Ecgi (mkEcgi (mkPlmn 234 20 false) 12933122)])]; []; [IE_UeTimeZone (mkIe 114 2 0 (mkUeTimeZone 0
  0))]; [IE_OverloadControlInfo (mkIe 180 18 0 (mkOverloadControlInfo (mkIe 183 4 0 4289392145) (mkIe 182 1 0 96) (mkIe 156 1 0 (mkEpcTimer 3 31))
  None)); IE_OverloadControlInfo (mkIe 180 18 1 (mkOverloadControlInfo (mkIe 183 4 0 4289392162) (mkIe 182 1 0 96) (mkIe 156 1 0 (mkEpcTimer 3 30))
  None))]; [IE_Fteid (mkIe 87 25 0 (mkFteid 6 602748960 (Some [217; 171; 141; 242]) (Some [42; 4; 74; 69; 0; 4; 0; 0; 0; 0; 0; 0; 0; 0; 0; 39])))];
  []; []; [IE_PrivateExtension (mkIe 255 6 0 (mkPrivateExt 2011 [7; 0; 1; 0]))]]).
Proof. vm_compute. reflexivity. Qed.
Example deletebearercommand__test_delete_bearer_cmd_unmarshal_back : (fun x => msg_marshal md_deletebearercommand x []) ((mkMsg (mkHdr2 66 false None
  152 (Some 3863848175) 2490414) [[IE_BearerContext (mkIe 93 34 0 (mkBearerContext (mkIe 73 1 0 5) None None [mkIe 87 25 1 (mkFteid 4 602748965 (Some
  [217; 171; 141; 243]) (Some [42; 4; 74; 69; 0; 4; 0; 0; 0; 0; 0; 0; 0; 0; 0; 40]))] None None None None None None None None None None))]; [IE_Uli
  (mkIe 86 13 0 [Loc_Tai (mkTai (mkPlmn 234 20 false) 3417); Loc_Ecgi (mkEcgi (mkPlmn 234 20 false) 12933122)])]; []; [IE_UeTimeZone (mkIe 114 2 0
  (mkUeTimeZone 0 0))]; [IE_OverloadControlInfo (mkIe 180 18 0 (mkOverloadControlInfo (mkIe 183 4 0 4289392145) (mkIe 182 1 0 96) (mkIe 156 1 0
  (mkEpcTimer 3 31)) None)); IE_OverloadControlInfo (mkIe 180 18 1 (mkOverloadControlInfo (mkIe 183 4 0 4289392162) (mkIe 182 1 0 96) (mkIe 156 1 0
  (mkEpcTimer 3 30)) None))]; [IE_Fteid (mkIe 87 25 0 (mkFteid 6 602748960 (Some [217; 171; 141; 242]) (Some [42; 4; 74; 69; 0; 4; 0; 0; 0; 0; 0; 0;
  0; 0; 0; 39])))]; []; []; [IE_PrivateExtension (mkIe 255 6 0 (mkPrivateExt 2011 [7; 0; 1; 0]))]])) = [72; 66; 0; 152; 230; 77; 164; 239; 38; 0; 46;
  0; 93; 0; 34; 0; 73; 0; 1; 0; 5; 87; 0; 25; 1; 196; 35; 237; 56; 37; 217; 171; 141; 243; 42; 4; 74; 69; 0; 4; 0; 0; 0; 0; 0; 0; 0; 0; 0; 40; 86; 0;
  13; 0; 24; 50; 244; 2; 13; 89; 50; 244; 2; 0; 197; 88; 2; 114; 0; 2; 0; 0; 0; 180; 0; 18; 0; 183; 0; 4; 0; 255; 170; 238; 17; 182; 0; 1; 0; 96; 156;
  0; 1; 0; 127; 180; 0; 18; 1; 183; 0; 4; 0; 255; 170; 238; 34; 182; 0; 1; 0; 96; 156; 0; 1; 0; 126; 87; 0; 25; 0; 198; 35; 237; 56; 32; 217; 171;
  141; 242; 42; 4; 74; 69; 0; 4; 0; 0; 0; 0; 0; 0; 0; 0; 0; 39; 255; 0; 6; 0; 7; 219; 7; 0; 1; 0].
Proof. vm_compute. reflexivity. Qed.
(* gtpv2/messages/deletebearerfailureind.rs, test_delete_bearer_failure_ind_unmarshal *)
Example deletebearerfailureind__test_delete_bearer_failure_ind_unmarshal : msg_unmarshal md_deletebearerfailureind Debug [72; 67; 0; 73; 0; 0; 0; 0;
  0; 0; 104; 0; 2; 0; 2; 0; 77; 0; 93; 0; 11; 0; 2; 0; 2; 0; 77; 0; 73; 0; 1; 0; 5; 180; 0; 18; 0; 183; 0; 4; 0; 255; 170; 238; 17; 182; 0; 1; 0; 96;
  156; 0; 1; 0; 127; 180; 0; 18; 1; 183; 0; 4; 0; 255; 170; 238; 34; 182; 0; 1; 0; 96; 156; 0; 1; 0; 126] = Ok (mkMsg (mkHdr2 67 false None 73 (Some
  0) 104) [[IE_Cause (mkIe 2 2 0 (mkCause 77 false false false None))]; [IE_BearerContext (mkIe 93 11 0 (mkBearerContext (mkIe 73 1 0 5) (Some (mkIe 2
  2 0 (mkCause 77 false false false None))) None [] None None None None None None None None None None))]; []; []; [IE_OverloadControlInfo (mkIe 180 18
  0 (mkOverloadControlInfo (mkIe 183 4 0 4289392145) (mkIe 182 1 0 96) (mkIe 156 1 0 (mkEpcTimer 3 31)) None)); IE_OverloadControlInfo (mkIe 180 18 1
  (mkOverloadControlInfo (mkIe 183 4 0 4289392162) (mkIe 182 1 0 96) (mkIe 156 1 0 (mkEpcTimer 3 30)) None))]; []]).
Proof. vm_compute. reflexivity. Qed.
Example deletebearerfailureind__test_delete_bearer_failure_ind_unmarshal_back : (fun x => msg_marshal md_deletebearerfailureind x []) ((mkMsg (mkHdr2
  67 false None 73 (Some 0) 104) [[IE_Cause (mkIe 2 2 0 (mkCause 77 false false false None))]; [IE_BearerContext (mkIe 93 11 0 (mkBearerContext (mkIe
  73 1 0 5) (Some (mkIe 2 2 0 (mkCause 77 false false false None))) None [] None None None None None None None None None None))]; []; [];
  [IE_OverloadControlInfo (mkIe 180 18 0 (mkOverloadControlInfo (mkIe 183 4 0 4289392145) (mkIe 182 1 0 96) (mkIe 156 1 0 (mkEpcTimer 3 31)) None));
  IE_OverloadControlInfo (mkIe 180 18 1 (mkOverloadControlInfo (mkIe 183 4 0 4289392162) (mkIe 182 1 0 96) (mkIe 156 1 0 (mkEpcTimer 3 30)) None))];
  []])) = [72; 67; 0; 73; 0; 0; 0; 0; 0; 0; 104; 0; 2; 0; 2; 0; 77; 0; 93; 0; 11; 0; 2; 0; 2; 0; 77; 0; 73; 0; 1; 0; 5; 180; 0; 18; 0; 183; 0; 4; 0;
  255; 170; 238; 17; 182; 0; 1; 0; 96; 156; 0; 1; 0; 127; 180; 0; 18; 1; 183; 0; 4; 0; 255; 170; 238; 34; 182; 0; 1; 0; 96; 156; 0; 1; 0; 126].
Proof. vm_compute. reflexivity. Qed.
(* gtpv2/messages/deletebearerreq.rs, test_delete_bearer_req_unmarshal *)
Example deletebearerreq__test_delete_bearer_req_unmarshal : msg_unmarshal md_deletebearerreq Debug [72; 99; 0; 39; 164; 120; 149; 128; 75; 41; 30; 0;
  73; 0; 1; 0; 5; 93; 0; 11; 0; 2; 0; 2; 0; 8; 0; 73; 0; 1; 0; 5; 100; 0; 1; 0; 250; 2; 0; 2; 0; 8; 0] = Ok (mkMsg (mkHdr2 99 false None 39 (Some
  2759366016) 4925726) [[IE_Ebi (mkIe 73 1 0 5)]; []; [IE_BearerContext (mkIe 93 11 0 (mkBearerContext (mkIe 73 1 0 5) (Some (mkIe 2 2 0 (mkCause 8
  false false false None))) None [] None None None None None None None None None None))]; [IE_Pti (mkIe 100 1 0 250)]; []; []; []; [IE_Cause (mkIe 2 2
  0 (mkCause 8 false false false None))]; []; []; []; []; []; []; []; []; []]).
Proof. vm_compute. reflexivity. Qed.
Example deletebearerreq__test_delete_bearer_req_unmarshal_back : (fun x => msg_marshal md_deletebearerreq x []) ((mkMsg (mkHdr2 99 false None 39 (Some
  2759366016) 4925726) [[IE_Ebi (mkIe 73 1 0 5)]; []; [IE_BearerContext (mkIe 93 11 0 (mkBearerContext (mkIe 73 1 0 5) (Some (mkIe 2 2 0 (mkCause 8
  false false false None))) None [] None None None None None None None None None None))]; [IE_Pti (mkIe 100 1 0 250)]; []; []; []; [IE_Cause (mkIe 2 2
  0 (mkCause 8 false false false None))]; []; []; []; []; []; []; []; []; []])) = [72; 99; 0; 39; 164; 120; 149; 128; 75; 41; 30; 0; 73; 0; 1; 0; 5;
  93; 0; 11; 0; 2; 0; 2; 0; 8; 0; 73; 0; 1; 0; 5; 100; 0; 1; 0; 250; 2; 0; 2; 0; 8; 0].
Proof. vm_compute. reflexivity. Qed.
(* gtpv2/messages/deletebearerresp.rs, test_delete_bearer_resp_unmarshal *)
Example deletebearerresp__test_delete_bearer_resp_unmarshal : msg_unmarshal md_deletebearerresp Debug [72; 100; 0; 50; 120; 125; 175; 60; 27; 122;
  174; 0; 2; 0; 2; 0; 16; 0; 73; 0; 1; 0; 5; 114; 0; 2; 0; 2; 0; 86; 0; 13; 0; 24; 66; 247; 16; 171; 234; 66; 247; 16; 0; 42; 70; 16; 170; 0; 4; 0;
  229; 206; 119; 239] = Ok (mkMsg (mkHdr2 100 false None 50 (Some 2021502780) 1800878) [[IE_Cause (mkIe 2 2 0 (mkCause 16 false false false None))];
  [IE_Ebi (mkIe 73 1 0 5)]; []; []; []; []; []; []; []; [IE_UeTimeZone (mkIe 114 2 0 (mkUeTimeZone 2 0))]; [IE_Uli (mkIe 86 13 0 [Loc_Tai (mkTai
  (mkPlmn 247 1 false) 44010); Loc_Ecgi (mkEcgi (mkPlmn 247 1 false) 2770448)])]; [IE_UliTimestamp (mkIe 170 4 0 3855513583)]; []; []; []; []; []; [];
  []; []; []; []; []; []]).
Proof. vm_compute. reflexivity. Qed.
Example deletebearerresp__test_delete_bearer_resp_unmarshal_back : (fun x => msg_marshal md_deletebearerresp x []) ((mkMsg (mkHdr2 100 false None 50
  (Some 2021502780) 1800878) [[IE_Cause (mkIe 2 2 0 (mkCause 16 false false false None))]; [IE_Ebi (mkIe 73 1 0 5)]; []; []; []; []; []; []; [];
  [IE_UeTimeZone (mkIe 114 2 0 (mkUeTimeZone 2 0))]; [IE_Uli (mkIe 86 13 0 [Loc_Tai (mkTai (mkPlmn 247 1 false) 44010); Loc_Ecgi (mkEcgi (mkPlmn 247 1
  false) 2770448)])]; [IE_UliTimestamp (mkIe 170 4 0 3855513583)]; []; []; []; []; []; []; []; []; []; []; []; []])) = [72; 100; 0; 50; 120; 125; 175;
  60; 27; 122; 174; 0; 2; 0; 2; 0; 16; 0; 73; 0; 1; 0; 5; 114; 0; 2; 0; 2; 0; 86; 0; 13; 0; 24; 66; 247; 16; 171; 234; 66; 247; 16; 0; 42; 70; 16;
  170; 0; 4; 0; 229; 206; 119; 239].
Proof. vm_compute. reflexivity. Qed.
(* gtpv2/messages/deleteindirectdatafwtunnelreq.rs, test_delete_indirect_data_fw_tunnel_req_unmarshal *)
Example deleteindirectdatafwtunnelreq__test_delete_indirect_data_fw_tunnel_req_unmarshal : msg_unmarshal md_deleteindirectdatafwtunnelreq Debug [72;
  168; 0; 18; 9; 9; 164; 86; 0; 0; 47; 0; 255; 0; 6; 0; 0; 0; 1; 98; 156; 196] = Ok (mkMsg (mkHdr2 168 false None 18 (Some 151626838) 47)
  [[IE_PrivateExtension (mkIe 255 6 0 (mkPrivateExt 0 [1; 98; 156; 196]))]]).
Proof. vm_compute. reflexivity. Qed.
Example deleteindirectdatafwtunnelreq__test_delete_indirect_data_fw_tunnel_req_unmarshal_back : (fun x => msg_marshal md_deleteindirectdatafwtunnelreq
  x []) ((mkMsg (mkHdr2 168 false None 18 (Some 151626838) 47) [[IE_PrivateExtension (mkIe 255 6 0 (mkPrivateExt 0 [1; 98; 156; 196]))]])) = [72; 168;
  0; 18; 9; 9; 164; 86; 0; 0; 47; 0; 255; 0; 6; 0; 0; 0; 1; 98; 156; 196].
Proof. vm_compute. reflexivity. Qed.
(* gtpv2/messages/deleteindirectdatafwtunnelresp.rs, test_create_indirect_data_fw_tunnel_resp_unmarshal *)
Example deleteindirectdatafwtunnelresp__test_create_indirect_data_fw_tunnel_resp_unmarshal : msg_unmarshal md_deleteindirectdatafwtunnelresp Debug
  [72; 169; 0; 29; 9; 9; 164; 86; 0; 0; 47; 0; 2; 0; 2; 0; 16; 0; 3; 0; 1; 0; 100; 255; 0; 6; 0; 0; 0; 1; 98; 156; 196] = Ok (mkMsg (mkHdr2 169 false
  None 29 (Some 151626838) 47) [[IE_Cause (mkIe 2 2 0 (mkCause 16 false false false None))]; [IE_Recovery (mkIe 3 1 0 100)]; [IE_PrivateExtension
  (mkIe 255 6 0 (mkPrivateExt 0 [1; 98; 156; 196]))]]).
Proof. vm_compute. reflexivity. Qed.
Example deleteindirectdatafwtunnelresp__test_create_indirect_data_fw_tunnel_resp_unmarshal_back : (fun x => msg_marshal
  md_deleteindirectdatafwtunnelresp x []) ((mkMsg (mkHdr2 169 false None 29 (Some 151626838) 47) [[IE_Cause (mkIe 2 2 0 (mkCause 16 false false false
  None))]; [IE_Recovery (mkIe 3 1 0 100)]; [IE_PrivateExtension (mkIe 255 6 0 (mkPrivateExt 0 [1; 98; 156; 196]))]])) = [72; 169; 0; 29; 9; 9; 164;
  86; 0; 0; 47; 0; 2; 0; 2; 0; 16; 0; 3; 0; 1; 0; 100; 255; 0; 6; 0; 0; 0; 1; 98; 156; 196].
Proof. vm_compute. reflexivity. Qed.
(* gtpv2/messages/deletepdnconnectionsetreq.rs, test_delete_pdn_connection_set_req_unmarshal *)
Example deletepdnconnectionsetreq__test_delete_pdn_connection_set_req_unmarshal : msg_unmarshal md_deletepdnconnectionsetreq Debug [72; 101; 0; 29; 0;
  0; 0; 0; 38; 0; 46; 0; 132; 0; 7; 1; 1; 139; 7; 133; 184; 255; 255; 255; 0; 6; 0; 7; 219; 7; 0; 1; 0] = Ok (mkMsg (mkHdr2 101 false None 29 (Some 0)
  2490414) [[]; [IE_Fqcsid (mkIe 132 7 1 (mkFqcsid (NodeV4 [139; 7; 133; 184]) [65535]))]; []; []; []; [IE_PrivateExtension (mkIe 255 6 0
  (mkPrivateExt 2011 [7; 0; 1; 0]))]]).
Proof. vm_compute. reflexivity. Qed.
Example deletepdnconnectionsetreq__test_delete_pdn_connection_set_req_unmarshal_back : (fun x => msg_marshal md_deletepdnconnectionsetreq x [])
  ((mkMsg (mkHdr2 101 false None 29 (Some 0) 2490414) [[]; [IE_Fqcsid (mkIe 132 7 1 (mkFqcsid (NodeV4 [139; 7; 133; 184]) [65535]))]; []; []; [];
  [IE_PrivateExtension (mkIe 255 6 0 (mkPrivateExt 2011 [7; 0; 1; 0]))]])) = [72; 101; 0; 29; 0; 0; 0; 0; 38; 0; 46; 0; 132; 0; 7; 1; 1; 139; 7; 133;
  184; 255; 255; 255; 0; 6; 0; 7; 219; 7; 0; 1; 0].
Proof. vm_compute. reflexivity. Qed.
(* gtpv2/messages/deletepdnconnectionsetresp.rs, test_delete_pdn_connection_set_resp_unmarshal *)
Example deletepdnconnectionsetresp__test_delete_pdn_connection_set_resp_unmarshal : msg_unmarshal md_deletepdnconnectionsetresp Debug [72; 102; 0; 29;
  9; 9; 164; 86; 0; 0; 47; 0; 2; 0; 2; 0; 16; 0; 3; 0; 1; 0; 100; 255; 0; 6; 0; 0; 0; 1; 98; 156; 196] = Ok (mkMsg (mkHdr2 102 false None 29 (Some
  151626838) 47) [[IE_Cause (mkIe 2 2 0 (mkCause 16 false false false None))]; [IE_Recovery (mkIe 3 1 0 100)]; [IE_PrivateExtension (mkIe 255 6 0
  (mkPrivateExt 0 [1; 98; 156; 196]))]]).
Proof. vm_compute. reflexivity. Qed.
Example deletepdnconnectionsetresp__test_delete_pdn_connection_set_resp_unmarshal_back : (fun x => msg_marshal md_deletepdnconnectionsetresp x [])
  ((mkMsg (mkHdr2 102 false None 29 (Some 151626838) 47) [[IE_Cause (mkIe 2 2 0 (mkCause 16 false false false None))]; [IE_Recovery (mkIe 3 1 0 100)];
  [IE_PrivateExtension (mkIe 255 6 0 (mkPrivateExt 0 [1; 98; 156; 196]))]])) = [72; 102; 0; 29; 9; 9; 164; 86; 0; 0; 47; 0; 2; 0; 2; 0; 16; 0; 3; 0;
  1; 0; 100; 255; 0; 6; 0; 0; 0; 1; 98; 156; 196].
Proof. vm_compute. reflexivity. Qed.
(* gtpv2/messages/deletesessionreq.rs, test_delete_session_req_unmarshal *)
Example deletesessionreq__test_delete_session_req_unmarshal : msg_unmarshal md_deletesessionreq Debug [72; 36; 0; 87; 154; 51; 222; 175; 71; 130; 28;
  0; 73; 0; 1; 0; 5; 86; 0; 13; 0; 24; 19; 0; 20; 39; 0; 19; 0; 20; 11; 166; 184; 134; 255; 0; 10; 0; 0; 74; 1; 0; 5; 5; 1; 2; 0; 26; 87; 0; 25; 0;
  198; 130; 21; 98; 28; 166; 137; 249; 215; 38; 0; 3; 0; 32; 32; 30; 255; 0; 0; 0; 0; 0; 0; 0; 7; 170; 0; 4; 0; 229; 206; 119; 243; 172; 0; 2; 0; 16;
  26] = Ok (mkMsg (mkHdr2 36 false None 87 (Some 2587090607) 4686364) [[]; [IE_Ebi (mkIe 73 1 0 5)]; [IE_Uli (mkIe 86 13 0 [Loc_Tai (mkTai (mkPlmn 310
  410 true) 9984); Loc_Ecgi (mkEcgi (mkPlmn 310 410 true) 195475590)])]; []; []; []; [IE_Fteid (mkIe 87 25 0 (mkFteid 6 2182439452 (Some [166; 137;
  249; 215]) (Some [38; 0; 3; 0; 32; 32; 30; 255; 0; 0; 0; 0; 0; 0; 0; 7])))]; []; [IE_UliTimestamp (mkIe 170 4 0 3855513587)]; [IE_RanNasCause (mkIe
  172 2 0 (Rn_S1ap (S1_Radio 26)))]; []; []; []; []; []; []; []; []; []; []; []; [IE_PrivateExtension (mkIe 255 10 0 (mkPrivateExt 74 [1; 0; 5; 5; 1;
  2; 0; 26]))]]).
Proof. vm_compute. reflexivity. Qed.
(* gtpv2/messages/deletesessionresp.rs, test_delete_session_resp_unmarshal *)
Example deletesessionresp__test_delete_session_resp_unmarshal : msg_unmarshal md_deletesessionresp Debug [72; 37; 0; 196; 2; 21; 253; 52; 0; 0; 112;
  0; 2; 0; 2; 0; 16; 0; 3; 0; 1; 0; 8; 78; 0; 35; 0; 128; 128; 33; 16; 1; 0; 0; 16; 129; 6; 0; 0; 0; 0; 131; 6; 0; 0; 0; 0; 0; 13; 0; 0; 3; 0; 0; 10;
  0; 0; 5; 0; 0; 16; 0; 181; 0; 31; 1; 183; 0; 4; 0; 255; 170; 238; 17; 182; 0; 1; 0; 96; 184; 0; 14; 0; 100; 4; 116; 101; 115; 116; 3; 110; 101; 116;
  3; 99; 111; 109; 181; 0; 31; 1; 183; 0; 4; 0; 255; 170; 238; 17; 182; 0; 1; 0; 96; 184; 0; 14; 0; 100; 4; 114; 101; 115; 116; 3; 110; 101; 116; 3;
  99; 111; 109; 180; 0; 18; 0; 183; 0; 4; 0; 255; 170; 238; 17; 182; 0; 1; 0; 96; 156; 0; 1; 0; 127; 180; 0; 18; 1; 183; 0; 4; 0; 255; 170; 238; 34;
  182; 0; 1; 0; 96; 156; 0; 1; 0; 126; 204; 0; 20; 0; 0; 0; 3; 232; 0; 0; 0; 100; 0; 0; 39; 16; 0; 0; 0; 0; 0; 255; 255; 255] = Ok (mkMsg (mkHdr2 37
  false None 196 (Some 34995508) 112) [[IE_Cause (mkIe 2 2 0 (mkCause 16 false false false None))]; [IE_Recovery (mkIe 3 1 0 8)]; [IE_Pco (mkIe 78 35
  0 [128; 128; 33; 16; 1; 0; 0; 16; 129; 6; 0; 0; 0; 0; 131; 6; 0; 0; 0; 0; 0; 13; 0; 0; 3; 0; 0; 10; 0; 0; 5; 0; 0; 16; 0])]; []; [IE_LoadControlInfo
  (mkIe 181 31 1 (mkLoadControl (mkIe 183 4 0 4289392145) (mkIe 182 1 0 96) (Some [mkIe 184 14 0 (mkApnRelCap 100 [116; 101; 115; 116; 46; 110; 101;
  116; 46; 99; 111; 109])]))); IE_LoadControlInfo (mkIe 181 31 1 (mkLoadControl (mkIe 183 4 0 4289392145) (mkIe 182 1 0 96) (Some [mkIe 184 14 0
  (mkApnRelCap 100 [114; 101; 115; 116; 46; 110; 101; 116; 46; 99; 111; 109])])))]; [IE_OverloadControlInfo (mkIe 180 18 0 (mkOverloadControlInfo
  (mkIe 183 4 0 4289392145) (mkIe 182 1 0 96) (mkIe 156 1 0 (mkEpcTimer 3 31)) None)); IE_OverloadControlInfo (mkIe 180 18 1 (mkOverloadControlInfo
  (mkIe 183 4 0 4289392162) (mkIe 182 1 0 96) (mkIe 156 1 0 (mkEpcTimer 3 30)) None))]; []; [IE_ApnRateControlStatus (mkIe 204 20 0 (mkApnRate 1000
  100 10000 16777215))]; []]).
Proof. vm_compute. reflexivity. Qed.
Example deletesessionresp__test_delete_session_resp_unmarshal_back : (fun x => msg_marshal md_deletesessionresp x []) ((mkMsg (mkHdr2 37 false None
  196 (Some 34995508) 112) [[IE_Cause (mkIe 2 2 0 (mkCause 16 false false false None))]; [IE_Recovery (mkIe 3 1 0 8)]; [IE_Pco (mkIe 78 35 0 [128;
  128; 33; 16; 1; 0; 0; 16; 129; 6; 0; 0; 0; 0; 131; 6; 0; 0; 0; 0; 0; 13; 0; 0; 3; 0; 0; 10; 0; 0; 5; 0; 0; 16; 0])]; []; [IE_LoadControlInfo (mkIe
  181 31 1 (mkLoadControl (mkIe 183 4 0 4289392145) (mkIe 182 1 0 96) (Some [mkIe 184 14 0 (mkApnRelCap 100 [116; 101; 115; 116; 46; 110; 101; 116;
  46; 99; 111; 109])]))); IE_LoadControlInfo (mkIe 181 31 1 (mkLoadControl (mkIe 183 4 0 4289392145) (mkIe 182 1 0 96) (Some [mkIe 184 14 0
  (mkApnRelCap 100 [114; 101; 115; 116; 46; 110; 101; 116; 46; 99; 111; 109])])))]; [IE_OverloadControlInfo (mkIe 180 18 0 (mkOverloadControlInfo
  (mkIe 183 4 0 4289392145) (mkIe 182 1 0 96) (mkIe 156 1 0 (mkEpcTimer 3 31)) None)); IE_OverloadControlInfo (mkIe 180 18 1 (mkOverloadControlInfo
  (mkIe 183 4 0 4289392162) (mkIe 182 1 0 96) (mkIe 156 1 0 (mkEpcTimer 3 30)) None))]; []; [IE_ApnRateControlStatus (mkIe 204 20 0 (mkApnRate 1000
  100 10000 16777215))]; []])) = [72; 37; 0; 196; 2; 21; 253; 52; 0; 0; 112; 0; 2; 0; 2; 0; 16; 0; 3; 0; 1; 0; 8; 78; 0; 35; 0; 128; 128; 33; 16; 1;
  0; 0; 16; 129; 6; 0; 0; 0; 0; 131; 6; 0; 0; 0; 0; 0; 13; 0; 0; 3; 0; 0; 10; 0; 0; 5; 0; 0; 16; 0; 181; 0; 31; 1; 183; 0; 4; 0; 255; 170; 238; 17;
  182; 0; 1; 0; 96; 184; 0; 14; 0; 100; 4; 116; 101; 115; 116; 3; 110; 101; 116; 3; 99; 111; 109; 181; 0; 31; 1; 183; 0; 4; 0; 255; 170; 238; 17; 182;
  0; 1; 0; 96; 184; 0; 14; 0; 100; 4; 114; 101; 115; 116; 3; 110; 101; 116; 3; 99; 111; 109; 180; 0; 18; 0; 183; 0; 4; 0; 255; 170; 238; 17; 182; 0;
  1; 0; 96; 156; 0; 1; 0; 127; 180; 0; 18; 1; 183; 0; 4; 0; 255; 170; 238; 34; 182; 0; 1; 0; 96; 156; 0; 1; 0; 126; 204; 0; 20; 0; 0; 0; 3; 232; 0; 0;
  0; 100; 0; 0; 39; 16; 0; 0; 0; 0; 0; 255; 255; 255].
Proof. vm_compute. reflexivity. Qed.
(* gtpv2/messages/detachacknowledge.rs, test_detach_ack_unmarshal *)
Example detachacknowledge__test_detach_ack_unmarshal : msg_unmarshal md_detachacknowledge Debug [72; 150; 0; 29; 9; 9; 164; 86; 0; 0; 47; 0; 2; 0; 2;
  0; 16; 0; 3; 0; 1; 0; 100; 255; 0; 6; 0; 0; 0; 1; 98; 156; 196] = Ok (mkMsg (mkHdr2 150 false None 29 (Some 151626838) 47) [[IE_Cause (mkIe 2 2 0
  (mkCause 16 false false false None))]; [IE_Recovery (mkIe 3 1 0 100)]; [IE_PrivateExtension (mkIe 255 6 0 (mkPrivateExt 0 [1; 98; 156; 196]))]]).
Proof. vm_compute. reflexivity. Qed.
Example detachacknowledge__test_detach_ack_unmarshal_back : (fun x => msg_marshal md_detachacknowledge x []) ((mkMsg (mkHdr2 150 false None 29 (Some
  151626838) 47) [[IE_Cause (mkIe 2 2 0 (mkCause 16 false false false None))]; [IE_Recovery (mkIe 3 1 0 100)]; [IE_PrivateExtension (mkIe 255 6 0
  (mkPrivateExt 0 [1; 98; 156; 196]))]])) = [72; 150; 0; 29; 9; 9; 164; 86; 0; 0; 47; 0; 2; 0; 2; 0; 16; 0; 3; 0; 1; 0; 100; 255; 0; 6; 0; 0; 0; 1;
  98; 156; 196].
Proof. vm_compute. reflexivity. Qed.
(* gtpv2/messages/detachnotification.rs, test_detach_notification_unmarshal *)
Example detachnotification__test_detach_notification_unmarshal : msg_unmarshal md_detachnotification Debug [72; 149; 0; 29; 9; 9; 164; 86; 0; 0; 47;
  0; 2; 0; 2; 0; 16; 0; 150; 0; 1; 0; 2; 255; 0; 6; 0; 0; 0; 1; 98; 156; 196] = Ok (mkMsg (mkHdr2 149 false None 29 (Some 151626838) 47) [[IE_Cause
  (mkIe 2 2 0 (mkCause 16 false false false None))]; [IE_DetachType (mkIe 150 1 0 DetachTypeValue_CombinedPsCsDetach)]; [IE_PrivateExtension (mkIe 255
  6 0 (mkPrivateExt 0 [1; 98; 156; 196]))]]).
Proof. vm_compute. reflexivity. Qed.
Example detachnotification__test_detach_notification_unmarshal_back : (fun x => msg_marshal md_detachnotification x []) ((mkMsg (mkHdr2 149 false None
  29 (Some 151626838) 47) [[IE_Cause (mkIe 2 2 0 (mkCause 16 false false false None))]; [IE_DetachType (mkIe 150 1 0
  DetachTypeValue_CombinedPsCsDetach)]; [IE_PrivateExtension (mkIe 255 6 0 (mkPrivateExt 0 [1; 98; 156; 196]))]])) = [72; 149; 0; 29; 9; 9; 164; 86;
  0; 0; 47; 0; 2; 0; 2; 0; 16; 0; 150; 0; 1; 0; 2; 255; 0; 6; 0; 0; 0; 1; 98; 156; 196].
Proof. vm_compute. reflexivity. Qed.
(* gtpv2/messages/downlinkdatanotification.rs, test_dl_data_notification_unmarshal *)
Example downlinkdatanotification__test_dl_data_notification_unmarshal : msg_unmarshal md_downlinkdatanotification Debug [72; 179; 0; 125; 9; 9; 164;
  86; 0; 0; 47; 0; 2; 0; 2; 0; 6; 0; 73; 0; 1; 0; 5; 155; 0; 1; 0; 0; 1; 0; 6; 0; 9; 65; 80; 1; 1; 55; 87; 0; 9; 0; 133; 59; 149; 152; 90; 62; 153;
  137; 85; 77; 0; 10; 0; 0; 0; 0; 0; 2; 0; 0; 0; 0; 0; 181; 0; 31; 0; 183; 0; 4; 0; 255; 170; 238; 17; 182; 0; 1; 0; 96; 184; 0; 14; 0; 100; 4; 116;
  101; 115; 116; 3; 110; 101; 116; 3; 99; 111; 109; 180; 0; 18; 0; 183; 0; 4; 0; 255; 170; 238; 17; 182; 0; 1; 0; 96; 156; 0; 1; 0; 127; 186; 0; 3; 0;
  5; 1; 3] = Ok (mkMsg (mkHdr2 179 false None 125 (Some 151626838) 47) [[IE_Cause (mkIe 2 2 0 (mkCause 6 false false false None))]; [IE_Ebi (mkIe 73 1
  0 5)]; [IE_Arp (mkIe 155 1 0 (mkArp false 0 false))]; [IE_Imsi (mkIe 1 6 0 [57; 48; 49; 52; 48; 53; 49; 48; 49; 48; 55; 51])]; [IE_Fteid (mkIe 87 9
  0 (mkFteid 5 999659610 (Some [62; 153; 137; 85]) None))]; [IE_Indication (mkIe 77 10 0 (mkIndication false false false false false false false false
  false false false false false false false false false false false false false false false false false false false false false false false false
  false false false false false false true false false false false false false false false false false false false false false false false false false
  false false false false false false false false false false false false false false false false false false))]; [IE_LoadControlInfo (mkIe 181 31 0
  (mkLoadControl (mkIe 183 4 0 4289392145) (mkIe 182 1 0 96) (Some [mkIe 184 14 0 (mkApnRelCap 100 [116; 101; 115; 116; 46; 110; 101; 116; 46; 99;
  111; 109])])))]; [IE_OverloadControlInfo (mkIe 180 18 0 (mkOverloadControlInfo (mkIe 183 4 0 4289392145) (mkIe 182 1 0 96) (mkIe 156 1 0 (mkEpcTimer
  3 31)) None))]; [IE_PagingServiceInfo (mkIe 186 3 0 (mkPagingInfo 5 (Some 3)))]; []; []]).
Proof. vm_compute. reflexivity. Qed.
Example downlinkdatanotification__test_dl_data_notification_unmarshal_back : (fun x => msg_marshal md_downlinkdatanotification x []) ((mkMsg (mkHdr2
  179 false None 125 (Some 151626838) 47) [[IE_Cause (mkIe 2 2 0 (mkCause 6 false false false None))]; [IE_Ebi (mkIe 73 1 0 5)]; [IE_Arp (mkIe 155 1 0
  (mkArp false 0 false))]; [IE_Imsi (mkIe 1 6 0 [57; 48; 49; 52; 48; 53; 49; 48; 49; 48; 55; 51])]; [IE_Fteid (mkIe 87 9 0 (mkFteid 5 999659610 (Some
  [62; 153; 137; 85]) None))]; [IE_Indication (mkIe 77 10 0 (mkIndication false false false false false false false false false false false false
  false false false false false false false false false false false false false false false false false false false false false false false false
  false false true false false false false false false false false false false false false false false false false false false false false false false
  false false false false false false false false false false false false false false))]; [IE_LoadControlInfo (mkIe 181 31 0 (mkLoadControl (mkIe 183
  4 0 4289392145) (mkIe 182 1 0 96) (Some [mkIe 184 14 0 (mkApnRelCap 100 [116; 101; 115; 116; 46; 110; 101; 116; 46; 99; 111; 109])])))];
  [IE_OverloadControlInfo (mkIe 180 18 0 (mkOverloadControlInfo (mkIe 183 4 0 4289392145) (mkIe 182 1 0 96) (mkIe 156 1 0 (mkEpcTimer 3 31)) None))];
  [IE_PagingServiceInfo (mkIe 186 3 0 (mkPagingInfo 5 (Some 3)))]; []; []])) = [72; 179; 0; 125; 9; 9; 164; 86; 0; 0; 47; 0; 2; 0; 2; 0; 6; 0; 73; 0;
  1; 0; 5; 155; 0; 1; 0; 0; 1; 0; 6; 0; 9; 65; 80; 1; 1; 55; 87; 0; 9; 0; 133; 59; 149; 152; 90; 62; 153; 137; 85; 77; 0; 10; 0; 0; 0; 0; 0; 2; 0; 0;
  0; 0; 0; 181; 0; 31; 0; 183; 0; 4; 0; 255; 170; 238; 17; 182; 0; 1; 0; 96; 184; 0; 14; 0; 100; 4; 116; 101; 115; 116; 3; 110; 101; 116; 3; 99; 111;
  109; 180; 0; 18; 0; 183; 0; 4; 0; 255; 170; 238; 17; 182; 0; 1; 0; 96; 156; 0; 1; 0; 127; 186; 0; 3; 0; 5; 1; 3].
Proof. vm_compute. reflexivity. Qed.
(* gtpv2/messages/downlinkdatanotificationacknowledge.rs, test_dl_data_notif_ack_unmarshal *)
Example downlinkdatanotificationacknowledge__test_dl_data_notif_ack_unmarshal : msg_unmarshal md_downlinkdatanotificationacknowledge Debug [72; 177;
  0; 60; 9; 9; 164; 86; 0; 0; 47; 0; 2; 0; 2; 0; 16; 0; 92; 0; 1; 0; 1; 3; 0; 1; 0; 100; 154; 0; 2; 0; 34; 3; 1; 0; 6; 0; 9; 65; 80; 1; 1; 55; 156; 0;
  1; 0; 100; 187; 0; 1; 0; 255; 255; 0; 6; 0; 0; 0; 1; 98; 156; 196] = Ok (mkMsg (mkHdr2 177 false None 60 (Some 151626838) 47) [[IE_Cause (mkIe 2 2 0
  (mkCause 16 false false false None))]; [IE_DelayValue (mkIe 92 1 0 1)]; [IE_Recovery (mkIe 3 1 0 100)]; [IE_Throttling (mkIe 154 2 0 (mkThrottle 1 2
  3))]; [IE_Imsi (mkIe 1 6 0 [57; 48; 49; 52; 48; 53; 49; 48; 49; 48; 55; 51])]; [IE_EpcTimer (mkIe 156 1 0 (mkEpcTimer 3 4))]; [IE_IntegerNumber
  (mkIe 187 1 0 [255])]; [IE_PrivateExtension (mkIe 255 6 0 (mkPrivateExt 0 [1; 98; 156; 196]))]]).
Proof. vm_compute. reflexivity. Qed.
Example downlinkdatanotificationacknowledge__test_dl_data_notif_ack_unmarshal_back : (fun x => msg_marshal md_downlinkdatanotificationacknowledge x
  []) ((mkMsg (mkHdr2 177 false None 60 (Some 151626838) 47) [[IE_Cause (mkIe 2 2 0 (mkCause 16 false false false None))]; [IE_DelayValue (mkIe 92 1 0
  1)]; [IE_Recovery (mkIe 3 1 0 100)]; [IE_Throttling (mkIe 154 2 0 (mkThrottle 1 2 3))]; [IE_Imsi (mkIe 1 6 0 [57; 48; 49; 52; 48; 53; 49; 48; 49;
  48; 55; 51])]; [IE_EpcTimer (mkIe 156 1 0 (mkEpcTimer 3 4))]; [IE_IntegerNumber (mkIe 187 1 0 [255])]; [IE_PrivateExtension (mkIe 255 6 0
  (mkPrivateExt 0 [1; 98; 156; 196]))]])) = [72; 177; 0; 60; 9; 9; 164; 86; 0; 0; 47; 0; 2; 0; 2; 0; 16; 0; 92; 0; 1; 0; 1; 3; 0; 1; 0; 100; 154; 0;
  2; 0; 34; 3; 1; 0; 6; 0; 9; 65; 80; 1; 1; 55; 156; 0; 1; 0; 100; 187; 0; 1; 0; 255; 255; 0; 6; 0; 0; 0; 1; 98; 156; 196].
Proof. vm_compute. reflexivity. Qed.
(* gtpv2/messages/downlinkdatanotificationfailureindication.rs, test_dl_data_notification_fail_ind_unmarshal *)
Example downlinkdatanotificationfailureindication__test_dl_data_notification_fail_ind_unmarshal : msg_unmarshal
  md_downlinkdatanotificationfailureindication Debug [72; 70; 0; 41; 230; 77; 164; 239; 38; 0; 46; 0; 2; 0; 2; 0; 16; 0; 135; 0; 1; 0; 0; 1; 0; 8; 0;
  9; 65; 80; 1; 1; 55; 120; 244; 255; 0; 6; 0; 7; 219; 7; 0; 1; 0] = Ok (mkMsg (mkHdr2 70 false None 41 (Some 3863848175) 2490414) [[IE_Cause (mkIe 2
  2 0 (mkCause 16 false false false None))]; [IE_NodeType (mkIe 135 1 0 Node_Mme)]; [IE_Imsi (mkIe 1 8 0 [57; 48; 49; 52; 48; 53; 49; 48; 49; 48; 55;
  51; 56; 55; 52])]; [IE_PrivateExtension (mkIe 255 6 0 (mkPrivateExt 2011 [7; 0; 1; 0]))]]).
Proof. vm_compute. reflexivity. Qed.
Example downlinkdatanotificationfailureindication__test_dl_data_notification_fail_ind_unmarshal_back : (fun x => msg_marshal
  md_downlinkdatanotificationfailureindication x []) ((mkMsg (mkHdr2 70 false None 41 (Some 3863848175) 2490414) [[IE_Cause (mkIe 2 2 0 (mkCause 16
  false false false None))]; [IE_NodeType (mkIe 135 1 0 Node_Mme)]; [IE_Imsi (mkIe 1 8 0 [57; 48; 49; 52; 48; 53; 49; 48; 49; 48; 55; 51; 56; 55;
  52])]; [IE_PrivateExtension (mkIe 255 6 0 (mkPrivateExt 2011 [7; 0; 1; 0]))]])) = [72; 70; 0; 41; 230; 77; 164; 239; 38; 0; 46; 0; 2; 0; 2; 0; 16;
  0; 135; 0; 1; 0; 0; 1; 0; 8; 0; 9; 65; 80; 1; 1; 55; 120; 244; 255; 0; 6; 0; 7; 219; 7; 0; 1; 0].
Proof. vm_compute. reflexivity. Qed.
(* gtpv2/messages/echoreq.rs, test_echo_req_unmarshal *)
Example echoreq__test_echo_req_unmarshal : msg_unmarshal md_echoreq Debug [64; 1; 0; 16; 45; 204; 56; 0; 3; 0; 1; 0; 12; 255; 0; 3; 0; 0; 10; 255] =
  Ok (mkMsg (mkHdr2 1 false None 16 None 3001400) [[IE_Recovery (mkIe 3 1 0 12)]; []; [IE_PrivateExtension (mkIe 255 3 0 (mkPrivateExt 10 [255]))]]).
Proof. vm_compute. reflexivity. Qed.
Example echoreq__test_echo_req_unmarshal_back : (fun x => msg_marshal md_echoreq x []) ((mkMsg (mkHdr2 1 false None 16 None 3001400) [[IE_Recovery
  (mkIe 3 1 0 12)]; []; [IE_PrivateExtension (mkIe 255 3 0 (mkPrivateExt 10 [255]))]])) = [64; 1; 0; 16; 45; 204; 56; 0; 3; 0; 1; 0; 12; 255; 0; 3; 0;
  0; 10; 255].
Proof. vm_compute. reflexivity. Qed.
(* gtpv2/messages/echoreq.rs, test_echo_req_no_mandatory_ie_unmarshal *)
Example echoreq__test_echo_req_no_mandatory_ie_unmarshal : msg_unmarshal md_echoreq Debug [64; 1; 0; 11; 45; 204; 56; 0; 255; 0; 3; 0; 0; 10; 255] =
  Err (MessageMandatoryIEMissing 3).
Proof. vm_compute. reflexivity. Qed.
(* gtpv2/messages/echoresp.rs, test_echo_resp_unmarshal *)
Example echoresp__test_echo_resp_unmarshal : msg_unmarshal md_echoresp Debug [64; 2; 0; 16; 45; 204; 56; 0; 3; 0; 1; 0; 33; 255; 0; 3; 0; 0; 10; 255]
  = Ok (mkMsg (mkHdr2 2 false None 16 None 3001400) [[IE_Recovery (mkIe 3 1 0 33)]; []; [IE_PrivateExtension (mkIe 255 3 0 (mkPrivateExt 10
  [255]))]]).
Proof. vm_compute. reflexivity. Qed.
Example echoresp__test_echo_resp_unmarshal_back : (fun x => msg_marshal md_echoresp x []) ((mkMsg (mkHdr2 2 false None 16 None 3001400) [[IE_Recovery
  (mkIe 3 1 0 33)]; []; [IE_PrivateExtension (mkIe 255 3 0 (mkPrivateExt 10 [255]))]])) = [64; 2; 0; 16; 45; 204; 56; 0; 3; 0; 1; 0; 33; 255; 0; 3; 0;
  0; 10; 255].
Proof. vm_compute. reflexivity. Qed.
(* gtpv2/messages/echoresp.rs, test_echo_resp_no_mandatory_ie_unmarshal *)
Example echoresp__test_echo_resp_no_mandatory_ie_unmarshal : msg_unmarshal md_echoresp Debug [64; 2; 0; 11; 45; 204; 56; 0; 255; 0; 3; 0; 0; 10; 255]
  = Err (MessageMandatoryIEMissing 3).
Proof. vm_compute. reflexivity. Qed.
(* gtpv2/messages/forwardaccesscontextacknowledge.rs, test_fwd_access_ctx_ack_unmarshal *)
Example forwardaccesscontextacknowledge__test_fwd_access_ctx_ack_unmarshal : msg_unmarshal md_forwardaccesscontextacknowledge Debug [72; 138; 0; 24;
  164; 120; 149; 128; 75; 41; 30; 0; 2; 0; 2; 0; 16; 0; 255; 0; 6; 0; 7; 219; 7; 0; 1; 0] = Ok (mkMsg (mkHdr2 138 false None 24 (Some 2759366016)
  4925726) [[IE_Cause (mkIe 2 2 0 (mkCause 16 false false false None))]; [IE_PrivateExtension (mkIe 255 6 0 (mkPrivateExt 2011 [7; 0; 1; 0]))]]).
Proof. vm_compute. reflexivity. Qed.
Example forwardaccesscontextacknowledge__test_fwd_access_ctx_ack_unmarshal_back : (fun x => msg_marshal md_forwardaccesscontextacknowledge x [])
  ((mkMsg (mkHdr2 138 false None 24 (Some 2759366016) 4925726) [[IE_Cause (mkIe 2 2 0 (mkCause 16 false false false None))]; [IE_PrivateExtension
  (mkIe 255 6 0 (mkPrivateExt 2011 [7; 0; 1; 0]))]])) = [72; 138; 0; 24; 164; 120; 149; 128; 75; 41; 30; 0; 2; 0; 2; 0; 16; 0; 255; 0; 6; 0; 7; 219;
  7; 0; 1; 0].
Proof. vm_compute. reflexivity. Qed.
(* gtpv2/messages/forwardaccesscontextnotification.rs, test_fwd_access_ctx_notif_unmarshal *)
Example forwardaccesscontextnotification__test_fwd_access_ctx_notif_unmarshal : msg_unmarshal md_forwardaccesscontextnotification Debug [72; 137; 0;
  112; 9; 9; 164; 86; 0; 0; 47; 0; 124; 0; 9; 0; 5; 255; 0; 0; 255; 170; 0; 0; 170; 124; 0; 9; 0; 6; 255; 0; 0; 255; 170; 0; 0; 170; 124; 0; 9; 0; 7;
  255; 0; 0; 255; 170; 0; 0; 170; 125; 0; 20; 0; 128; 128; 33; 16; 1; 1; 0; 16; 129; 6; 0; 0; 0; 0; 131; 6; 0; 0; 0; 0; 110; 0; 9; 0; 5; 255; 0; 0;
  255; 170; 0; 0; 170; 118; 0; 5; 0; 2; 1; 98; 156; 196; 118; 0; 5; 0; 2; 1; 98; 156; 196; 255; 0; 6; 0; 0; 0; 1; 98; 156; 196] = Ok (mkMsg (mkHdr2
  137 false None 112 (Some 151626838) 47) [[IE_RabContext (mkIe 124 9 0 (mkRabCtx 5 65280 255 43520 170)); IE_RabContext (mkIe 124 9 0 (mkRabCtx 6
  65280 255 43520 170)); IE_RabContext (mkIe 124 9 0 (mkRabCtx 7 65280 255 43520 170))]; [IE_SrcRncPdcpCtxInfo (mkIe 125 20 0 [128; 128; 33; 16; 1; 1;
  0; 16; 129; 6; 0; 0; 0; 0; 131; 6; 0; 0; 0; 0])]; [IE_PduNumbers (mkIe 110 9 0 (mkPduNumbers 5 65280 255 43520 170))]; [IE_Fcontainer (mkIe 118 5 0
  (FcBss [1; 98; 156; 196])); IE_Fcontainer (mkIe 118 5 0 (FcBss [1; 98; 156; 196]))]; [IE_PrivateExtension (mkIe 255 6 0 (mkPrivateExt 0 [1; 98; 156;
  196]))]]).
Proof. vm_compute. reflexivity. Qed.
Example forwardaccesscontextnotification__test_fwd_access_ctx_notif_unmarshal_back : (fun x => msg_marshal md_forwardaccesscontextnotification x [])
  ((mkMsg (mkHdr2 137 false None 112 (Some 151626838) 47) [[IE_RabContext (mkIe 124 9 0 (mkRabCtx 5 65280 255 43520 170)); IE_RabContext (mkIe 124 9 0
  (mkRabCtx 6 65280 255 43520 170)); IE_RabContext (mkIe 124 9 0 (mkRabCtx 7 65280 255 43520 170))]; [IE_SrcRncPdcpCtxInfo (mkIe 125 20 0 [128; 128;
  33; 16; 1; 1; 0; 16; 129; 6; 0; 0; 0; 0; 131; 6; 0; 0; 0; 0])]; [IE_PduNumbers (mkIe 110 9 0 (mkPduNumbers 5 65280 255 43520 170))]; [IE_Fcontainer
  (mkIe 118 5 0 (FcBss [1; 98; 156; 196])); IE_Fcontainer (mkIe 118 5 0 (FcBss [1; 98; 156; 196]))]; [IE_PrivateExtension (mkIe 255 6 0 (mkPrivateExt
  0 [1; 98; 156; 196]))]])) = [72; 137; 0; 112; 9; 9; 164; 86; 0; 0; 47; 0; 124; 0; 9; 0; 5; 255; 0; 0; 255; 170; 0; 0; 170; 124; 0; 9; 0; 6; 255; 0;
  0; 255; 170; 0; 0; 170; 124; 0; 9; 0; 7; 255; 0; 0; 255; 170; 0; 0; 170; 125; 0; 20; 0; 128; 128; 33; 16; 1; 1; 0; 16; 129; 6; 0; 0; 0; 0; 131; 6;
  0; 0; 0; 0; 110; 0; 9; 0; 5; 255; 0; 0; 255; 170; 0; 0; 170; 118; 0; 5; 0; 2; 1; 98; 156; 196; 118; 0; 5; 0; 2; 1; 98; 156; 196; 255; 0; 6; 0; 0; 0;
  1; 98; 156; 196].
Proof. vm_compute. reflexivity. Qed.
(* gtpv2/messages/forwardrelocationcompleteacknowledge.rs, test_fwd_reloc_complete_ack_unmarshal *)
Example forwardrelocationcompleteacknowledge__test_fwd_reloc_complete_ack_unmarshal : msg_unmarshal md_forwardrelocationcompleteacknowledge Debug [72;
  136; 0; 91; 164; 120; 149; 128; 75; 41; 30; 0; 2; 0; 2; 0; 16; 0; 3; 0; 1; 0; 8; 201; 0; 27; 0; 1; 2; 5; 0; 0; 0; 255; 0; 0; 255; 255; 0; 0; 0; 0;
  255; 255; 255; 0; 0; 0; 0; 0; 0; 0; 255; 255; 201; 0; 27; 1; 1; 7; 5; 0; 0; 0; 255; 0; 0; 255; 255; 0; 0; 0; 0; 255; 255; 255; 0; 0; 0; 0; 0; 0; 0;
  255; 255; 255; 0; 6; 0; 7; 219; 7; 0; 1; 0] = Ok (mkMsg (mkHdr2 136 false None 91 (Some 2759366016) 4925726) [[IE_Cause (mkIe 2 2 0 (mkCause 16
  false false false None))]; [IE_Recovery (mkIe 3 1 0 8)]; [IE_SecondaryRatUsageDataReport (mkIe 201 27 0 (mkRatReport false true 2 5 255 65535
  4294967040 65535 None)); IE_SecondaryRatUsageDataReport (mkIe 201 27 1 (mkRatReport false true 7 5 255 65535 4294967040 65535 None))];
  [IE_PrivateExtension (mkIe 255 6 0 (mkPrivateExt 2011 [7; 0; 1; 0]))]]).
Proof. vm_compute. reflexivity. Qed.
Example forwardrelocationcompleteacknowledge__test_fwd_reloc_complete_ack_unmarshal_back : (fun x => msg_marshal
  md_forwardrelocationcompleteacknowledge x []) ((mkMsg (mkHdr2 136 false None 91 (Some 2759366016) 4925726) [[IE_Cause (mkIe 2 2 0 (mkCause 16 false
  false false None))]; [IE_Recovery (mkIe 3 1 0 8)]; [IE_SecondaryRatUsageDataReport (mkIe 201 27 0 (mkRatReport false true 2 5 255 65535 4294967040
  65535 None)); IE_SecondaryRatUsageDataReport (mkIe 201 27 1 (mkRatReport false true 7 5 255 65535 4294967040 65535 None))]; [IE_PrivateExtension
  (mkIe 255 6 0 (mkPrivateExt 2011 [7; 0; 1; 0]))]])) = [72; 136; 0; 91; 164; 120; 149; 128; 75; 41; 30; 0; 2; 0; 2; 0; 16; 0; 3; 0; 1; 0; 8; 201; 0;
  27; 0; 1; 2; 5; 0; 0; 0; 255; 0; 0; 255; 255; 0; 0; 0; 0; 255; 255; 255; 0; 0; 0; 0; 0; 0; 0; 255; 255; 201; 0; 27; 1; 1; 7; 5; 0; 0; 0; 255; 0; 0;
  255; 255; 0; 0; 0; 0; 255; 255; 255; 0; 0; 0; 0; 0; 0; 0; 255; 255; 255; 0; 6; 0; 7; 219; 7; 0; 1; 0].
Proof. vm_compute. reflexivity. Qed.
(* gtpv2/messages/forwardrelocationcompletenotification.rs, test_fwd_reloc_complete_notif_unmarshal *)
Example forwardrelocationcompletenotification__test_fwd_reloc_complete_notif_unmarshal : msg_unmarshal md_forwardrelocationcompletenotification Debug
  [72; 135; 0; 32; 164; 120; 149; 128; 75; 41; 30; 0; 77; 0; 10; 0; 0; 0; 0; 0; 0; 0; 0; 0; 4; 0; 255; 0; 6; 0; 7; 219; 7; 0; 1; 0] = Ok (mkMsg
  (mkHdr2 135 false None 32 (Some 2759366016) 4925726) [[IE_Indication (mkIe 77 10 0 (mkIndication false false false false false false false false
  false false false false false false false false false false false false false false false false false false false false false false false false
  false false false false false false false false false false false false false false false false false false false false false false false false
  false false false false false false false false false false false false false true false false false false false))]; [IE_PrivateExtension (mkIe 255
  6 0 (mkPrivateExt 2011 [7; 0; 1; 0]))]]).
Proof. vm_compute. reflexivity. Qed.
Example forwardrelocationcompletenotification__test_fwd_reloc_complete_notif_unmarshal_back : (fun x => msg_marshal
  md_forwardrelocationcompletenotification x []) ((mkMsg (mkHdr2 135 false None 32 (Some 2759366016) 4925726) [[IE_Indication (mkIe 77 10 0
  (mkIndication false false false false false false false false false false false false false false false false false false false false false false
  false false false false false false false false false false false false false false false false false false false false false false false false
  false false false false false false false false false false false false false false false false false false false false false false false true false
  false false false false))]; [IE_PrivateExtension (mkIe 255 6 0 (mkPrivateExt 2011 [7; 0; 1; 0]))]])) = [72; 135; 0; 32; 164; 120; 149; 128; 75; 41;
  30; 0; 77; 0; 10; 0; 0; 0; 0; 0; 0; 0; 0; 0; 4; 0; 255; 0; 6; 0; 7; 219; 7; 0; 1; 0].
Proof. vm_compute. reflexivity. Qed.
(* gtpv2/messages/forwardrelocationreq.rs, test_fwd_reloc_req_unmarshal *)
Example forwardrelocationreq__test_fwd_reloc_req_unmarshal : msg_unmarshal md_forwardrelocationreq Debug [72; 133; 1; 171; 164; 120; 149; 128; 75; 41;
  30; 0; 87; 0; 9; 0; 134; 39; 137; 47; 112; 139; 7; 133; 184; 107; 1; 136; 0; 152; 39; 129; 39; 0; 255; 255; 255; 255; 255; 255; 255; 255; 255; 255;
  255; 255; 255; 255; 255; 255; 255; 255; 255; 255; 255; 255; 255; 255; 255; 255; 255; 255; 255; 255; 255; 255; 255; 255; 255; 255; 1; 2; 3; 4; 5; 6;
  7; 8; 9; 10; 11; 12; 13; 14; 15; 16; 3; 2; 7; 8; 3; 3; 9; 10; 11; 12; 13; 14; 15; 0; 0; 0; 0; 0; 0; 0; 0; 0; 0; 0; 0; 0; 0; 0; 0; 0; 0; 0; 0; 0; 0;
  0; 0; 0; 0; 0; 1; 2; 3; 4; 5; 6; 7; 8; 9; 10; 11; 12; 13; 14; 15; 16; 3; 2; 7; 8; 1; 2; 3; 4; 5; 6; 7; 8; 9; 10; 11; 12; 13; 14; 15; 16; 1; 2; 3; 4;
  5; 6; 7; 8; 9; 10; 11; 12; 13; 14; 15; 16; 3; 3; 9; 10; 1; 2; 170; 170; 170; 170; 170; 170; 170; 170; 170; 170; 170; 170; 170; 170; 170; 170; 170;
  170; 170; 170; 170; 170; 170; 170; 170; 170; 170; 170; 170; 170; 170; 170; 5; 0; 0; 7; 208; 0; 0; 31; 64; 0; 0; 7; 208; 0; 0; 31; 64; 4; 1; 2; 3; 4;
  4; 1; 2; 3; 4; 4; 1; 2; 3; 4; 0; 173; 255; 255; 255; 255; 255; 255; 255; 255; 255; 255; 255; 255; 255; 255; 255; 255; 255; 255; 255; 255; 255; 255;
  255; 255; 255; 255; 255; 255; 255; 255; 255; 255; 255; 255; 255; 255; 255; 255; 255; 255; 255; 255; 255; 255; 255; 255; 255; 255; 255; 255; 255;
  255; 255; 255; 255; 255; 255; 255; 255; 255; 255; 255; 255; 255; 4; 1; 2; 3; 4; 4; 1; 2; 3; 4; 1; 3; 4; 1; 2; 3; 4; 4; 1; 2; 3; 4; 2; 0; 34; 0; 12;
  116; 101; 115; 116; 46; 97; 112; 110; 46; 99; 111; 109; 18; 52; 86; 120; 18; 52; 86; 120; 18; 52; 86; 120; 1; 2; 3; 4; 5; 6; 7; 8; 0; 35; 0; 13;
  116; 101; 115; 116; 50; 46; 97; 112; 110; 46; 99; 111; 109; 18; 52; 86; 120; 18; 52; 86; 120; 18; 52; 86; 120; 1; 2; 3; 4; 5; 6; 7; 8; 4; 1; 2; 3;
  4; 4; 1; 2; 3; 4; 2; 255; 0; 6; 0; 7; 219; 7; 0; 1; 0] = Ok (mkMsg (mkHdr2 133 false None 427 (Some 2759366016) 4925726) [[]; [IE_Fteid (mkIe 87 9 0
  (mkFteid 6 663302000 (Some [139; 7; 133; 184]) None))]; []; []; []; [IE_MmContext (MmEps (mkIe 107 392 0 (mkMmEps
  SecurityMode_EpsSecurityContextAndQuadruplets 0 NasIntegrityProtectionValues_NoIntegrity NasCipherValues_Eea1 2556159 16777215 [255; 255; 255; 255;
  255; 255; 255; 255; 255; 255; 255; 255; 255; 255; 255; 255; 255; 255; 255; 255; 255; 255; 255; 255; 255; 255; 255; 255; 255; 255; 255; 255] (Some
  [mkQuad [1; 2; 3; 4; 5; 6; 7; 8; 9; 10; 11; 12; 13; 14; 15; 16] [2; 7; 8] [3; 9; 10] [11; 12; 13; 14; 15; 0; 0; 0; 0; 0; 0; 0; 0; 0; 0; 0; 0; 0; 0;
  0; 0; 0; 0; 0; 0; 0; 0; 0; 0; 0; 0; 0]]) (Some [mkQuint [1; 2; 3; 4; 5; 6; 7; 8; 9; 10; 11; 12; 13; 14; 15; 16] [2; 7; 8] [1; 2; 3; 4; 5; 6; 7; 8;
  9; 10; 11; 12; 13; 14; 15; 16] [1; 2; 3; 4; 5; 6; 7; 8; 9; 10; 11; 12; 13; 14; 15; 16] [3; 9; 10]]) (Some [1; 2]) (Some [170; 170; 170; 170; 170;
  170; 170; 170; 170; 170; 170; 170; 170; 170; 170; 170; 170; 170; 170; 170; 170; 170; 170; 170; 170; 170; 170; 170; 170; 170; 170; 170]) (Some 5)
  (Some (mkAmbrMm 2000 8000)) (Some (mkAmbrMm 2000 8000)) (Some [1; 2; 3; 4]) (Some [1; 2; 3; 4]) (Some [1; 2; 3; 4]) (mkAccessRestriction false false
  false false false false false false) (Some (mkOldEps 5 (Some 5) [255; 255; 255; 255; 255; 255; 255; 255; 255; 255; 255; 255; 255; 255; 255; 255;
  255; 255; 255; 255; 255; 255; 255; 255; 255; 255; 255; 255; 255; 255; 255; 255] (Some [255; 255; 255; 255; 255; 255; 255; 255; 255; 255; 255; 255;
  255; 255; 255; 255; 255; 255; 255; 255; 255; 255; 255; 255; 255; 255; 255; 255; 255; 255; 255; 255]))) (Some [1; 2; 3; 4]) (Some [1; 2; 3; 4]) (Some
  (mkExtAccessRestriction false false false true true)) (Some [1; 2; 3; 4]) (Some [1; 2; 3; 4]) (Some [mkApnRateMm [116; 101; 115; 116; 46; 97; 112;
  110; 46; 99; 111; 109] 305419896 305419896 305419896 [1; 2; 3; 4; 5; 6; 7; 8]; mkApnRateMm [116; 101; 115; 116; 50; 46; 97; 112; 110; 46; 99; 111;
  109] 305419896 305419896 305419896 [1; 2; 3; 4; 5; 6; 7; 8]]) (Some [1; 2; 3; 4]) (Some [1; 2; 3; 4]) (Some 2))))]; []; []; []; []; []; []; []; [];
  []; []; []; []; []; []; []; []; []; []; []; []; []; []; []; []; []; []; []; []; []; []; []; []; [IE_PrivateExtension (mkIe 255 6 0 (mkPrivateExt
  2011 [7; 0; 1; 0]))]]).
Proof. vm_compute. reflexivity. Qed.
Example forwardrelocationreq__test_fwd_reloc_req_unmarshal_back : (fun x => msg_marshal md_forwardrelocationreq x []) ((mkMsg (mkHdr2 133 false None
  427 (Some 2759366016) 4925726) [[]; [IE_Fteid (mkIe 87 9 0 (mkFteid 6 663302000 (Some [139; 7; 133; 184]) None))]; []; []; []; [IE_MmContext (MmEps
  (mkIe 107 392 0 (mkMmEps SecurityMode_EpsSecurityContextAndQuadruplets 0 NasIntegrityProtectionValues_NoIntegrity NasCipherValues_Eea1 2556159
  16777215 [255; 255; 255; 255; 255; 255; 255; 255; 255; 255; 255; 255; 255; 255; 255; 255; 255; 255; 255; 255; 255; 255; 255; 255; 255; 255; 255;
  255; 255; 255; 255; 255] (Some [mkQuad [1; 2; 3; 4; 5; 6; 7; 8; 9; 10; 11; 12; 13; 14; 15; 16] [2; 7; 8] [3; 9; 10] [11; 12; 13; 14; 15; 0; 0; 0; 0;
  0; 0; 0; 0; 0; 0; 0; 0; 0; 0; 0; 0; 0; 0; 0; 0; 0; 0; 0; 0; 0; 0; 0]]) (Some [mkQuint [1; 2; 3; 4; 5; 6; 7; 8; 9; 10; 11; 12; 13; 14; 15; 16] [2; 7;
  8] [1; 2; 3; 4; 5; 6; 7; 8; 9; 10; 11; 12; 13; 14; 15; 16] [1; 2; 3; 4; 5; 6; 7; 8; 9; 10; 11; 12; 13; 14; 15; 16] [3; 9; 10]]) (Some [1; 2]) (Some
  [170; 170; 170; 170; 170; 170; 170; 170; 170; 170; 170; 170; 170; 170; 170; 170; 170; 170; 170; 170; 170; 170; 170; 170; 170; 170; 170; 170; 170;
  170; 170; 170]) (Some 5) (Some (mkAmbrMm 2000 8000)) (Some (mkAmbrMm 2000 8000)) (Some [1; 2; 3; 4]) (Some [1; 2; 3; 4]) (Some [1; 2; 3; 4])
  (mkAccessRestriction false false false false false false false false) (Some (mkOldEps 5 (Some 5) [255; 255; 255; 255; 255; 255; 255; 255; 255; 255;
  255; 255; 255; 255; 255; 255; 255; 255; 255; 255; 255; 255; 255; 255; 255; 255; 255; 255; 255; 255; 255; 255] (Some [255; 255; 255; 255; 255; 255;
  255; 255; 255; 255; 255; 255; 255; 255; 255; 255; 255; 255; 255; 255; 255; 255; 255; 255; 255; 255; 255; 255; 255; 255; 255; 255]))) (Some [1; 2; 3;
  4]) (Some [1; 2; 3; 4]) (Some (mkExtAccessRestriction false false false true true)) (Some [1; 2; 3; 4]) (Some [1; 2; 3; 4]) (Some [mkApnRateMm [116;
  101; 115; 116; 46; 97; 112; 110; 46; 99; 111; 109] 305419896 305419896 305419896 [1; 2; 3; 4; 5; 6; 7; 8]; mkApnRateMm [116; 101; 115; 116; 50; 46;
  97; 112; 110; 46; 99; 111; 109] 305419896 305419896 305419896 [1; 2; 3; 4; 5; 6; 7; 8]]) (Some [1; 2; 3; 4]) (Some [1; 2; 3; 4]) (Some 2))))]; [];
  []; []; []; []; []; []; []; []; []; []; []; []; []; []; []; []; []; []; []; []; []; []; []; []; []; []; []; []; []; []; []; [IE_PrivateExtension
  (mkIe 255 6 0 (mkPrivateExt 2011 [7; 0; 1; 0]))]])) = [72; 133; 1; 171; 164; 120; 149; 128; 75; 41; 30; 0; 87; 0; 9; 0; 134; 39; 137; 47; 112; 139;
  7; 133; 184; 107; 1; 136; 0; 152; 39; 129; 39; 0; 255; 255; 255; 255; 255; 255; 255; 255; 255; 255; 255; 255; 255; 255; 255; 255; 255; 255; 255;
  255; 255; 255; 255; 255; 255; 255; 255; 255; 255; 255; 255; 255; 255; 255; 255; 255; 1; 2; 3; 4; 5; 6; 7; 8; 9; 10; 11; 12; 13; 14; 15; 16; 3; 2; 7;
  8; 3; 3; 9; 10; 11; 12; 13; 14; 15; 0; 0; 0; 0; 0; 0; 0; 0; 0; 0; 0; 0; 0; 0; 0; 0; 0; 0; 0; 0; 0; 0; 0; 0; 0; 0; 0; 1; 2; 3; 4; 5; 6; 7; 8; 9; 10;
  11; 12; 13; 14; 15; 16; 3; 2; 7; 8; 1; 2; 3; 4; 5; 6; 7; 8; 9; 10; 11; 12; 13; 14; 15; 16; 1; 2; 3; 4; 5; 6; 7; 8; 9; 10; 11; 12; 13; 14; 15; 16; 3;
  3; 9; 10; 1; 2; 170; 170; 170; 170; 170; 170; 170; 170; 170; 170; 170; 170; 170; 170; 170; 170; 170; 170; 170; 170; 170; 170; 170; 170; 170; 170;
  170; 170; 170; 170; 170; 170; 5; 0; 0; 7; 208; 0; 0; 31; 64; 0; 0; 7; 208; 0; 0; 31; 64; 4; 1; 2; 3; 4; 4; 1; 2; 3; 4; 4; 1; 2; 3; 4; 0; 173; 255;
  255; 255; 255; 255; 255; 255; 255; 255; 255; 255; 255; 255; 255; 255; 255; 255; 255; 255; 255; 255; 255; 255; 255; 255; 255; 255; 255; 255; 255;
  255; 255; 255; 255; 255; 255; 255; 255; 255; 255; 255; 255; 255; 255; 255; 255; 255; 255; 255; 255; 255; 255; 255; 255; 255; 255; 255; 255; 255;
  255; 255; 255; 255; 255; 4; 1; 2; 3; 4; 4; 1; 2; 3; 4; 1; 3; 4; 1; 2; 3; 4; 4; 1; 2; 3; 4; 2; 0; 34; 0; 12; 116; 101; 115; 116; 46; 97; 112; 110;
  46; 99; 111; 109; 18; 52; 86; 120; 18; 52; 86; 120; 18; 52; 86; 120; 1; 2; 3; 4; 5; 6; 7; 8; 0; 35; 0; 13; 116; 101; 115; 116; 50; 46; 97; 112; 110;
  46; 99; 111; 109; 18; 52; 86; 120; 18; 52; 86; 120; 18; 52; 86; 120; 1; 2; 3; 4; 5; 6; 7; 8; 4; 1; 2; 3; 4; 4; 1; 2; 3; 4; 2; 255; 0; 6; 0; 7; 219;
  7; 0; 1; 0].
Proof. vm_compute. reflexivity. Qed.
(* gtpv2/messages/forwardrelocationresp.rs, test_fwd_reloc_resp_unmarshal *)
Example forwardrelocationresp__test_fwd_reloc_resp_unmarshal : msg_unmarshal md_forwardrelocationresp Debug [72; 134; 0; 125; 164; 120; 149; 128; 75;
  41; 30; 0; 2; 0; 2; 0; 16; 0; 87; 0; 9; 0; 134; 39; 137; 47; 112; 139; 7; 133; 184; 93; 0; 31; 0; 73; 0; 1; 0; 5; 80; 0; 22; 0; 100; 9; 0; 0; 0; 0;
  0; 0; 0; 0; 0; 0; 0; 0; 0; 0; 0; 0; 0; 0; 0; 0; 93; 0; 31; 3; 73; 0; 1; 0; 6; 80; 0; 22; 0; 100; 9; 0; 0; 0; 0; 0; 0; 0; 0; 0; 0; 0; 0; 0; 0; 0; 0;
  0; 0; 0; 0; 175; 0; 10; 0; 9; 145; 153; 65; 80; 1; 145; 22; 120; 243; 175; 0; 10; 2; 9; 145; 153; 65; 80; 1; 145; 22; 120; 243] = Ok (mkMsg (mkHdr2
  134 false None 125 (Some 2759366016) 4925726) [[IE_Cause (mkIe 2 2 0 (mkCause 16 false false false None))]; [IE_Fteid (mkIe 87 9 0 (mkFteid 6
  663302000 (Some [139; 7; 133; 184]) None))]; []; [IE_BearerContext (mkIe 93 31 0 (mkBearerContext (mkIe 73 1 0 5) None None [] (Some (mkIe 80 22 0
  (mkBearerQos 0 9 1 9 0 0 0 0))) None None None None None None None None None)); IE_BearerContext (mkIe 93 31 3 (mkBearerContext (mkIe 73 1 0 6) None
  None [] (Some (mkIe 80 22 0 (mkBearerQos 0 9 1 9 0 0 0 0))) None None None None None None None None None))]; []; []; []; []; []; [IE_NodeNumber
  (mkIe 175 10 0 [57; 57; 49; 52; 48; 53; 49; 48; 49; 57; 54; 49; 56; 55; 51]); IE_NodeNumber (mkIe 175 10 2 [57; 57; 49; 52; 48; 53; 49; 48; 49; 57;
  54; 49; 56; 55; 51])]; []; []; []]).
Proof. vm_compute. reflexivity. Qed.
Example forwardrelocationresp__test_fwd_reloc_resp_unmarshal_back : (fun x => msg_marshal md_forwardrelocationresp x []) ((mkMsg (mkHdr2 134 false
  None 125 (Some 2759366016) 4925726) [[IE_Cause (mkIe 2 2 0 (mkCause 16 false false false None))]; [IE_Fteid (mkIe 87 9 0 (mkFteid 6 663302000 (Some
  [139; 7; 133; 184]) None))]; []; [IE_BearerContext (mkIe 93 31 0 (mkBearerContext (mkIe 73 1 0 5) None None [] (Some (mkIe 80 22 0 (mkBearerQos 0 9
  1 9 0 0 0 0))) None None None None None None None None None)); IE_BearerContext (mkIe 93 31 3 (mkBearerContext (mkIe 73 1 0 6) None None [] (Some
  (mkIe 80 22 0 (mkBearerQos 0 9 1 9 0 0 0 0))) None None None None None None None None None))]; []; []; []; []; []; [IE_NodeNumber (mkIe 175 10 0
  [57; 57; 49; 52; 48; 53; 49; 48; 49; 57; 54; 49; 56; 55; 51]); IE_NodeNumber (mkIe 175 10 2 [57; 57; 49; 52; 48; 53; 49; 48; 49; 57; 54; 49; 56; 55;
  51])]; []; []; []])) = [72; 134; 0; 125; 164; 120; 149; 128; 75; 41; 30; 0; 2; 0; 2; 0; 16; 0; 87; 0; 9; 0; 134; 39; 137; 47; 112; 139; 7; 133; 184;
  93; 0; 31; 0; 73; 0; 1; 0; 5; 80; 0; 22; 0; 100; 9; 0; 0; 0; 0; 0; 0; 0; 0; 0; 0; 0; 0; 0; 0; 0; 0; 0; 0; 0; 0; 93; 0; 31; 3; 73; 0; 1; 0; 6; 80; 0;
  22; 0; 100; 9; 0; 0; 0; 0; 0; 0; 0; 0; 0; 0; 0; 0; 0; 0; 0; 0; 0; 0; 0; 0; 175; 0; 10; 0; 9; 145; 153; 65; 80; 1; 145; 22; 120; 243; 175; 0; 10; 2;
  9; 145; 153; 65; 80; 1; 145; 22; 120; 243].
Proof. vm_compute. reflexivity. Qed.
(* gtpv2/messages/identificationreq.rs, test_identification_req_unmarshal *)
Example identificationreq__test_identification_req_unmarshal : msg_unmarshal md_identificationreq Debug [72; 128; 0; 86; 0; 0; 0; 0; 0; 0; 104; 0;
  117; 0; 10; 0; 153; 249; 16; 1; 44; 10; 255; 255; 255; 255; 86; 0; 8; 0; 4; 98; 242; 16; 11; 217; 1; 255; 111; 0; 4; 0; 39; 255; 170; 17; 112; 0; 4;
  0; 39; 255; 170; 17; 116; 0; 6; 0; 0; 170; 187; 204; 221; 238; 74; 0; 4; 0; 10; 10; 10; 10; 126; 0; 2; 0; 18; 52; 113; 0; 1; 0; 3; 83; 0; 3; 0; 153;
  249; 16] = Ok (mkMsg (mkHdr2 128 false None 86 (Some 0) 104) [[IE_Guti (mkIe 117 10 0 (mkGuti (mkPlmn 999 1 false) 300 10 4294967295))]; [IE_Uli
  (mkIe 86 8 0 [Loc_Rai (mkRai (mkPlmn 262 1 false) 3033 1)])]; [IE_Ptmsi (mkIe 111 4 0 671066641)]; [IE_PtmsiSignature (mkIe 112 4 0 671066641)];
  [IE_CompleteRequestMessage (mkIe 116 6 0 (ReqAttach [170; 187; 204; 221; 238]))]; [IE_IpAddress (mkIe 74 4 0 (IpV4 [10; 10; 10; 10]))];
  [IE_PortNumber (mkIe 126 2 0 4660)]; [IE_HopCounter (mkIe 113 1 0 3)]; [IE_ServingNetwork (mkIe 83 3 0 (mkPlmn 999 1 false))]; []]).
Proof. vm_compute. reflexivity. Qed.
Example identificationreq__test_identification_req_unmarshal_back : (fun x => msg_marshal md_identificationreq x []) ((mkMsg (mkHdr2 128 false None 86
  (Some 0) 104) [[IE_Guti (mkIe 117 10 0 (mkGuti (mkPlmn 999 1 false) 300 10 4294967295))]; [IE_Uli (mkIe 86 8 0 [Loc_Rai (mkRai (mkPlmn 262 1 false)
  3033 1)])]; [IE_Ptmsi (mkIe 111 4 0 671066641)]; [IE_PtmsiSignature (mkIe 112 4 0 671066641)]; [IE_CompleteRequestMessage (mkIe 116 6 0 (ReqAttach
  [170; 187; 204; 221; 238]))]; [IE_IpAddress (mkIe 74 4 0 (IpV4 [10; 10; 10; 10]))]; [IE_PortNumber (mkIe 126 2 0 4660)]; [IE_HopCounter (mkIe 113 1
  0 3)]; [IE_ServingNetwork (mkIe 83 3 0 (mkPlmn 999 1 false))]; []])) = [72; 128; 0; 86; 0; 0; 0; 0; 0; 0; 104; 0; 117; 0; 10; 0; 153; 249; 16; 1;
  44; 10; 255; 255; 255; 255; 86; 0; 8; 0; 4; 98; 242; 16; 11; 217; 1; 255; 111; 0; 4; 0; 39; 255; 170; 17; 112; 0; 4; 0; 39; 255; 170; 17; 116; 0; 6;
  0; 0; 170; 187; 204; 221; 238; 74; 0; 4; 0; 10; 10; 10; 10; 126; 0; 2; 0; 18; 52; 113; 0; 1; 0; 3; 83; 0; 3; 0; 153; 249; 16].
Proof. vm_compute. reflexivity. Qed.
(* gtpv2/messages/identificationresp.rs, test_identification_resp_unmarshal *)
Example identificationresp__test_identification_resp_unmarshal : msg_unmarshal md_identificationresp Debug [72; 129; 1; 240; 0; 0; 0; 0; 0; 0; 104; 0;
  2; 0; 2; 0; 10; 0; 1; 0; 8; 0; 153; 65; 85; 1; 145; 22; 120; 243; 107; 1; 136; 0; 152; 39; 129; 39; 0; 255; 255; 255; 255; 255; 255; 255; 255; 255;
  255; 255; 255; 255; 255; 255; 255; 255; 255; 255; 255; 255; 255; 255; 255; 255; 255; 255; 255; 255; 255; 255; 255; 255; 255; 255; 255; 1; 2; 3; 4;
  5; 6; 7; 8; 9; 10; 11; 12; 13; 14; 15; 16; 3; 2; 7; 8; 3; 3; 9; 10; 11; 12; 13; 14; 15; 0; 0; 0; 0; 0; 0; 0; 0; 0; 0; 0; 0; 0; 0; 0; 0; 0; 0; 0; 0;
  0; 0; 0; 0; 0; 0; 0; 1; 2; 3; 4; 5; 6; 7; 8; 9; 10; 11; 12; 13; 14; 15; 16; 3; 2; 7; 8; 1; 2; 3; 4; 5; 6; 7; 8; 9; 10; 11; 12; 13; 14; 15; 16; 1; 2;
  3; 4; 5; 6; 7; 8; 9; 10; 11; 12; 13; 14; 15; 16; 3; 3; 9; 10; 1; 2; 170; 170; 170; 170; 170; 170; 170; 170; 170; 170; 170; 170; 170; 170; 170; 170;
  170; 170; 170; 170; 170; 170; 170; 170; 170; 170; 170; 170; 170; 170; 170; 170; 5; 0; 0; 7; 208; 0; 0; 31; 64; 0; 0; 7; 208; 0; 0; 31; 64; 4; 1; 2;
  3; 4; 4; 1; 2; 3; 4; 4; 1; 2; 3; 4; 0; 173; 255; 255; 255; 255; 255; 255; 255; 255; 255; 255; 255; 255; 255; 255; 255; 255; 255; 255; 255; 255; 255;
  255; 255; 255; 255; 255; 255; 255; 255; 255; 255; 255; 255; 255; 255; 255; 255; 255; 255; 255; 255; 255; 255; 255; 255; 255; 255; 255; 255; 255;
  255; 255; 255; 255; 255; 255; 255; 255; 255; 255; 255; 255; 255; 255; 4; 1; 2; 3; 4; 4; 1; 2; 3; 4; 1; 3; 4; 1; 2; 3; 4; 4; 1; 2; 3; 4; 2; 0; 34; 0;
  12; 116; 101; 115; 116; 46; 97; 112; 110; 46; 99; 111; 109; 18; 52; 86; 120; 18; 52; 86; 120; 18; 52; 86; 120; 1; 2; 3; 4; 5; 6; 7; 8; 0; 35; 0; 13;
  116; 101; 115; 116; 50; 46; 97; 112; 110; 46; 99; 111; 109; 18; 52; 86; 120; 18; 52; 86; 120; 18; 52; 86; 120; 1; 2; 3; 4; 5; 6; 7; 8; 4; 1; 2; 3;
  4; 4; 1; 2; 3; 4; 2; 187; 0; 3; 0; 3; 3; 3; 189; 0; 31; 160; 0; 0; 255; 255; 16; 115; 99; 101; 102; 46; 101; 120; 97; 109; 112; 108; 101; 46; 99;
  111; 109; 0; 255; 0; 0; 0; 0; 255; 255; 238; 170; 206; 0; 28; 0; 3; 0; 0; 0; 0; 11; 101; 120; 97; 109; 112; 108; 101; 46; 99; 111; 109; 0; 0; 255;
  255; 255; 255; 255; 255; 255; 255; 255] = Ok (mkMsg (mkHdr2 129 false None 496 (Some 0) 104) [[IE_Cause (mkIe 2 2 0 (mkCause 10 false false false
  None))]; [IE_Imsi (mkIe 1 8 0 [57; 57; 49; 52; 53; 53; 49; 48; 49; 57; 54; 49; 56; 55; 51])]; [IE_MmContext (MmEps (mkIe 107 392 0 (mkMmEps
  SecurityMode_EpsSecurityContextAndQuadruplets 0 NasIntegrityProtectionValues_NoIntegrity NasCipherValues_Eea1 2556159 16777215 [255; 255; 255; 255;
  255; 255; 255; 255; 255; 255; 255; 255; 255; 255; 255; 255; 255; 255; 255; 255; 255; 255; 255; 255; 255; 255; 255; 255; 255; 255; 255; 255] (Some
  [mkQuad [1; 2; 3; 4; 5; 6; 7; 8; 9; 10; 11; 12; 13; 14; 15; 16] [2; 7; 8] [3; 9; 10] [11; 12; 13; 14; 15; 0; 0; 0; 0; 0; 0; 0; 0; 0; 0; 0; 0; 0; 0;
  0; 0; 0; 0; 0; 0; 0; 0; 0; 0; 0; 0; 0]]) (Some [mkQuint [1; 2; 3; 4; 5; 6; 7; 8; 9; 10; 11; 12; 13; 14; 15; 16] [2; 7; 8] [1; 2; 3; 4; 5; 6; 7; 8;
  9; 10; 11; 12; 13; 14; 15; 16] [1; 2; 3; 4; 5; 6; 7; 8; 9; 10; 11; 12; 13; 14; 15; 16] [3; 9; 10]]) (Some [1; 2]) (Some [170; 170; 170; 170; 170;
  170; 170; 170; 170; 170; 170; 170; 170; 170; 170; 170; 170; 170; 170; 170; 170; 170; 170; 170; 170; 170; 170; 170; 170; 170; 170; 170]) (Some 5)
  (Some (mkAmbrMm 2000 8000)) (Some (mkAmbrMm 2000 8000)) (Some [1; 2; 3; 4]) (Some [1; 2; 3; 4]) (Some [1; 2; 3; 4]) (mkAccessRestriction false false
  false false false false false false) (Some (mkOldEps 5 (Some 5) [255; 255; 255; 255; 255; 255; 255; 255; 255; 255; 255; 255; 255; 255; 255; 255;
  255; 255; 255; 255; 255; 255; 255; 255; 255; 255; 255; 255; 255; 255; 255; 255] (Some [255; 255; 255; 255; 255; 255; 255; 255; 255; 255; 255; 255;
  255; 255; 255; 255; 255; 255; 255; 255; 255; 255; 255; 255; 255; 255; 255; 255; 255; 255; 255; 255]))) (Some [1; 2; 3; 4]) (Some [1; 2; 3; 4]) (Some
  (mkExtAccessRestriction false false false true true)) (Some [1; 2; 3; 4]) (Some [1; 2; 3; 4]) (Some [mkApnRateMm [116; 101; 115; 116; 46; 97; 112;
  110; 46; 99; 111; 109] 305419896 305419896 305419896 [1; 2; 3; 4; 5; 6; 7; 8]; mkApnRateMm [116; 101; 115; 116; 50; 46; 97; 112; 110; 46; 99; 111;
  109] 305419896 305419896 305419896 [1; 2; 3; 4; 5; 6; 7; 8]]) (Some [1; 2; 3; 4]) (Some [1; 2; 3; 4]) (Some 2))))]; []; [IE_IntegerNumber (mkIe 187
  3 0 [3; 3; 3])]; [IE_MonitoringEventInformation (mkIe 189 31 0 (mkMonInfo true false false 65535 [115; 99; 101; 102; 46; 101; 120; 97; 109; 112;
  108; 101; 46; 99; 111; 109] 255 (Some 4294962858)))]; [IE_MonitoringEventExtensionInfo (mkIe 206 28 0 (mkMonExt 0 [101; 120; 97; 109; 112; 108; 101;
  46; 99; 111; 109] (Some 255) (Some 18446744073709551615)))]; []; []]).
Proof. vm_compute. reflexivity. Qed.
Example identificationresp__test_identification_resp_unmarshal_back : (fun x => msg_marshal md_identificationresp x []) ((mkMsg (mkHdr2 129 false None
  496 (Some 0) 104) [[IE_Cause (mkIe 2 2 0 (mkCause 10 false false false None))]; [IE_Imsi (mkIe 1 8 0 [57; 57; 49; 52; 53; 53; 49; 48; 49; 57; 54;
  49; 56; 55; 51])]; [IE_MmContext (MmEps (mkIe 107 392 0 (mkMmEps SecurityMode_EpsSecurityContextAndQuadruplets 0
  NasIntegrityProtectionValues_NoIntegrity NasCipherValues_Eea1 2556159 16777215 [255; 255; 255; 255; 255; 255; 255; 255; 255; 255; 255; 255; 255;
  255; 255; 255; 255; 255; 255; 255; 255; 255; 255; 255; 255; 255; 255; 255; 255; 255; 255; 255] (Some [mkQuad [1; 2; 3; 4; 5; 6; 7; 8; 9; 10; 11; 12;
  13; 14; 15; 16] [2; 7; 8] [3; 9; 10] [11; 12; 13; 14; 15; 0; 0; 0; 0; 0; 0; 0; 0; 0; 0; 0; 0; 0; 0; 0; 0; 0; 0; 0; 0; 0; 0; 0; 0; 0; 0; 0]]) (Some
  [mkQuint [1; 2; 3; 4; 5; 6; 7; 8; 9; 10; 11; 12; 13; 14; 15; 16] [2; 7; 8] [1; 2; 3; 4; 5; 6; 7; 8; 9; 10; 11; 12; 13; 14; 15; 16] [1; 2; 3; 4; 5;
  6; 7; 8; 9; 10; 11; 12; 13; 14; 15; 16] [3; 9; 10]]) (Some [1; 2]) (Some [170; 170; 170; 170; 170; 170; 170; 170; 170; 170; 170; 170; 170; 170; 170;
  170; 170; 170; 170; 170; 170; 170; 170; 170; 170; 170; 170; 170; 170; 170; 170; 170]) (Some 5) (Some (mkAmbrMm 2000 8000)) (Some (mkAmbrMm 2000
  8000)) (Some [1; 2; 3; 4]) (Some [1; 2; 3; 4]) (Some [1; 2; 3; 4]) (mkAccessRestriction false false false false false false false false) (Some
  (mkOldEps 5 (Some 5) [255; 255; 255; 255; 255; 255; 255; 255; 255; 255; 255; 255; 255; 255; 255; 255; 255; 255; 255; 255; 255; 255; 255; 255; 255;
  255; 255; 255; 255; 255; 255; 255] (Some [255; 255; 255; 255; 255; 255; 255; 255; 255; 255; 255; 255; 255; 255; 255; 255; 255; 255; 255; 255; 255;
  255; 255; 255; 255; 255; 255; 255; 255; 255; 255; 255]))) (Some [1; 2; 3; 4]) (Some [1; 2; 3; 4]) (Some (mkExtAccessRestriction false false false
  true true)) (Some [1; 2; 3; 4]) (Some [1; 2; 3; 4]) (Some [mkApnRateMm [116; 101; 115; 116; 46; 97; 112; 110; 46; 99; 111; 109] 305419896 305419896
  305419896 [1; 2; 3; 4; 5; 6; 7; 8]; mkApnRateMm [116; 101; 115; 116; 50; 46; 97; 112; 110; 46; 99; 111; 109] 305419896 305419896 305419896 [1; 2; 3;
  4; 5; 6; 7; 8]]) (Some [1; 2; 3; 4]) (Some [1; 2; 3; 4]) (Some 2))))]; []; [IE_IntegerNumber (mkIe 187 3 0 [3; 3; 3])];
  [IE_MonitoringEventInformation (mkIe 189 31 0 (mkMonInfo true false false 65535 [115; 99; 101; 102; 46; 101; 120; 97; 109; 112; 108; 101; 46; 99;
  111; 109] 255 (Some 4294962858)))]; [IE_MonitoringEventExtensionInfo (mkIe 206 28 0 (mkMonExt 0 [101; 120; 97; 109; 112; 108; 101; 46; 99; 111; 109]
  (Some 255) (Some 18446744073709551615)))]; []; []])) = [72; 129; 1; 240; 0; 0; 0; 0; 0; 0; 104; 0; 2; 0; 2; 0; 10; 0; 1; 0; 8; 0; 153; 65; 85; 1;
  145; 22; 120; 243; 107; 1; 136; 0; 152; 39; 129; 39; 0; 255; 255; 255; 255; 255; 255; 255; 255; 255; 255; 255; 255; 255; 255; 255; 255; 255; 255;
  255; 255; 255; 255; 255; 255; 255; 255; 255; 255; 255; 255; 255; 255; 255; 255; 255; 255; 1; 2; 3; 4; 5; 6; 7; 8; 9; 10; 11; 12; 13; 14; 15; 16; 3;
  2; 7; 8; 3; 3; 9; 10; 11; 12; 13; 14; 15; 0; 0; 0; 0; 0; 0; 0; 0; 0; 0; 0; 0; 0; 0; 0; 0; 0; 0; 0; 0; 0; 0; 0; 0; 0; 0; 0; 1; 2; 3; 4; 5; 6; 7; 8;
  9; 10; 11; 12; 13; 14; 15; 16; 3; 2; 7; 8; 1; 2; 3; 4; 5; 6; 7; 8; 9; 10; 11; 12; 13; 14; 15; 16; 1; 2; 3; 4; 5; 6; 7; 8; 9; 10; 11; 12; 13; 14; 15;
  16; 3; 3; 9; 10; 1; 2; 170; 170; 170; 170; 170; 170; 170; 170; 170; 170; 170; 170; 170; 170; 170; 170; 170; 170; 170; 170; 170; 170; 170; 170; 170;
  170; 170; 170; 170; 170; 170; 170; 5; 0; 0; 7; 208; 0; 0; 31; 64; 0; 0; 7; 208; 0; 0; 31; 64; 4; 1; 2; 3; 4; 4; 1; 2; 3; 4; 4; 1; 2; 3; 4; 0; 173;
  255; 255; 255; 255; 255; 255; 255; 255; 255; 255; 255; 255; 255; 255; 255; 255; 255; 255; 255; 255; 255; 255; 255; 255; 255; 255; 255; 255; 255;
  255; 255; 255; 255; 255; 255; 255; 255; 255; 255; 255; 255; 255; 255; 255; 255; 255; 255; 255; 255; 255; 255; 255; 255; 255; 255; 255; 255; 255;
  255; 255; 255; 255; 255; 255; 4; 1; 2; 3; 4; 4; 1; 2; 3; 4; 1; 3; 4; 1; 2; 3; 4; 4; 1; 2; 3; 4; 2; 0; 34; 0; 12; 116; 101; 115; 116; 46; 97; 112;
  110; 46; 99; 111; 109; 18; 52; 86; 120; 18; 52; 86; 120; 18; 52; 86; 120; 1; 2; 3; 4; 5; 6; 7; 8; 0; 35; 0; 13; 116; 101; 115; 116; 50; 46; 97; 112;
  110; 46; 99; 111; 109; 18; 52; 86; 120; 18; 52; 86; 120; 18; 52; 86; 120; 1; 2; 3; 4; 5; 6; 7; 8; 4; 1; 2; 3; 4; 4; 1; 2; 3; 4; 2; 187; 0; 3; 0; 3;
  3; 3; 189; 0; 31; 160; 0; 0; 255; 255; 16; 115; 99; 101; 102; 46; 101; 120; 97; 109; 112; 108; 101; 46; 99; 111; 109; 0; 255; 0; 0; 0; 0; 255; 255;
  238; 170; 206; 0; 28; 0; 3; 0; 0; 0; 0; 11; 101; 120; 97; 109; 112; 108; 101; 46; 99; 111; 109; 0; 0; 255; 255; 255; 255; 255; 255; 255; 255; 255].
Proof. vm_compute. reflexivity. Qed.
(* gtpv2/messages/ies/abstimembmsdatatransfer.rs, abstime_mbmsdatatransfer_ie_unmarshal_test *)
Example abstimembmsdatatransfer__abstime_mbmsdatatransfer_ie_unmarshal_test : AbsoluteTimeMbmsDataTransfer_unmarshal Debug [164; 0; 8; 0; 0; 0; 0; 0;
  0; 0; 255; 255] = Ok (mkIe 164 8 0 65535).
Proof. vm_compute. reflexivity. Qed.
Example abstimembmsdatatransfer__abstime_mbmsdatatransfer_ie_unmarshal_test_back : AbsoluteTimeMbmsDataTransfer_marshal ((mkIe 164 8 0 65535)) = [164;
  0; 8; 0; 0; 0; 0; 0; 0; 0; 255; 255].
Proof. vm_compute. reflexivity. Qed.
(* gtpv2/messages/ies/actionindication.rs, action_indication_ie_unmarshal_test *)
Example actionindication__action_indication_ie_unmarshal_test : ActionIndication_unmarshal Debug [168; 0; 1; 0; 2] = Ok (mkIe 168 1 0
  IndicationValues_PagingIndication).
Proof. vm_compute. reflexivity. Qed.
Example actionindication__action_indication_ie_unmarshal_test_back : ActionIndication_marshal ((mkIe 168 1 0 IndicationValues_PagingIndication)) =
  [168; 0; 1; 0; 2].
Proof. vm_compute. reflexivity. Qed.
(* gtpv2/messages/ies/addflagssrvcc.rs, additionalflags_srvcc_ie_unmarshal_test *)
Example addflagssrvcc__additionalflags_srvcc_ie_unmarshal_test : AdditionalFlagsSrvcc_unmarshal Debug [160; 0; 1; 0; 2] = Ok (mkIe 160 1 0 (mkAddFlags
  false true)).
Proof. vm_compute. reflexivity. Qed.
Example addflagssrvcc__additionalflags_srvcc_ie_unmarshal_test_back : AdditionalFlagsSrvcc_marshal ((mkIe 160 1 0 (mkAddFlags false true))) = [160; 0;
  1; 0; 2].
Proof. vm_compute. reflexivity. Qed.
(* gtpv2/messages/ies/additionalmmctxsrvcc.rs, addmmctxsrvcc_ie_unmarshal_test *)
Example additionalmmctxsrvcc__addmmctxsrvcc_ie_unmarshal_test : AdditionalMmContextForSrvcc_unmarshal Debug [159; 0; 15; 0; 4; 1; 2; 3; 4; 4; 1; 2; 3;
  4; 4; 1; 2; 3; 4] = Ok (mkIe 159 15 0 (mkAddMm (Some [1; 2; 3; 4]) (Some [1; 2; 3; 4]) (Some [1; 2; 3; 4]))).
Proof. vm_compute. reflexivity. Qed.
Example additionalmmctxsrvcc__addmmctxsrvcc_ie_unmarshal_test_back : AdditionalMmContextForSrvcc_marshal ((mkIe 159 15 0 (mkAddMm (Some [1; 2; 3; 4])
  (Some [1; 2; 3; 4]) (Some [1; 2; 3; 4])))) = [159; 0; 15; 0; 4; 1; 2; 3; 4; 4; 1; 2; 3; 4; 4; 1; 2; 3; 4].
Proof. vm_compute. reflexivity. Qed.
(* gtpv2/messages/ies/alternativeimsi.rs, alt_imsi_ie_unmarshal_test *)
Example alternativeimsi__alt_imsi_ie_unmarshal_test : AlternativeImsi_unmarshal Debug [219; 0; 8; 0; 9; 65; 80; 1; 145; 22; 120; 243] = Ok (mkIe 219 8
  0 [57; 48; 49; 52; 48; 53; 49; 48; 49; 57; 54; 49; 56; 55; 51]).
Proof. vm_compute. reflexivity. Qed.
Example alternativeimsi__alt_imsi_ie_unmarshal_test_back : AlternativeImsi_marshal ((mkIe 219 8 0 [57; 48; 49; 52; 48; 53; 49; 48; 49; 57; 54; 49; 56;
  55; 51])) = [219; 0; 8; 0; 9; 65; 80; 1; 145; 22; 120; 243].
Proof. vm_compute. reflexivity. Qed.
(* gtpv2/messages/ies/ambr.rs, apnambr_ie_unmarshal_test *)
Example ambr__apnambr_ie_unmarshal_test : Ambr_unmarshal Debug [72; 0; 8; 0; 0; 0; 7; 208; 0; 0; 31; 64] = Ok (mkIe 72 8 0 (mkAmbr 2000 8000)).
Proof. vm_compute. reflexivity. Qed.
Example ambr__apnambr_ie_unmarshal_test_back : Ambr_marshal ((mkIe 72 8 0 (mkAmbr 2000 8000))) = [72; 0; 8; 0; 0; 0; 7; 208; 0; 0; 31; 64].
Proof. vm_compute. reflexivity. Qed.
(* gtpv2/messages/ies/apco.rs, apco_ie_unmarshal_test *)
Example apco__apco_ie_unmarshal_test : Apco_unmarshal Debug [163; 0; 20; 0; 128; 128; 33; 16; 1; 1; 0; 16; 129; 6; 0; 0; 0; 0; 131; 6; 0; 0; 0; 0] =
  Ok (mkIe 163 20 0 [128; 128; 33; 16; 1; 1; 0; 16; 129; 6; 0; 0; 0; 0; 131; 6; 0; 0; 0; 0]).
Proof. vm_compute. reflexivity. Qed.
Example apco__apco_ie_unmarshal_test_back : Apco_marshal ((mkIe 163 20 0 [128; 128; 33; 16; 1; 1; 0; 16; 129; 6; 0; 0; 0; 0; 131; 6; 0; 0; 0; 0])) =
  [163; 0; 20; 0; 128; 128; 33; 16; 1; 1; 0; 16; 129; 6; 0; 0; 0; 0; 131; 6; 0; 0; 0; 0].
Proof. vm_compute. reflexivity. Qed.
(* gtpv2/messages/ies/apn.rs, apn_ie_unmarshal_test *)
Example apn__apn_ie_unmarshal_test : Apn_unmarshal Debug [71; 0; 13; 0; 4; 116; 101; 115; 116; 3; 110; 101; 116; 3; 99; 111; 109] = Ok (mkIe 71 13 0
  [116; 101; 115; 116; 46; 110; 101; 116; 46; 99; 111; 109]).
Proof. vm_compute. reflexivity. Qed.
Example apn__apn_ie_unmarshal_test_back : Apn_marshal ((mkIe 71 13 0 [116; 101; 115; 116; 46; 110; 101; 116; 46; 99; 111; 109])) = [71; 0; 13; 0; 4;
  116; 101; 115; 116; 3; 110; 101; 116; 3; 99; 111; 109].
Proof. vm_compute. reflexivity. Qed.
(* gtpv2/messages/ies/apnratecontrolstatus.rs, apn_rate_control_status_ie_unmarshal_test *)
Example apnratecontrolstatus__apn_rate_control_status_ie_unmarshal_test : ApnRateControlStatus_unmarshal Debug [204; 0; 20; 0; 0; 0; 255; 255; 0; 0;
  170; 170; 0; 0; 255; 255; 0; 0; 0; 0; 0; 78; 78; 78] = Ok (mkIe 204 20 0 (mkApnRate 65535 43690 65535 5131854)).
Proof. vm_compute. reflexivity. Qed.
Example apnratecontrolstatus__apn_rate_control_status_ie_unmarshal_test_back : ApnRateControlStatus_marshal ((mkIe 204 20 0 (mkApnRate 65535 43690
  65535 5131854))) = [204; 0; 20; 0; 0; 0; 255; 255; 0; 0; 170; 170; 0; 0; 255; 255; 0; 0; 0; 0; 0; 78; 78; 78].
Proof. vm_compute. reflexivity. Qed.
(* gtpv2/messages/ies/apnrelativecapacity.rs, apn_rel_cap_ie_unmarshal_test *)
Example apnrelativecapacity__apn_rel_cap_ie_unmarshal_test : ApnRelativeCapacity_unmarshal Debug [184; 0; 14; 0; 100; 4; 116; 101; 115; 116; 3; 110;
  101; 116; 3; 99; 111; 109] = Ok (mkIe 184 14 0 (mkApnRelCap 100 [116; 101; 115; 116; 46; 110; 101; 116; 46; 99; 111; 109])).
Proof. vm_compute. reflexivity. Qed.
Example apnrelativecapacity__apn_rel_cap_ie_unmarshal_test_back : ApnRelativeCapacity_marshal ((mkIe 184 14 0 (mkApnRelCap 100 [116; 101; 115; 116;
  46; 110; 101; 116; 46; 99; 111; 109]))) = [184; 0; 14; 0; 100; 4; 116; 101; 115; 116; 3; 110; 101; 116; 3; 99; 111; 109].
Proof. vm_compute. reflexivity. Qed.
(* gtpv2/messages/ies/apnrestriction.rs, apnrestriciton_ie_unmarshal_test *)
Example apnrestriction__apnrestriciton_ie_unmarshal_test : ApnRestriction_unmarshal Debug [127; 0; 1; 0; 0] = Ok (mkIe 127 1 0
  Restriction_NoApnRestriction).
Proof. vm_compute. reflexivity. Qed.
Example apnrestriction__apnrestriciton_ie_unmarshal_test_back : ApnRestriction_marshal ((mkIe 127 1 0 Restriction_NoApnRestriction)) = [127; 0; 1; 0;
  0].
Proof. vm_compute. reflexivity. Qed.
(* gtpv2/messages/ies/arp.rs, arp_ie_unmarshal_test *)
Example arp__arp_ie_unmarshal_test : Arp_unmarshal Debug [155; 0; 1; 0; 84] = Ok (mkIe 155 1 0 (mkArp true 5 false)).
Proof. vm_compute. reflexivity. Qed.
Example arp__arp_ie_unmarshal_test_back : Arp_marshal ((mkIe 155 1 0 (mkArp true 5 false))) = [155; 0; 1; 0; 84].
Proof. vm_compute. reflexivity. Qed.
(* gtpv2/messages/ies/arpi.rs, arpi_ie_unmarshal_test *)
Example arpi__arpi_ie_unmarshal_test : AdditionalRrmPolicyIndex_unmarshal Debug [207; 0; 4; 0; 255; 255; 0; 255] = Ok (mkIe 207 4 0 4294902015).
Proof. vm_compute. reflexivity. Qed.
Example arpi__arpi_ie_unmarshal_test_back : AdditionalRrmPolicyIndex_marshal ((mkIe 207 4 0 4294902015)) = [207; 0; 4; 0; 255; 255; 0; 255].
Proof. vm_compute. reflexivity. Qed.
(* gtpv2/messages/ies/bearercontext.rs, bearer_context_ie_unmarshal_test *)
Example bearercontext__bearer_context_ie_unmarshal_test : BearerContext_unmarshal (decoder Debug) Debug [93; 0; 58; 0; 2; 0; 2; 0; 16; 0; 73; 0; 1; 0;
  5; 87; 0; 9; 2; 132; 6; 209; 130; 76; 193; 254; 139; 45; 80; 0; 22; 0; 108; 9; 0; 0; 0; 0; 0; 0; 0; 0; 0; 0; 0; 0; 0; 0; 0; 0; 0; 0; 0; 0; 94; 0; 4;
  0; 5; 67; 103; 223] = Ok (mkIe 93 58 0 (mkBearerContext (mkIe 73 1 0 5) (Some (mkIe 2 2 0 (mkCause 16 false false false None))) None [mkIe 87 9 2
  (mkFteid 4 114393676 (Some [193; 254; 139; 45]) None)] (Some (mkIe 80 22 0 (mkBearerQos 0 11 1 9 0 0 0 0))) (Some (mkIe 94 4 0 88303583)) None None
  None None None None None None)).
Proof. vm_compute. reflexivity. Qed.
Example bearercontext__bearer_context_ie_unmarshal_test_back : BearerContext_marshal ((mkIe 93 58 0 (mkBearerContext (mkIe 73 1 0 5) (Some (mkIe 2 2 0
  (mkCause 16 false false false None))) None [mkIe 87 9 2 (mkFteid 4 114393676 (Some [193; 254; 139; 45]) None)] (Some (mkIe 80 22 0 (mkBearerQos 0 11
  1 9 0 0 0 0))) (Some (mkIe 94 4 0 88303583)) None None None None None None None None))) = [93; 0; 58; 0; 2; 0; 2; 0; 16; 0; 73; 0; 1; 0; 5; 87; 0;
  9; 2; 132; 6; 209; 130; 76; 193; 254; 139; 45; 80; 0; 22; 0; 108; 9; 0; 0; 0; 0; 0; 0; 0; 0; 0; 0; 0; 0; 0; 0; 0; 0; 0; 0; 0; 0; 94; 0; 4; 0; 5; 67;
  103; 223].
Proof. vm_compute. reflexivity. Qed.
(* gtpv2/messages/ies/bearerflags.rs, bearer_flags_ie_unmarshal_test *)
Example bearerflags__bearer_flags_ie_unmarshal_test : BearerFlags_unmarshal Debug [97; 0; 1; 0; 13] = Ok (mkIe 97 1 0 (mkBearerFlags true true false
  true)).
Proof. vm_compute. reflexivity. Qed.
Example bearerflags__bearer_flags_ie_unmarshal_test_back : BearerFlags_marshal ((mkIe 97 1 0 (mkBearerFlags true true false true))) = [97; 0; 1; 0;
  13].
Proof. vm_compute. reflexivity. Qed.
(* gtpv2/messages/ies/bearerqos.rs, bearer_qos_ie_unmarshal_test *)
Example bearerqos__bearer_qos_ie_unmarshal_test : BearerQos_unmarshal Debug [80; 0; 22; 0; 100; 9; 0; 0; 0; 0; 0; 0; 0; 0; 0; 0; 0; 0; 0; 0; 0; 0; 0;
  0; 0; 0] = Ok (mkIe 80 22 0 (mkBearerQos 0 9 1 9 0 0 0 0)).
Proof. vm_compute. reflexivity. Qed.
Example bearerqos__bearer_qos_ie_unmarshal_test_back : BearerQos_marshal ((mkIe 80 22 0 (mkBearerQos 0 9 1 9 0 0 0 0))) = [80; 0; 22; 0; 100; 9; 0; 0;
  0; 0; 0; 0; 0; 0; 0; 0; 0; 0; 0; 0; 0; 0; 0; 0; 0; 0].
Proof. vm_compute. reflexivity. Qed.
(* gtpv2/messages/ies/bearertft.rs, bearertft_ie_unmarshal_test *)
Example bearertft__bearertft_ie_unmarshal_test : BearerTft_unmarshal Debug [84; 0; 4; 0; 0; 0; 0; 0] = Ok (mkIe 84 4 0 [0; 0; 0; 0]).
Proof. vm_compute. reflexivity. Qed.
Example bearertft__bearertft_ie_unmarshal_test_back : BearerTft_marshal ((mkIe 84 4 0 [0; 0; 0; 0])) = [84; 0; 4; 0; 0; 0; 0; 0].
Proof. vm_compute. reflexivity. Qed.
(* gtpv2/messages/ies/bitrate.rs, bitrate_ie_unmarshal_test *)
Example bitrate__bitrate_ie_unmarshal_test : BitRate_unmarshal Debug [211; 0; 4; 0; 255; 255; 255; 255] = Ok (mkIe 211 4 0 4294967295).
Proof. vm_compute. reflexivity. Qed.
Example bitrate__bitrate_ie_unmarshal_test_back : BitRate_marshal ((mkIe 211 4 0 4294967295)) = [211; 0; 4; 0; 255; 255; 255; 255].
Proof. vm_compute. reflexivity. Qed.
(* gtpv2/messages/ies/cause.rs, cause_ie_short_unmarshal_test *)
Example cause__cause_ie_short_unmarshal_test : Cause_unmarshal Debug [2; 0; 2; 0; 16; 0] = Ok (mkIe 2 2 0 (mkCause 16 false false false None)).
Proof. vm_compute. reflexivity. Qed.
Example cause__cause_ie_short_unmarshal_test_back : Cause_marshal ((mkIe 2 2 0 (mkCause 16 false false false None))) = [2; 0; 2; 0; 16; 0].
Proof. vm_compute. reflexivity. Qed.
(* gtpv2/messages/ies/cause.rs, cause_ie_long_unmarshal_test *)
Example cause__cause_ie_long_unmarshal_test : Cause_unmarshal Debug [2; 0; 6; 0; 16; 2; 15; 0; 0; 0] = Ok (mkIe 2 6 0 (mkCause 16 false true false
  (Some 15))).
Proof. vm_compute. reflexivity. Qed.
Example cause__cause_ie_long_unmarshal_test_back : Cause_marshal ((mkIe 2 6 0 (mkCause 16 false true false (Some 15)))) = [2; 0; 6; 0; 16; 2; 15; 0;
  0; 0].
Proof. vm_compute. reflexivity. Qed.
(* gtpv2/messages/ies/cause.rs, cause_ie_incorrect_length_unmarshal_test *)
Example cause__cause_ie_incorrect_length_unmarshal_test : Cause_unmarshal Debug [2; 0; 8; 0; 16; 2; 15; 0; 0; 0; 0; 0] = Err (IEIncorrect 2).
Proof. vm_compute. reflexivity. Qed.
(* gtpv2/messages/ies/cause.rs, cause_ie_too_incorrect_length_too_small_unmarshal_test *)
Example cause__cause_ie_too_incorrect_length_too_small_unmarshal_test : Cause_unmarshal Debug [2; 0; 8; 0; 16; 2; 15; 0; 0; 0] = Err (IEIncorrect 2).
Proof. vm_compute. reflexivity. Qed.
(* gtpv2/messages/ies/changereportingaction.rs, change_reporting_action_ie_unmarshal_test *)
Example changereportingaction__change_reporting_action_ie_unmarshal_test : ChangeReportingAction_unmarshal Debug [131; 0; 1; 0; 1] = Ok (mkIe 131 1 0
  1).
Proof. vm_compute. reflexivity. Qed.
Example changereportingaction__change_reporting_action_ie_unmarshal_test_back : ChangeReportingAction_marshal ((mkIe 131 1 0 1)) = [131; 0; 1; 0; 1].
Proof. vm_compute. reflexivity. Qed.
(* gtpv2/messages/ies/changetoreportflags.rs, change_to_report_flags_ie_unmarshal_test *)
Example changetoreportflags__change_to_report_flags_ie_unmarshal_test : ChangeToReportFlags_unmarshal Debug [167; 0; 1; 0; 2] = Ok (mkIe 167 1 0
  (mkCtrFlags true false)).
Proof. vm_compute. reflexivity. Qed.
Example changetoreportflags__change_to_report_flags_ie_unmarshal_test_back : ChangeToReportFlags_marshal ((mkIe 167 1 0 (mkCtrFlags true false))) =
  [167; 0; 1; 0; 2].
Proof. vm_compute. reflexivity. Qed.
(* gtpv2/messages/ies/channelneeded.rs, channel_needed_ie_unmarshal_test *)
Example channelneeded__channel_needed_ie_unmarshal_test : ChannelNeeded_unmarshal Debug [133; 0; 1; 0; 255] = Ok (mkIe 133 1 0 255).
Proof. vm_compute. reflexivity. Qed.
Example channelneeded__channel_needed_ie_unmarshal_test_back : ChannelNeeded_marshal ((mkIe 133 1 0 255)) = [133; 0; 1; 0; 255].
Proof. vm_compute. reflexivity. Qed.
(* gtpv2/messages/ies/chargingchar.rs, chargingchar_ie_unmarshal_test *)
Example chargingchar__chargingchar_ie_unmarshal_test : ChargingCharacteristics_unmarshal Debug [95; 0; 2; 0; 255; 255] = Ok (mkIe 95 2 0 65535).
Proof. vm_compute. reflexivity. Qed.
Example chargingchar__chargingchar_ie_unmarshal_test_back : ChargingCharacteristics_marshal ((mkIe 95 2 0 65535)) = [95; 0; 2; 0; 255; 255].
Proof. vm_compute. reflexivity. Qed.
(* gtpv2/messages/ies/chargingid.rs, chargingid_ie_unmarshal_test *)
Example chargingid__chargingid_ie_unmarshal_test : ChargingId_unmarshal Debug [94; 0; 4; 0; 255; 255; 0; 255] = Ok (mkIe 94 4 0 4294902015).
Proof. vm_compute. reflexivity. Qed.
Example chargingid__chargingid_ie_unmarshal_test_back : ChargingId_marshal ((mkIe 94 4 0 4294902015)) = [94; 0; 4; 0; 255; 255; 0; 255].
Proof. vm_compute. reflexivity. Qed.
(* gtpv2/messages/ies/ciotoptimizationssupport.rs, ciot_support_ie_unmarshal_test *)
Example ciotoptimizationssupport__ciot_support_ie_unmarshal_test : CIoTOptimizationSupportIndication_unmarshal Debug [194; 0; 1; 0; 9] = Ok (mkIe 194
  1 0 (mkCiot true false false true)).
Proof. vm_compute. reflexivity. Qed.
Example ciotoptimizationssupport__ciot_support_ie_unmarshal_test_back : CIoTOptimizationSupportIndication_marshal ((mkIe 194 1 0 (mkCiot true false
  false true))) = [194; 0; 1; 0; 9].
Proof. vm_compute. reflexivity. Qed.
(* gtpv2/messages/ies/cmi.rs, cmi_ie_unmarshal_test *)
Example cmi__cmi_ie_unmarshal_test : CsgMembershipIndication_unmarshal Debug [148; 0; 1; 0; 1] = Ok (mkIe 148 1 0 CsgMembership_NonCsgMembership).
Proof. vm_compute. reflexivity. Qed.
Example cmi__cmi_ie_unmarshal_test_back : CsgMembershipIndication_marshal ((mkIe 148 1 0 CsgMembership_NonCsgMembership)) = [148; 0; 1; 0; 1].
Proof. vm_compute. reflexivity. Qed.
(* gtpv2/messages/ies/cnose.rs, cnose_ie_unmarshal_test *)
Example cnose__cnose_ie_unmarshal_test : CnOperatorSelectionEntity_unmarshal Debug [173; 0; 1; 0; 1] = Ok (mkIe 173 1 0
  ServingNetworkSelectedbyNetwork).
Proof. vm_compute. reflexivity. Qed.
Example cnose__cnose_ie_unmarshal_test_back : CnOperatorSelectionEntity_marshal ((mkIe 173 1 0 ServingNetworkSelectedbyNetwork)) = [173; 0; 1; 0; 1].
Proof. vm_compute. reflexivity. Qed.
(* gtpv2/messages/ies/completereqmessage.rs, complete_request_msg_ie_unmarshal_test *)
Example completereqmessage__complete_request_msg_ie_unmarshal_test : CompleteRequestMessage_unmarshal Debug [116; 0; 6; 0; 0; 170; 187; 204; 221; 238]
  = Ok (mkIe 116 6 0 (ReqAttach [170; 187; 204; 221; 238])).
Proof. vm_compute. reflexivity. Qed.
Example completereqmessage__complete_request_msg_ie_unmarshal_test_back : CompleteRequestMessage_marshal ((mkIe 116 6 0 (ReqAttach [170; 187; 204;
  221; 238]))) = [116; 0; 6; 0; 0; 170; 187; 204; 221; 238].
Proof. vm_compute. reflexivity. Qed.
(* gtpv2/messages/ies/counter.rs, counter_ie_unmarshal_test *)
Example counter__counter_ie_unmarshal_test : Counter_unmarshal Debug [199; 0; 5; 0; 238; 107; 40; 0; 9] = Ok (mkIe 199 5 0 (mkCounter 4000000000 9)).
Proof. vm_compute. reflexivity. Qed.
Example counter__counter_ie_unmarshal_test_back : Counter_marshal ((mkIe 199 5 0 (mkCounter 4000000000 9))) = [199; 0; 5; 0; 238; 107; 40; 0; 9].
Proof. vm_compute. reflexivity. Qed.
(* gtpv2/messages/ies/csgid.rs, csgid_ie_unmarshal_test *)
Example csgid__csgid_ie_unmarshal_test : CsgId_unmarshal Debug [147; 0; 4; 0; 7; 255; 255; 255] = Ok (mkIe 147 4 0 134217727).
Proof. vm_compute. reflexivity. Qed.
Example csgid__csgid_ie_unmarshal_test_back : CsgId_marshal ((mkIe 147 4 0 134217727)) = [147; 0; 4; 0; 7; 255; 255; 255].
Proof. vm_compute. reflexivity. Qed.
(* gtpv2/messages/ies/csginforeporting.rs, csg_info_reporting_ie_unmarshal_test *)
Example csginforeporting__csg_info_reporting_ie_unmarshal_test : CSGInformationReportingAction_unmarshal Debug [146; 0; 1; 0; 7] = Ok (mkIe 146 1 0
  7).
Proof. vm_compute. reflexivity. Qed.
Example csginforeporting__csg_info_reporting_ie_unmarshal_test_back : CSGInformationReportingAction_marshal ((mkIe 146 1 0 7)) = [146; 0; 1; 0; 7].
Proof. vm_compute. reflexivity. Qed.
(* gtpv2/messages/ies/delayvalue.rs, delay_value_ie_unmarshal_test *)
Example delayvalue__delay_value_ie_unmarshal_test : DelayValue_unmarshal Debug [92; 0; 1; 0; 255] = Ok (mkIe 92 1 0 255).
Proof. vm_compute. reflexivity. Qed.
Example delayvalue__delay_value_ie_unmarshal_test_back : DelayValue_marshal ((mkIe 92 1 0 255)) = [92; 0; 1; 0; 255].
Proof. vm_compute. reflexivity. Qed.
(* gtpv2/messages/ies/detachtype.rs, detach_type_ie_unmarshal_test *)
Example detachtype__detach_type_ie_unmarshal_test : DetachType_unmarshal Debug [150; 0; 1; 0; 2] = Ok (mkIe 150 1 0
  DetachTypeValue_CombinedPsCsDetach).
Proof. vm_compute. reflexivity. Qed.
Example detachtype__detach_type_ie_unmarshal_test_back : DetachType_marshal ((mkIe 150 1 0 DetachTypeValue_CombinedPsCsDetach)) = [150; 0; 1; 0; 2].
Proof. vm_compute. reflexivity. Qed.
(* gtpv2/messages/ies/ebi.rs, ebi_ie_unmarshal_test *)
Example ebi__ebi_ie_unmarshal_test : Ebi_unmarshal Debug [73; 0; 1; 0; 5] = Ok (mkIe 73 1 0 5).
Proof. vm_compute. reflexivity. Qed.
Example ebi__ebi_ie_unmarshal_test_back : Ebi_marshal ((mkIe 73 1 0 5)) = [73; 0; 1; 0; 5].
Proof. vm_compute. reflexivity. Qed.
(* gtpv2/messages/ies/ecgilist.rs, ecgilist_ie_unmarshal_test *)
Example ecgilist__ecgilist_ie_unmarshal_test : EcgiList_unmarshal Debug [190; 0; 23; 0; 0; 3; 98; 242; 16; 1; 186; 64; 2; 98; 242; 16; 1; 186; 64; 3;
  98; 242; 16; 1; 186; 64; 1] = Ok (mkIe 190 23 0 (Some [mkEcgi (mkPlmn 262 1 false) 28983298; mkEcgi (mkPlmn 262 1 false) 28983299; mkEcgi (mkPlmn
  262 1 false) 28983297])).
Proof. vm_compute. reflexivity. Qed.
Example ecgilist__ecgilist_ie_unmarshal_test_back : EcgiList_marshal ((mkIe 190 23 0 (Some [mkEcgi (mkPlmn 262 1 false) 28983298; mkEcgi (mkPlmn 262 1
  false) 28983299; mkEcgi (mkPlmn 262 1 false) 28983297]))) = [190; 0; 23; 0; 0; 3; 98; 242; 16; 1; 186; 64; 2; 98; 242; 16; 1; 186; 64; 3; 98; 242;
  16; 1; 186; 64; 1].
Proof. vm_compute. reflexivity. Qed.
(* gtpv2/messages/ies/emlppprio.rs, emlpp_ie_unmarshal_test *)
Example emlppprio__emlpp_ie_unmarshal_test : EmlppPriority_unmarshal Debug [134; 0; 1; 0; 0] = Ok (mkIe 134 1 0 0).
Proof. vm_compute. reflexivity. Qed.
Example emlppprio__emlpp_ie_unmarshal_test_back : EmlppPriority_marshal ((mkIe 134 1 0 0)) = [134; 0; 1; 0; 0].
Proof. vm_compute. reflexivity. Qed.
(* gtpv2/messages/ies/epco.rs, apco_ie_unmarshal_test *)
Example epco__apco_ie_unmarshal_test : Epco_unmarshal Debug [197; 0; 20; 0; 128; 128; 33; 16; 1; 1; 0; 16; 129; 6; 0; 0; 0; 0; 131; 6; 0; 0; 0; 0] =
  Ok (mkIe 197 20 0 [128; 128; 33; 16; 1; 1; 0; 16; 129; 6; 0; 0; 0; 0; 131; 6; 0; 0; 0; 0]).
Proof. vm_compute. reflexivity. Qed.
Example epco__apco_ie_unmarshal_test_back : Epco_marshal ((mkIe 197 20 0 [128; 128; 33; 16; 1; 1; 0; 16; 129; 6; 0; 0; 0; 0; 131; 6; 0; 0; 0; 0])) =
  [197; 0; 20; 0; 128; 128; 33; 16; 1; 1; 0; 16; 129; 6; 0; 0; 0; 0; 131; 6; 0; 0; 0; 0].
Proof. vm_compute. reflexivity. Qed.
(* gtpv2/messages/ies/epctimer.rs, epctimer_ie_unmarshal_test *)
Example epctimer__epctimer_ie_unmarshal_test : EpcTimer_unmarshal Debug [156; 0; 1; 0; 127] = Ok (mkIe 156 1 0 (mkEpcTimer 3 31)).
Proof. vm_compute. reflexivity. Qed.
Example epctimer__epctimer_ie_unmarshal_test_back : EpcTimer_marshal ((mkIe 156 1 0 (mkEpcTimer 3 31))) = [156; 0; 1; 0; 127].
Proof. vm_compute. reflexivity. Qed.
(* gtpv2/messages/ies/extendedtraceinfo.rs, ext_trace_info_ie_ipv4_unmarshal_test *)
Example extendedtraceinfo__ext_trace_info_ie_ipv4_unmarshal_test : ExtendedTraceInformation_unmarshal Debug [205; 0; 38; 0; 153; 249; 16; 255; 255;
  250; 9; 0; 0; 0; 0; 0; 0; 0; 0; 0; 4; 255; 255; 255; 255; 9; 10; 250; 250; 250; 250; 250; 250; 250; 250; 250; 250; 4; 139; 7; 133; 184] = Ok (mkIe
  205 38 0 (mkExtTrace (mkPlmn 999 1 false) 16777210 [0; 0; 0; 0; 0; 0; 0; 0; 0] [255; 255; 255; 255] 9 [250; 250; 250; 250; 250; 250; 250; 250; 250;
  250] (IpV4 [139; 7; 133; 184]))).
Proof. vm_compute. reflexivity. Qed.
Example extendedtraceinfo__ext_trace_info_ie_ipv4_unmarshal_test_back : ExtendedTraceInformation_marshal ((mkIe 205 38 0 (mkExtTrace (mkPlmn 999 1
  false) 16777210 [0; 0; 0; 0; 0; 0; 0; 0; 0] [255; 255; 255; 255] 9 [250; 250; 250; 250; 250; 250; 250; 250; 250; 250] (IpV4 [139; 7; 133; 184])))) =
  [205; 0; 38; 0; 153; 249; 16; 255; 255; 250; 9; 0; 0; 0; 0; 0; 0; 0; 0; 0; 4; 255; 255; 255; 255; 9; 10; 250; 250; 250; 250; 250; 250; 250; 250;
  250; 250; 4; 139; 7; 133; 184].
Proof. vm_compute. reflexivity. Qed.
(* gtpv2/messages/ies/extendedtraceinfo.rs, ext_trace_info_ie_ipv6_unmarshal_test *)
Example extendedtraceinfo__ext_trace_info_ie_ipv6_unmarshal_test : ExtendedTraceInformation_unmarshal Debug [205; 0; 50; 0; 153; 249; 16; 255; 255;
  250; 9; 0; 0; 0; 0; 0; 0; 0; 0; 0; 4; 255; 255; 255; 255; 9; 10; 250; 250; 250; 250; 250; 250; 250; 250; 250; 250; 16; 0; 253; 0; 0; 0; 0; 0; 0; 0;
  0; 0; 0; 0; 0; 0; 1] = Ok (mkIe 205 50 0 (mkExtTrace (mkPlmn 999 1 false) 16777210 [0; 0; 0; 0; 0; 0; 0; 0; 0] [255; 255; 255; 255] 9 [250; 250;
  250; 250; 250; 250; 250; 250; 250; 250] (IpV6 [0; 253; 0; 0; 0; 0; 0; 0; 0; 0; 0; 0; 0; 0; 0; 1]))).
Proof. vm_compute. reflexivity. Qed.
Example extendedtraceinfo__ext_trace_info_ie_ipv6_unmarshal_test_back : ExtendedTraceInformation_marshal ((mkIe 205 50 0 (mkExtTrace (mkPlmn 999 1
  false) 16777210 [0; 0; 0; 0; 0; 0; 0; 0; 0] [255; 255; 255; 255] 9 [250; 250; 250; 250; 250; 250; 250; 250; 250; 250] (IpV6 [0; 253; 0; 0; 0; 0; 0;
  0; 0; 0; 0; 0; 0; 0; 0; 1])))) = [205; 0; 50; 0; 153; 249; 16; 255; 255; 250; 9; 0; 0; 0; 0; 0; 0; 0; 0; 0; 4; 255; 255; 255; 255; 9; 10; 250; 250;
  250; 250; 250; 250; 250; 250; 250; 250; 16; 0; 253; 0; 0; 0; 0; 0; 0; 0; 0; 0; 0; 0; 0; 0; 1].
Proof. vm_compute. reflexivity. Qed.
(* gtpv2/messages/ies/fcause.rs, fcause_ie_unmarshal_test *)
Example fcause__fcause_ie_unmarshal_test : Fcause_unmarshal Debug [119; 0; 3; 0; 0; 255; 170] = Ok (mkIe 119 3 0 (mkFcause CauseType_RadioNetworkLayer
  [255; 170])).
Proof. vm_compute. reflexivity. Qed.
Example fcause__fcause_ie_unmarshal_test_back : Fcause_marshal ((mkIe 119 3 0 (mkFcause CauseType_RadioNetworkLayer [255; 170]))) = [119; 0; 3; 0; 0;
  255; 170].
Proof. vm_compute. reflexivity. Qed.
(* gtpv2/messages/ies/fcontainer.rs, fcontainer_ie_unmarshal_test *)
Example fcontainer__fcontainer_ie_unmarshal_test : Fcontainer_unmarshal Debug [118; 0; 6; 0; 3; 170; 187; 204; 221; 238] = Ok (mkIe 118 6 0 (FcEutran
  [170; 187; 204; 221; 238])).
Proof. vm_compute. reflexivity. Qed.
Example fcontainer__fcontainer_ie_unmarshal_test_back : Fcontainer_marshal ((mkIe 118 6 0 (FcEutran [170; 187; 204; 221; 238]))) = [118; 0; 6; 0; 3;
  170; 187; 204; 221; 238].
Proof. vm_compute. reflexivity. Qed.
(* gtpv2/messages/ies/flowqos.rs, flow_qos_ie_unmarshal_test *)
Example flowqos__flow_qos_ie_unmarshal_test : FlowQos_unmarshal Debug [81; 0; 21; 0; 9; 0; 0; 0; 0; 0; 0; 0; 0; 0; 0; 0; 0; 0; 0; 0; 0; 0; 0; 0; 0] =
  Ok (mkIe 81 21 0 (mkFlowQos 9 0 0 0 0)).
Proof. vm_compute. reflexivity. Qed.
Example flowqos__flow_qos_ie_unmarshal_test_back : FlowQos_marshal ((mkIe 81 21 0 (mkFlowQos 9 0 0 0 0))) = [81; 0; 21; 0; 9; 0; 0; 0; 0; 0; 0; 0; 0;
  0; 0; 0; 0; 0; 0; 0; 0; 0; 0; 0; 0].
Proof. vm_compute. reflexivity. Qed.
(* gtpv2/messages/ies/fqcsid.rs, fqcsid_ie_ipv4_unmarshal_test *)
Example fqcsid__fqcsid_ie_ipv4_unmarshal_test : Fqcsid_unmarshal Debug [132; 0; 7; 0; 1; 139; 7; 133; 184; 255; 255] = Ok (mkIe 132 7 0 (mkFqcsid
  (NodeV4 [139; 7; 133; 184]) [65535])).
Proof. vm_compute. reflexivity. Qed.
Example fqcsid__fqcsid_ie_ipv4_unmarshal_test_back : Fqcsid_marshal ((mkIe 132 7 0 (mkFqcsid (NodeV4 [139; 7; 133; 184]) [65535]))) = [132; 0; 7; 0;
  1; 139; 7; 133; 184; 255; 255].
Proof. vm_compute. reflexivity. Qed.
(* gtpv2/messages/ies/fqcsid.rs, fqcsid_ie_ipv6_unmarshal_test *)
Example fqcsid__fqcsid_ie_ipv6_unmarshal_test : Fqcsid_unmarshal Debug [132; 0; 21; 0; 18; 0; 1; 0; 0; 0; 0; 0; 0; 0; 0; 0; 0; 0; 0; 0; 0; 255; 255;
  255; 170] = Ok (mkIe 132 21 0 (mkFqcsid (NodeV6 [0; 1; 0; 0; 0; 0; 0; 0; 0; 0; 0; 0; 0; 0; 0; 0]) [65535; 65450])).
Proof. vm_compute. reflexivity. Qed.
Example fqcsid__fqcsid_ie_ipv6_unmarshal_test_back : Fqcsid_marshal ((mkIe 132 21 0 (mkFqcsid (NodeV6 [0; 1; 0; 0; 0; 0; 0; 0; 0; 0; 0; 0; 0; 0; 0;
  0]) [65535; 65450]))) = [132; 0; 21; 0; 18; 0; 1; 0; 0; 0; 0; 0; 0; 0; 0; 0; 0; 0; 0; 0; 0; 255; 255; 255; 170].
Proof. vm_compute. reflexivity. Qed.
(* gtpv2/messages/ies/fqcsid.rs, fqcsid_ie_nwaddr_unmarshal_test *)
Example fqcsid__fqcsid_ie_nwaddr_unmarshal_test : Fqcsid_unmarshal Debug [132; 0; 7; 0; 33; 139; 7; 133; 184; 255; 255] = Ok (mkIe 132 7 0 (mkFqcsid
  (NodeNw 2332526008) [65535])).
Proof. vm_compute. reflexivity. Qed.
Example fqcsid__fqcsid_ie_nwaddr_unmarshal_test_back : Fqcsid_marshal ((mkIe 132 7 0 (mkFqcsid (NodeNw 2332526008) [65535]))) = [132; 0; 7; 0; 33;
  139; 7; 133; 184; 255; 255].
Proof. vm_compute. reflexivity. Qed.
(* gtpv2/messages/ies/fqdn.rs, fqdn_ie_unmarshal_test *)
Example fqdn__fqdn_ie_unmarshal_test : Fqdn_unmarshal Debug [136; 0; 53; 0; 5; 116; 111; 112; 111; 110; 5; 110; 111; 100; 101; 115; 3; 112; 103; 119;
  2; 115; 101; 3; 101; 112; 99; 5; 109; 110; 99; 48; 53; 6; 109; 99; 99; 50; 51; 52; 11; 51; 103; 112; 112; 110; 101; 116; 119; 111; 114; 107; 3; 111;
  114; 103; 0] = Ok (mkIe 136 53 0 [116; 111; 112; 111; 110; 46; 110; 111; 100; 101; 115; 46; 112; 103; 119; 46; 115; 101; 46; 101; 112; 99; 46; 109;
  110; 99; 48; 53; 46; 109; 99; 99; 50; 51; 52; 46; 51; 103; 112; 112; 110; 101; 116; 119; 111; 114; 107; 46; 111; 114; 103; 46]).
Proof. vm_compute. reflexivity. Qed.
Example fqdn__fqdn_ie_unmarshal_test_back : Fqdn_marshal ((mkIe 136 53 0 [116; 111; 112; 111; 110; 46; 110; 111; 100; 101; 115; 46; 112; 103; 119; 46;
  115; 101; 46; 101; 112; 99; 46; 109; 110; 99; 48; 53; 46; 109; 99; 99; 50; 51; 52; 46; 51; 103; 112; 112; 110; 101; 116; 119; 111; 114; 107; 46;
  111; 114; 103; 46])) = [136; 0; 53; 0; 5; 116; 111; 112; 111; 110; 5; 110; 111; 100; 101; 115; 3; 112; 103; 119; 2; 115; 101; 3; 101; 112; 99; 5;
  109; 110; 99; 48; 53; 6; 109; 99; 99; 50; 51; 52; 11; 51; 103; 112; 112; 110; 101; 116; 119; 111; 114; 107; 3; 111; 114; 103; 0].
Proof. vm_compute. reflexivity. Qed.
(* gtpv2/messages/ies/fteid.rs, fteid_ie_ipv4_unmarshal_test *)
Example fteid__fteid_ie_ipv4_unmarshal_test : Fteid_unmarshal Debug [87; 0; 9; 0; 134; 39; 137; 47; 112; 139; 7; 133; 184] = Ok (mkIe 87 9 0 (mkFteid
  6 663302000 (Some [139; 7; 133; 184]) None)).
Proof. vm_compute. reflexivity. Qed.
Example fteid__fteid_ie_ipv4_unmarshal_test_back : Fteid_marshal ((mkIe 87 9 0 (mkFteid 6 663302000 (Some [139; 7; 133; 184]) None))) = [87; 0; 9; 0;
  134; 39; 137; 47; 112; 139; 7; 133; 184].
Proof. vm_compute. reflexivity. Qed.
(* gtpv2/messages/ies/fteid.rs, fteid_ie_ipv6_unmarshal_test *)
Example fteid__fteid_ie_ipv6_unmarshal_test : Fteid_unmarshal Debug [87; 0; 21; 0; 70; 39; 137; 47; 112; 0; 1; 0; 0; 0; 0; 0; 0; 0; 0; 0; 0; 0; 0; 0;
  0] = Ok (mkIe 87 21 0 (mkFteid 6 663302000 None (Some [0; 1; 0; 0; 0; 0; 0; 0; 0; 0; 0; 0; 0; 0; 0; 0]))).
Proof. vm_compute. reflexivity. Qed.
Example fteid__fteid_ie_ipv6_unmarshal_test_back : Fteid_marshal ((mkIe 87 21 0 (mkFteid 6 663302000 None (Some [0; 1; 0; 0; 0; 0; 0; 0; 0; 0; 0; 0;
  0; 0; 0; 0])))) = [87; 0; 21; 0; 70; 39; 137; 47; 112; 0; 1; 0; 0; 0; 0; 0; 0; 0; 0; 0; 0; 0; 0; 0; 0].
Proof. vm_compute. reflexivity. Qed.
(* gtpv2/messages/ies/fteid.rs, fteid_ie_ipv46_unmarshal_test *)
Example fteid__fteid_ie_ipv46_unmarshal_test : Fteid_unmarshal Debug [87; 0; 25; 0; 198; 39; 137; 47; 112; 139; 7; 133; 184; 0; 1; 0; 0; 0; 0; 0; 0;
  0; 0; 0; 0; 0; 0; 0; 0] = Ok (mkIe 87 25 0 (mkFteid 6 663302000 (Some [139; 7; 133; 184]) (Some [0; 1; 0; 0; 0; 0; 0; 0; 0; 0; 0; 0; 0; 0; 0; 0]))).
Proof. vm_compute. reflexivity. Qed.
Example fteid__fteid_ie_ipv46_unmarshal_test_back : Fteid_marshal ((mkIe 87 25 0 (mkFteid 6 663302000 (Some [139; 7; 133; 184]) (Some [0; 1; 0; 0; 0;
  0; 0; 0; 0; 0; 0; 0; 0; 0; 0; 0])))) = [87; 0; 25; 0; 198; 39; 137; 47; 112; 139; 7; 133; 184; 0; 1; 0; 0; 0; 0; 0; 0; 0; 0; 0; 0; 0; 0; 0; 0].
Proof. vm_compute. reflexivity. Qed.
(* gtpv2/messages/ies/fteid.rs, fteid_ie_wrong_flags_unmarshal_test *)
Example fteid__fteid_ie_wrong_flags_unmarshal_test : Fteid_unmarshal Debug [87; 0; 25; 0; 6; 39; 137; 47; 112; 139; 7; 133; 184; 0; 1; 0; 0; 0; 0; 0;
  0; 0; 0; 0; 0; 0; 0; 0; 0] = Err (IEIncorrect 87).
Proof. vm_compute. reflexivity. Qed.
(* gtpv2/messages/ies/globalcnid.rs, global_cn_id_ie_unmarshal_test *)
Example globalcnid__global_cn_id_ie_unmarshal_test : GlobalCnId_unmarshal Debug [89; 0; 5; 0; 153; 249; 16; 15; 160] = Ok (mkIe 89 5 0 (mkGlobalCn
  (mkPlmn 999 1 false) 4000)).
Proof. vm_compute. reflexivity. Qed.
Example globalcnid__global_cn_id_ie_unmarshal_test_back : GlobalCnId_marshal ((mkIe 89 5 0 (mkGlobalCn (mkPlmn 999 1 false) 4000))) = [89; 0; 5; 0;
  153; 249; 16; 15; 160].
Proof. vm_compute. reflexivity. Qed.
(* gtpv2/messages/ies/groupedie.rs, grouped_ie_unmarshal_test *)
Example groupedie__grouped_ie_unmarshal_test : GroupedIe_unmarshal (decoder Debug) Debug [93; 0; 44; 1; 73; 0; 1; 0; 5; 87; 0; 9; 2; 132; 6; 209; 130;
  76; 193; 254; 139; 45; 80; 0; 22; 0; 108; 9; 0; 0; 0; 0; 0; 0; 0; 0; 0; 0; 0; 0; 0; 0; 0; 0; 0; 0; 0; 0] = Ok (mkIe 93 44 1 [IE_Ebi (mkIe 73 1 0 5);
  IE_Fteid (mkIe 87 9 2 (mkFteid 4 114393676 (Some [193; 254; 139; 45]) None)); IE_BearerQos (mkIe 80 22 0 (mkBearerQos 0 11 1 9 0 0 0 0))]).
Proof. vm_compute. reflexivity. Qed.
Example groupedie__grouped_ie_unmarshal_test_back : GroupedIe_marshal ((mkIe 93 44 1 [IE_Ebi (mkIe 73 1 0 5); IE_Fteid (mkIe 87 9 2 (mkFteid 4
  114393676 (Some [193; 254; 139; 45]) None)); IE_BearerQos (mkIe 80 22 0 (mkBearerQos 0 11 1 9 0 0 0 0))])) = [93; 0; 44; 1; 73; 0; 1; 0; 5; 87; 0;
  9; 2; 132; 6; 209; 130; 76; 193; 254; 139; 45; 80; 0; 22; 0; 108; 9; 0; 0; 0; 0; 0; 0; 0; 0; 0; 0; 0; 0; 0; 0; 0; 0; 0; 0; 0; 0].
Proof. vm_compute. reflexivity. Qed.
(* gtpv2/messages/ies/groupid.rs, group_id_ie_unmarshal_test *)
Example groupid__group_id_ie_unmarshal_test : GroupId_unmarshal Debug [216; 0; 3; 0; 10; 255; 0] = Ok (mkIe 216 3 0 [10; 255; 0]).
Proof. vm_compute. reflexivity. Qed.
Example groupid__group_id_ie_unmarshal_test_back : GroupId_marshal ((mkIe 216 3 0 [10; 255; 0])) = [216; 0; 3; 0; 10; 255; 0].
Proof. vm_compute. reflexivity. Qed.
(* gtpv2/messages/ies/guti.rs, global_cn_id_ie_unmarshal_test *)
Example guti__global_cn_id_ie_unmarshal_test : Guti_unmarshal Debug [117; 0; 10; 0; 153; 249; 16; 1; 44; 10; 255; 255; 255; 255] = Ok (mkIe 117 10 0
  (mkGuti (mkPlmn 999 1 false) 300 10 4294967295)).
Proof. vm_compute. reflexivity. Qed.
Example guti__global_cn_id_ie_unmarshal_test_back : Guti_marshal ((mkIe 117 10 0 (mkGuti (mkPlmn 999 1 false) 300 10 4294967295))) = [117; 0; 10; 0;
  153; 249; 16; 1; 44; 10; 255; 255; 255; 255].
Proof. vm_compute. reflexivity. Qed.
(* gtpv2/messages/ies/hdrcomprconfig.rs, hdr_compr_config_ie_unmarshal_test *)
Example hdrcomprconfig__hdr_compr_config_ie_unmarshal_test : HeaderCompressionConfiguration_unmarshal Debug [196; 0; 4; 0; 127; 0; 0; 255] = Ok (mkIe
  196 4 0 (mkHdrCompr [0; 2; 3; 4; 6; 258; 259; 260] 255)).
Proof. vm_compute. reflexivity. Qed.
Example hdrcomprconfig__hdr_compr_config_ie_unmarshal_test_back : HeaderCompressionConfiguration_marshal ((mkIe 196 4 0 (mkHdrCompr [0; 2; 3; 4; 6;
  258; 259; 260] 255))) = [196; 0; 4; 0; 127; 0; 0; 255].
Proof. vm_compute. reflexivity. Qed.
(* gtpv2/messages/ies/henbinforeporting.rs, henb_info_reporting_ie_unmarshal_test *)
Example henbinforeporting__henb_info_reporting_ie_unmarshal_test : HenbInfoReporting_unmarshal Debug [165; 0; 1; 0; 1] = Ok (mkIe 165 1 0 true).
Proof. vm_compute. reflexivity. Qed.
Example henbinforeporting__henb_info_reporting_ie_unmarshal_test_back : HenbInfoReporting_marshal ((mkIe 165 1 0 true)) = [165; 0; 1; 0; 1].
Proof. vm_compute. reflexivity. Qed.
(* gtpv2/messages/ies/hopcounter.rs, hop_counter_ie_unmarshal_test *)
Example hopcounter__hop_counter_ie_unmarshal_test : HopCounter_unmarshal Debug [113; 0; 1; 0; 1] = Ok (mkIe 113 1 0 1).
Proof. vm_compute. reflexivity. Qed.
Example hopcounter__hop_counter_ie_unmarshal_test_back : HopCounter_marshal ((mkIe 113 1 0 1)) = [113; 0; 1; 0; 1].
Proof. vm_compute. reflexivity. Qed.
(* gtpv2/messages/ies/imsi.rs, imsi_ie_unmarshal_test *)
Example imsi__imsi_ie_unmarshal_test : Imsi_unmarshal Debug [1; 0; 8; 0; 9; 65; 80; 1; 145; 22; 120; 243] = Ok (mkIe 1 8 0 [57; 48; 49; 52; 48; 53;
  49; 48; 49; 57; 54; 49; 56; 55; 51]).
Proof. vm_compute. reflexivity. Qed.
Example imsi__imsi_ie_unmarshal_test_back : Imsi_marshal ((mkIe 1 8 0 [57; 48; 49; 52; 48; 53; 49; 48; 49; 57; 54; 49; 56; 55; 51])) = [1; 0; 8; 0; 9;
  65; 80; 1; 145; 22; 120; 243].
Proof. vm_compute. reflexivity. Qed.
(* gtpv2/messages/ies/indication.rs, indication_ie_unmarshal_test *)
Example indication__indication_ie_unmarshal_test : Indication_unmarshal Debug [77; 0; 10; 0; 1; 0; 0; 0; 0; 0; 1; 0; 0; 4] = Ok (mkIe 77 10 0
  (mkIndication false false false false false false false true false false false false false false false false false false false false false false
  false false false false false false false false false false false false false false false false false false false false false false false false
  false false false false false false false false false true false false false false false false false false false false false false false false false
  false true false false)).
Proof. vm_compute. reflexivity. Qed.
Example indication__indication_ie_unmarshal_test_back : Indication_marshal ((mkIe 77 10 0 (mkIndication false false false false false false false true
  false false false false false false false false false false false false false false false false false false false false false false false false
  false false false false false false false false false false false false false false false false false false false false false false false true false
  false false false false false false false false false false false false false false false true false false))) = [77; 0; 10; 0; 1; 0; 0; 0; 0; 0; 1;
  0; 0; 4].
Proof. vm_compute. reflexivity. Qed.
(* gtpv2/messages/ies/indication.rs, indication_ie_unmarshal_legacy_test *)
Example indication__indication_ie_unmarshal_legacy_test : Indication_unmarshal Debug [77; 0; 7; 0; 1; 0; 0; 0; 0; 0; 1] = Ok (mkIe 77 7 0
  (mkIndication false false false false false false false true false false false false false false false false false false false false false false
  false false false false false false false false false false false false false false false false false false false false false false false false
  false false false false false false false false false true false false false false false false false false false false false false false false false
  false false false false)).
Proof. vm_compute. reflexivity. Qed.
(* gtpv2/messages/ies/integernumber.rs, integer_number_ie_unmarshal_test *)
Example integernumber__integer_number_ie_unmarshal_test : IntegerNumber_unmarshal Debug [187; 0; 2; 0; 255; 255] = Ok (mkIe 187 2 0 [255; 255]).
Proof. vm_compute. reflexivity. Qed.
Example integernumber__integer_number_ie_unmarshal_test_back : IntegerNumber_marshal ((mkIe 187 2 0 [255; 255])) = [187; 0; 2; 0; 255; 255].
Proof. vm_compute. reflexivity. Qed.
(* gtpv2/messages/ies/ip4cp.rs, ip4cp_address_ie_ipv4_unmarshal_test *)
Example ip4cp__ip4cp_address_ie_ipv4_unmarshal_test : Ip4Cp_unmarshal Debug [166; 0; 5; 0; 32; 0; 0; 0; 0] = Ok (mkIe 166 5 0 (mkIp4Cp 32 [0; 0; 0;
  0])).
Proof. vm_compute. reflexivity. Qed.
Example ip4cp__ip4cp_address_ie_ipv4_unmarshal_test_back : Ip4Cp_marshal ((mkIe 166 5 0 (mkIp4Cp 32 [0; 0; 0; 0]))) = [166; 0; 5; 0; 32; 0; 0; 0; 0].
Proof. vm_compute. reflexivity. Qed.
(* gtpv2/messages/ies/ipaddress.rs, ip_address_ie_ipv4_unmarshal_test *)
Example ipaddress__ip_address_ie_ipv4_unmarshal_test : IpAddress_unmarshal Debug [74; 0; 4; 0; 0; 0; 0; 0] = Ok (mkIe 74 4 0 (IpV4 [0; 0; 0; 0])).
Proof. vm_compute. reflexivity. Qed.
Example ipaddress__ip_address_ie_ipv4_unmarshal_test_back : IpAddress_marshal ((mkIe 74 4 0 (IpV4 [0; 0; 0; 0]))) = [74; 0; 4; 0; 0; 0; 0; 0].
Proof. vm_compute. reflexivity. Qed.
(* gtpv2/messages/ies/ipaddress.rs, ip_address_ie_ipv6_unmarshal_test *)
Example ipaddress__ip_address_ie_ipv6_unmarshal_test : IpAddress_unmarshal Debug [74; 0; 16; 0; 0; 0; 0; 0; 0; 0; 0; 0; 0; 0; 0; 0; 0; 0; 0; 0] = Ok
  (mkIe 74 16 0 (IpV6 [0; 0; 0; 0; 0; 0; 0; 0; 0; 0; 0; 0; 0; 0; 0; 0])).
Proof. vm_compute. reflexivity. Qed.
Example ipaddress__ip_address_ie_ipv6_unmarshal_test_back : IpAddress_marshal ((mkIe 74 16 0 (IpV6 [0; 0; 0; 0; 0; 0; 0; 0; 0; 0; 0; 0; 0; 0; 0; 0])))
  = [74; 0; 16; 0; 0; 0; 0; 0; 0; 0; 0; 0; 0; 0; 0; 0; 0; 0; 0; 0].
Proof. vm_compute. reflexivity. Qed.
(* gtpv2/messages/ies/ldn.rs, ldn_ie_unmarshal_test *)
Example ldn__ldn_ie_unmarshal_test : Ldn_unmarshal Debug [151; 0; 52; 0; 116; 111; 112; 111; 110; 46; 110; 111; 100; 101; 115; 46; 112; 103; 119; 46;
  115; 101; 46; 101; 112; 99; 46; 109; 110; 99; 48; 53; 46; 109; 99; 99; 50; 51; 52; 46; 51; 103; 112; 112; 110; 101; 116; 119; 111; 114; 107; 46;
  111; 114; 103; 46] = Ok (mkIe 151 52 0 [116; 111; 112; 111; 110; 46; 110; 111; 100; 101; 115; 46; 112; 103; 119; 46; 115; 101; 46; 101; 112; 99; 46;
  109; 110; 99; 48; 53; 46; 109; 99; 99; 50; 51; 52; 46; 51; 103; 112; 112; 110; 101; 116; 119; 111; 114; 107; 46; 111; 114; 103; 46]).
Proof. vm_compute. reflexivity. Qed.
Example ldn__ldn_ie_unmarshal_test_back : Ldn_marshal ((mkIe 151 52 0 [116; 111; 112; 111; 110; 46; 110; 111; 100; 101; 115; 46; 112; 103; 119; 46;
  115; 101; 46; 101; 112; 99; 46; 109; 110; 99; 48; 53; 46; 109; 99; 99; 50; 51; 52; 46; 51; 103; 112; 112; 110; 101; 116; 119; 111; 114; 107; 46;
  111; 114; 103; 46])) = [151; 0; 52; 0; 116; 111; 112; 111; 110; 46; 110; 111; 100; 101; 115; 46; 112; 103; 119; 46; 115; 101; 46; 101; 112; 99; 46;
  109; 110; 99; 48; 53; 46; 109; 99; 99; 50; 51; 52; 46; 51; 103; 112; 112; 110; 101; 116; 119; 111; 114; 107; 46; 111; 114; 103; 46].
Proof. vm_compute. reflexivity. Qed.
(* gtpv2/messages/ies/loadcontrolinfo.rs, load_control_ie_unmarshal_test *)
Example loadcontrolinfo__load_control_ie_unmarshal_test : LoadControl_unmarshal (decoder Debug) Debug [181; 0; 31; 0; 183; 0; 4; 0; 255; 170; 238; 17;
  182; 0; 1; 0; 96; 184; 0; 14; 0; 100; 4; 116; 101; 115; 116; 3; 110; 101; 116; 3; 99; 111; 109] = Ok (mkIe 181 31 0 (mkLoadControl (mkIe 183 4 0
  4289392145) (mkIe 182 1 0 96) (Some [mkIe 184 14 0 (mkApnRelCap 100 [116; 101; 115; 116; 46; 110; 101; 116; 46; 99; 111; 109])]))).
Proof. vm_compute. reflexivity. Qed.
Example loadcontrolinfo__load_control_ie_unmarshal_test_back : LoadControl_marshal ((mkIe 181 31 0 (mkLoadControl (mkIe 183 4 0 4289392145) (mkIe 182
  1 0 96) (Some [mkIe 184 14 0 (mkApnRelCap 100 [116; 101; 115; 116; 46; 110; 101; 116; 46; 99; 111; 109])])))) = [181; 0; 31; 0; 183; 0; 4; 0; 255;
  170; 238; 17; 182; 0; 1; 0; 96; 184; 0; 14; 0; 100; 4; 116; 101; 115; 116; 3; 110; 101; 116; 3; 99; 111; 109].
Proof. vm_compute. reflexivity. Qed.
(* gtpv2/messages/ies/maxpacketlossrate.rs, max_packet_loss_rate_ie_unmarshal_test *)
Example maxpacketlossrate__max_packet_loss_rate_ie_unmarshal_test : MaxPacketLossRate_unmarshal Debug [203; 0; 5; 0; 3; 3; 232; 3; 231] = Ok (mkIe 203
  5 0 (mkMaxLoss (Some 1000) (Some 999))).
Proof. vm_compute. reflexivity. Qed.
Example maxpacketlossrate__max_packet_loss_rate_ie_unmarshal_test_back : MaxPacketLossRate_marshal ((mkIe 203 5 0 (mkMaxLoss (Some 1000) (Some 999))))
  = [203; 0; 5; 0; 3; 3; 232; 3; 231].
Proof. vm_compute. reflexivity. Qed.
(* gtpv2/messages/ies/mbmsdistributionack.rs, mbms_distrack_ie_unmarshal_test *)
Example mbmsdistributionack__mbms_distrack_ie_unmarshal_test : MbmsDistributionAck_unmarshal Debug [143; 0; 1; 0; 2] = Ok (mkIe 143 1 0 2).
Proof. vm_compute. reflexivity. Qed.
Example mbmsdistributionack__mbms_distrack_ie_unmarshal_test_back : MbmsDistributionAck_marshal ((mkIe 143 1 0 2)) = [143; 0; 1; 0; 2].
Proof. vm_compute. reflexivity. Qed.
(* gtpv2/messages/ies/mbmsflags.rs, mbms_flags_ie_unmarshal_test *)
Example mbmsflags__mbms_flags_ie_unmarshal_test : MbmsFlags_unmarshal Debug [171; 0; 1; 0; 1] = Ok (mkIe 171 1 0 (mkMbmsFlags true false)).
Proof. vm_compute. reflexivity. Qed.
Example mbmsflags__mbms_flags_ie_unmarshal_test_back : MbmsFlags_marshal ((mkIe 171 1 0 (mkMbmsFlags true false))) = [171; 0; 1; 0; 1].
Proof. vm_compute. reflexivity. Qed.
(* gtpv2/messages/ies/mbmsflowid.rs, mbms_flowid_ie_unmarshal_test *)
Example mbmsflowid__mbms_flowid_ie_unmarshal_test : MbmsFlowId_unmarshal Debug [141; 0; 2; 0; 255; 255] = Ok (mkIe 141 2 0 65535).
Proof. vm_compute. reflexivity. Qed.
Example mbmsflowid__mbms_flowid_ie_unmarshal_test_back : MbmsFlowId_marshal ((mkIe 141 2 0 65535)) = [141; 0; 2; 0; 255; 255].
Proof. vm_compute. reflexivity. Qed.
(* gtpv2/messages/ies/mbmsipmulticastdistribution.rs, mbmsipmulticastdistr_ie_unmarshal_test *)
Example mbmsipmulticastdistribution__mbmsipmulticastdistr_ie_unmarshal_test : MbmsIpMulticastDistribution_unmarshal Debug [142; 0; 27; 0; 0; 0; 255;
  255; 4; 10; 10; 10; 1; 80; 0; 253; 0; 0; 0; 0; 0; 0; 0; 0; 0; 0; 0; 0; 0; 255; 0] = Ok (mkIe 142 27 0 (mkMulticast 65535 (IpV4 [10; 10; 10; 1])
  (IpV6 [0; 253; 0; 0; 0; 0; 0; 0; 0; 0; 0; 0; 0; 0; 0; 255]) MbmsHc_UncompressedHeader)).
Proof. vm_compute. reflexivity. Qed.
Example mbmsipmulticastdistribution__mbmsipmulticastdistr_ie_unmarshal_test_back : MbmsIpMulticastDistribution_marshal ((mkIe 142 27 0 (mkMulticast
  65535 (IpV4 [10; 10; 10; 1]) (IpV6 [0; 253; 0; 0; 0; 0; 0; 0; 0; 0; 0; 0; 0; 0; 0; 255]) MbmsHc_UncompressedHeader))) = [142; 0; 27; 0; 0; 0; 255;
  255; 4; 10; 10; 10; 1; 80; 0; 253; 0; 0; 0; 0; 0; 0; 0; 0; 0; 0; 0; 0; 0; 255; 0].
Proof. vm_compute. reflexivity. Qed.
(* gtpv2/messages/ies/mbmssa.rs, mbmssa_ie_unmarshal_test *)
Example mbmssa__mbmssa_ie_unmarshal_test : MbmsServiceArea_unmarshal Debug [139; 0; 5; 0; 1; 0; 0; 255; 255] = Ok (mkIe 139 5 0 [0; 65535]).
Proof. vm_compute. reflexivity. Qed.
Example mbmssa__mbmssa_ie_unmarshal_test_back : MbmsServiceArea_marshal ((mkIe 139 5 0 [0; 65535])) = [139; 0; 5; 0; 1; 0; 0; 255; 255].
Proof. vm_compute. reflexivity. Qed.
(* gtpv2/messages/ies/mbmssa.rs, mbmssa_ie_wrong_msmssa_length *)
Example mbmssa__mbmssa_ie_wrong_msmssa_length : MbmsServiceArea_unmarshal Debug [139; 0; 3; 0; 0; 0] = Err (IEInvalidLength 139).
Proof. vm_compute. reflexivity. Qed.
(* gtpv2/messages/ies/mbmssd.rs, mbms_sd_ie_unmarshal_test *)
Example mbmssd__mbms_sd_ie_unmarshal_test : MbmsSessionDuration_unmarshal Debug [138; 0; 3; 0; 0; 200; 10] = Ok (mkIe 138 3 0 (mkMbmsSd 400 10)).
Proof. vm_compute. reflexivity. Qed.
Example mbmssd__mbms_sd_ie_unmarshal_test_back : MbmsSessionDuration_marshal ((mkIe 138 3 0 (mkMbmsSd 400 10))) = [138; 0; 3; 0; 0; 200; 10].
Proof. vm_compute. reflexivity. Qed.
(* gtpv2/messages/ies/mbmssessionid.rs, mbms_sessionid_ie_unmarshal_test *)
Example mbmssessionid__mbms_sessionid_ie_unmarshal_test : MbmsSessionId_unmarshal Debug [140; 0; 1; 0; 10] = Ok (mkIe 140 1 0 10).
Proof. vm_compute. reflexivity. Qed.
Example mbmssessionid__mbms_sessionid_ie_unmarshal_test_back : MbmsSessionId_marshal ((mkIe 140 1 0 10)) = [140; 0; 1; 0; 10].
Proof. vm_compute. reflexivity. Qed.
(* gtpv2/messages/ies/mbmstimetodatatransfer.rs, mbmstimetodatatransfer_ie_unmarshal_test *)
Example mbmstimetodatatransfer__mbmstimetodatatransfer_ie_unmarshal_test : MbmsTimeToDataTransfer_unmarshal Debug [153; 0; 1; 0; 255] = Ok (mkIe 153 1
  0 255).
Proof. vm_compute. reflexivity. Qed.
Example mbmstimetodatatransfer__mbmstimetodatatransfer_ie_unmarshal_test_back : MbmsTimeToDataTransfer_marshal ((mkIe 153 1 0 255)) = [153; 0; 1; 0;
  255].
Proof. vm_compute. reflexivity. Qed.
(* gtpv2/messages/ies/mdtconfiguration.rs, mtdconfig_ie_unmarshal_test *)
Example mdtconfiguration__mtdconfig_ie_unmarshal_test : MdtConfiguration_unmarshal Debug [162; 0; 32; 0; 0; 1; 2; 3; 4; 5; 6; 7; 8; 9; 4; 1; 2; 3; 4;
  15; 1; 2; 3; 4; 50; 244; 16; 34; 240; 80; 98; 245; 48; 49; 244; 96] = Ok (mkIe 162 32 0 (mkMdt MdtJobType_ImmediateMdtonly [1; 2; 3; 4] 5 6 7 8 9
  (Some [1; 2; 3; 4]) (Some 1) (Some 2) (Some 3) (Some [mkPlmn 234 1 false; mkPlmn 220 5 false; mkPlmn 265 3 false; mkPlmn 134 6 false]))).
Proof. vm_compute. reflexivity. Qed.
Example mdtconfiguration__mtdconfig_ie_unmarshal_test_back : MdtConfiguration_marshal ((mkIe 162 32 0 (mkMdt MdtJobType_ImmediateMdtonly [1; 2; 3; 4]
  5 6 7 8 9 (Some [1; 2; 3; 4]) (Some 1) (Some 2) (Some 3) (Some [mkPlmn 234 1 false; mkPlmn 220 5 false; mkPlmn 265 3 false; mkPlmn 134 6 false]))))
  = [162; 0; 32; 0; 0; 1; 2; 3; 4; 5; 6; 7; 8; 9; 4; 1; 2; 3; 4; 15; 1; 2; 3; 4; 50; 244; 16; 34; 240; 80; 98; 245; 48; 49; 244; 96].
Proof. vm_compute. reflexivity. Qed.
(* gtpv2/messages/ies/mei.rs, mei_ie_unmarshal_test *)
Example mei__mei_ie_unmarshal_test : Mei_unmarshal Debug [75; 0; 8; 0; 104; 103; 132; 64; 16; 35; 3; 48] = Ok (mkIe 75 8 0 [56; 54; 55; 54; 52; 56;
  48; 52; 48; 49; 51; 50; 51; 48; 48; 51]).
Proof. vm_compute. reflexivity. Qed.
Example mei__mei_ie_unmarshal_test_back : Mei_marshal ((mkIe 75 8 0 [56; 54; 55; 54; 52; 56; 48; 52; 48; 49; 51; 50; 51; 48; 48; 51])) = [75; 0; 8; 0;
  104; 103; 132; 64; 16; 35; 3; 48].
Proof. vm_compute. reflexivity. Qed.
(* gtpv2/messages/ies/metric.rs, metric_ie_unmarshal_test *)
Example metric__metric_ie_unmarshal_test : Metric_unmarshal Debug [182; 0; 1; 0; 96] = Ok (mkIe 182 1 0 96).
Proof. vm_compute. reflexivity. Qed.
Example metric__metric_ie_unmarshal_test_back : Metric_marshal ((mkIe 182 1 0 96)) = [182; 0; 1; 0; 96].
Proof. vm_compute. reflexivity. Qed.
(* gtpv2/messages/ies/millisecondtimestamp.rs, ms_timestamp_ie_unmarshal_test *)
Example millisecondtimestamp__ms_timestamp_ie_unmarshal_test : MilliSecondTimeStamp_unmarshal Debug [188; 0; 6; 0; 255; 255; 255; 255; 255; 255] = Ok
  (mkIe 188 6 0 281474976710655).
Proof. vm_compute. reflexivity. Qed.
Example millisecondtimestamp__ms_timestamp_ie_unmarshal_test_back : MilliSecondTimeStamp_marshal ((mkIe 188 6 0 281474976710655)) = [188; 0; 6; 0;
  255; 255; 255; 255; 255; 255].
Proof. vm_compute. reflexivity. Qed.
(* gtpv2/messages/ies/mmctxepssecurityctxquadruplets.rs, mmctxepssecctxq_ie_unmarshal_test *)
Example mmctxepssecurityctxquadruplets__mmctxepssecctxq_ie_unmarshal_test : MmContextEpsSecurityContextQuadruplets_unmarshal Debug [107; 1; 136; 0;
  152; 39; 129; 39; 0; 255; 255; 255; 255; 255; 255; 255; 255; 255; 255; 255; 255; 255; 255; 255; 255; 255; 255; 255; 255; 255; 255; 255; 255; 255;
  255; 255; 255; 255; 255; 255; 255; 255; 255; 255; 255; 1; 2; 3; 4; 5; 6; 7; 8; 9; 10; 11; 12; 13; 14; 15; 16; 3; 2; 7; 8; 3; 3; 9; 10; 11; 12; 13;
  14; 15; 0; 0; 0; 0; 0; 0; 0; 0; 0; 0; 0; 0; 0; 0; 0; 0; 0; 0; 0; 0; 0; 0; 0; 0; 0; 0; 0; 1; 2; 3; 4; 5; 6; 7; 8; 9; 10; 11; 12; 13; 14; 15; 16; 3;
  2; 7; 8; 1; 2; 3; 4; 5; 6; 7; 8; 9; 10; 11; 12; 13; 14; 15; 16; 1; 2; 3; 4; 5; 6; 7; 8; 9; 10; 11; 12; 13; 14; 15; 16; 3; 3; 9; 10; 1; 2; 170; 170;
  170; 170; 170; 170; 170; 170; 170; 170; 170; 170; 170; 170; 170; 170; 170; 170; 170; 170; 170; 170; 170; 170; 170; 170; 170; 170; 170; 170; 170;
  170; 5; 0; 0; 7; 208; 0; 0; 31; 64; 0; 0; 7; 208; 0; 0; 31; 64; 4; 1; 2; 3; 4; 4; 1; 2; 3; 4; 4; 1; 2; 3; 4; 0; 173; 255; 255; 255; 255; 255; 255;
  255; 255; 255; 255; 255; 255; 255; 255; 255; 255; 255; 255; 255; 255; 255; 255; 255; 255; 255; 255; 255; 255; 255; 255; 255; 255; 255; 255; 255;
  255; 255; 255; 255; 255; 255; 255; 255; 255; 255; 255; 255; 255; 255; 255; 255; 255; 255; 255; 255; 255; 255; 255; 255; 255; 255; 255; 255; 255; 4;
  1; 2; 3; 4; 4; 1; 2; 3; 4; 1; 3; 4; 1; 2; 3; 4; 4; 1; 2; 3; 4; 2; 0; 34; 0; 12; 116; 101; 115; 116; 46; 97; 112; 110; 46; 99; 111; 109; 18; 52; 86;
  120; 18; 52; 86; 120; 18; 52; 86; 120; 1; 2; 3; 4; 5; 6; 7; 8; 0; 35; 0; 13; 116; 101; 115; 116; 50; 46; 97; 112; 110; 46; 99; 111; 109; 18; 52; 86;
  120; 18; 52; 86; 120; 18; 52; 86; 120; 1; 2; 3; 4; 5; 6; 7; 8; 4; 1; 2; 3; 4; 4; 1; 2; 3; 4; 2] = Ok (mkIe 107 392 0 (mkMmEps
  SecurityMode_EpsSecurityContextAndQuadruplets 0 NasIntegrityProtectionValues_NoIntegrity NasCipherValues_Eea1 2556159 16777215 [255; 255; 255; 255;
  255; 255; 255; 255; 255; 255; 255; 255; 255; 255; 255; 255; 255; 255; 255; 255; 255; 255; 255; 255; 255; 255; 255; 255; 255; 255; 255; 255] (Some
  [mkQuad [1; 2; 3; 4; 5; 6; 7; 8; 9; 10; 11; 12; 13; 14; 15; 16] [2; 7; 8] [3; 9; 10] [11; 12; 13; 14; 15; 0; 0; 0; 0; 0; 0; 0; 0; 0; 0; 0; 0; 0; 0;
  0; 0; 0; 0; 0; 0; 0; 0; 0; 0; 0; 0; 0]]) (Some [mkQuint [1; 2; 3; 4; 5; 6; 7; 8; 9; 10; 11; 12; 13; 14; 15; 16] [2; 7; 8] [1; 2; 3; 4; 5; 6; 7; 8;
  9; 10; 11; 12; 13; 14; 15; 16] [1; 2; 3; 4; 5; 6; 7; 8; 9; 10; 11; 12; 13; 14; 15; 16] [3; 9; 10]]) (Some [1; 2]) (Some [170; 170; 170; 170; 170;
  170; 170; 170; 170; 170; 170; 170; 170; 170; 170; 170; 170; 170; 170; 170; 170; 170; 170; 170; 170; 170; 170; 170; 170; 170; 170; 170]) (Some 5)
  (Some (mkAmbrMm 2000 8000)) (Some (mkAmbrMm 2000 8000)) (Some [1; 2; 3; 4]) (Some [1; 2; 3; 4]) (Some [1; 2; 3; 4]) (mkAccessRestriction false false
  false false false false false false) (Some (mkOldEps 5 (Some 5) [255; 255; 255; 255; 255; 255; 255; 255; 255; 255; 255; 255; 255; 255; 255; 255;
  255; 255; 255; 255; 255; 255; 255; 255; 255; 255; 255; 255; 255; 255; 255; 255] (Some [255; 255; 255; 255; 255; 255; 255; 255; 255; 255; 255; 255;
  255; 255; 255; 255; 255; 255; 255; 255; 255; 255; 255; 255; 255; 255; 255; 255; 255; 255; 255; 255]))) (Some [1; 2; 3; 4]) (Some [1; 2; 3; 4]) (Some
  (mkExtAccessRestriction false false false true true)) (Some [1; 2; 3; 4]) (Some [1; 2; 3; 4]) (Some [mkApnRateMm [116; 101; 115; 116; 46; 97; 112;
  110; 46; 99; 111; 109] 305419896 305419896 305419896 [1; 2; 3; 4; 5; 6; 7; 8]; mkApnRateMm [116; 101; 115; 116; 50; 46; 97; 112; 110; 46; 99; 111;
  109] 305419896 305419896 305419896 [1; 2; 3; 4; 5; 6; 7; 8]]) (Some [1; 2; 3; 4]) (Some [1; 2; 3; 4]) (Some 2))).
Proof. vm_compute. reflexivity. Qed.
Example mmctxepssecurityctxquadruplets__mmctxepssecctxq_ie_unmarshal_test_back : MmContextEpsSecurityContextQuadruplets_marshal ((mkIe 107 392 0
  (mkMmEps SecurityMode_EpsSecurityContextAndQuadruplets 0 NasIntegrityProtectionValues_NoIntegrity NasCipherValues_Eea1 2556159 16777215 [255; 255;
  255; 255; 255; 255; 255; 255; 255; 255; 255; 255; 255; 255; 255; 255; 255; 255; 255; 255; 255; 255; 255; 255; 255; 255; 255; 255; 255; 255; 255;
  255] (Some [mkQuad [1; 2; 3; 4; 5; 6; 7; 8; 9; 10; 11; 12; 13; 14; 15; 16] [2; 7; 8] [3; 9; 10] [11; 12; 13; 14; 15; 0; 0; 0; 0; 0; 0; 0; 0; 0; 0;
  0; 0; 0; 0; 0; 0; 0; 0; 0; 0; 0; 0; 0; 0; 0; 0; 0]]) (Some [mkQuint [1; 2; 3; 4; 5; 6; 7; 8; 9; 10; 11; 12; 13; 14; 15; 16] [2; 7; 8] [1; 2; 3; 4;
  5; 6; 7; 8; 9; 10; 11; 12; 13; 14; 15; 16] [1; 2; 3; 4; 5; 6; 7; 8; 9; 10; 11; 12; 13; 14; 15; 16] [3; 9; 10]]) (Some [1; 2]) (Some [170; 170; 170;
  170; 170; 170; 170; 170; 170; 170; 170; 170; 170; 170; 170; 170; 170; 170; 170; 170; 170; 170; 170; 170; 170; 170; 170; 170; 170; 170; 170; 170])
  (Some 5) (Some (mkAmbrMm 2000 8000)) (Some (mkAmbrMm 2000 8000)) (Some [1; 2; 3; 4]) (Some [1; 2; 3; 4]) (Some [1; 2; 3; 4]) (mkAccessRestriction
  false false false false false false false false) (Some (mkOldEps 5 (Some 5) [255; 255; 255; 255; 255; 255; 255; 255; 255; 255; 255; 255; 255; 255;
  255; 255; 255; 255; 255; 255; 255; 255; 255; 255; 255; 255; 255; 255; 255; 255; 255; 255] (Some [255; 255; 255; 255; 255; 255; 255; 255; 255; 255;
  255; 255; 255; 255; 255; 255; 255; 255; 255; 255; 255; 255; 255; 255; 255; 255; 255; 255; 255; 255; 255; 255]))) (Some [1; 2; 3; 4]) (Some [1; 2; 3;
  4]) (Some (mkExtAccessRestriction false false false true true)) (Some [1; 2; 3; 4]) (Some [1; 2; 3; 4]) (Some [mkApnRateMm [116; 101; 115; 116; 46;
  97; 112; 110; 46; 99; 111; 109] 305419896 305419896 305419896 [1; 2; 3; 4; 5; 6; 7; 8]; mkApnRateMm [116; 101; 115; 116; 50; 46; 97; 112; 110; 46;
  99; 111; 109] 305419896 305419896 305419896 [1; 2; 3; 4; 5; 6; 7; 8]]) (Some [1; 2; 3; 4]) (Some [1; 2; 3; 4]) (Some 2)))) = [107; 1; 136; 0; 152;
  39; 129; 39; 0; 255; 255; 255; 255; 255; 255; 255; 255; 255; 255; 255; 255; 255; 255; 255; 255; 255; 255; 255; 255; 255; 255; 255; 255; 255; 255;
  255; 255; 255; 255; 255; 255; 255; 255; 255; 255; 1; 2; 3; 4; 5; 6; 7; 8; 9; 10; 11; 12; 13; 14; 15; 16; 3; 2; 7; 8; 3; 3; 9; 10; 11; 12; 13; 14;
  15; 0; 0; 0; 0; 0; 0; 0; 0; 0; 0; 0; 0; 0; 0; 0; 0; 0; 0; 0; 0; 0; 0; 0; 0; 0; 0; 0; 1; 2; 3; 4; 5; 6; 7; 8; 9; 10; 11; 12; 13; 14; 15; 16; 3; 2; 7;
  8; 1; 2; 3; 4; 5; 6; 7; 8; 9; 10; 11; 12; 13; 14; 15; 16; 1; 2; 3; 4; 5; 6; 7; 8; 9; 10; 11; 12; 13; 14; 15; 16; 3; 3; 9; 10; 1; 2; 170; 170; 170;
  170; 170; 170; 170; 170; 170; 170; 170; 170; 170; 170; 170; 170; 170; 170; 170; 170; 170; 170; 170; 170; 170; 170; 170; 170; 170; 170; 170; 170; 5;
  0; 0; 7; 208; 0; 0; 31; 64; 0; 0; 7; 208; 0; 0; 31; 64; 4; 1; 2; 3; 4; 4; 1; 2; 3; 4; 4; 1; 2; 3; 4; 0; 173; 255; 255; 255; 255; 255; 255; 255; 255;
  255; 255; 255; 255; 255; 255; 255; 255; 255; 255; 255; 255; 255; 255; 255; 255; 255; 255; 255; 255; 255; 255; 255; 255; 255; 255; 255; 255; 255;
  255; 255; 255; 255; 255; 255; 255; 255; 255; 255; 255; 255; 255; 255; 255; 255; 255; 255; 255; 255; 255; 255; 255; 255; 255; 255; 255; 4; 1; 2; 3;
  4; 4; 1; 2; 3; 4; 1; 3; 4; 1; 2; 3; 4; 4; 1; 2; 3; 4; 2; 0; 34; 0; 12; 116; 101; 115; 116; 46; 97; 112; 110; 46; 99; 111; 109; 18; 52; 86; 120; 18;
  52; 86; 120; 18; 52; 86; 120; 1; 2; 3; 4; 5; 6; 7; 8; 0; 35; 0; 13; 116; 101; 115; 116; 50; 46; 97; 112; 110; 46; 99; 111; 109; 18; 52; 86; 120; 18;
  52; 86; 120; 18; 52; 86; 120; 1; 2; 3; 4; 5; 6; 7; 8; 4; 1; 2; 3; 4; 4; 1; 2; 3; 4; 2].
Proof. vm_compute. reflexivity. Qed.
(* gtpv2/messages/ies/mmctxgsmkeycipherquintuplets.rs, mmctxgsmkcq_ie_unmarshal_test *)
Example mmctxgsmkeycipherquintuplets__mmctxgsmkcq_ie_unmarshal_test : MmContextGsmKeyCipherQuintuplets_unmarshal Debug [105; 0; 108; 0; 72; 35; 0;
  255; 255; 255; 255; 255; 255; 255; 255; 1; 2; 3; 4; 5; 6; 7; 8; 9; 10; 11; 12; 13; 14; 15; 16; 3; 2; 7; 8; 1; 2; 3; 4; 5; 6; 7; 8; 9; 10; 11; 12;
  13; 14; 15; 16; 1; 2; 3; 4; 5; 6; 7; 8; 9; 10; 11; 12; 13; 14; 15; 16; 3; 3; 9; 10; 1; 2; 0; 0; 7; 208; 0; 0; 31; 64; 0; 0; 7; 208; 0; 0; 31; 64; 4;
  1; 2; 3; 4; 4; 1; 2; 3; 4; 4; 1; 2; 3; 4; 0; 4; 1; 2; 3; 4; 1; 1] = Ok (mkIe 105 108 0 (mkMmGsmCq SecurityMode_GsmKeyUsedCipherAndQuintuplets 0
  CipherValues_NoCipher 18446744073709551615 (Some [mkQuint [1; 2; 3; 4; 5; 6; 7; 8; 9; 10; 11; 12; 13; 14; 15; 16] [2; 7; 8] [1; 2; 3; 4; 5; 6; 7; 8;
  9; 10; 11; 12; 13; 14; 15; 16] [1; 2; 3; 4; 5; 6; 7; 8; 9; 10; 11; 12; 13; 14; 15; 16] [3; 9; 10]]) (Some [1; 2]) (Some (mkAmbrMm 2000 8000)) (Some
  (mkAmbrMm 2000 8000)) (Some [1; 2; 3; 4]) (Some [1; 2; 3; 4]) (Some [1; 2; 3; 4]) (mkAccessRestriction false false false false false false false
  false) (Some [1; 2; 3; 4]) true)).
Proof. vm_compute. reflexivity. Qed.
Example mmctxgsmkeycipherquintuplets__mmctxgsmkcq_ie_unmarshal_test_back : MmContextGsmKeyCipherQuintuplets_marshal ((mkIe 105 108 0 (mkMmGsmCq
  SecurityMode_GsmKeyUsedCipherAndQuintuplets 0 CipherValues_NoCipher 18446744073709551615 (Some [mkQuint [1; 2; 3; 4; 5; 6; 7; 8; 9; 10; 11; 12; 13;
  14; 15; 16] [2; 7; 8] [1; 2; 3; 4; 5; 6; 7; 8; 9; 10; 11; 12; 13; 14; 15; 16] [1; 2; 3; 4; 5; 6; 7; 8; 9; 10; 11; 12; 13; 14; 15; 16] [3; 9; 10]])
  (Some [1; 2]) (Some (mkAmbrMm 2000 8000)) (Some (mkAmbrMm 2000 8000)) (Some [1; 2; 3; 4]) (Some [1; 2; 3; 4]) (Some [1; 2; 3; 4])
  (mkAccessRestriction false false false false false false false false) (Some [1; 2; 3; 4]) true))) = [105; 0; 108; 0; 72; 35; 0; 255; 255; 255; 255;
  255; 255; 255; 255; 1; 2; 3; 4; 5; 6; 7; 8; 9; 10; 11; 12; 13; 14; 15; 16; 3; 2; 7; 8; 1; 2; 3; 4; 5; 6; 7; 8; 9; 10; 11; 12; 13; 14; 15; 16; 1; 2;
  3; 4; 5; 6; 7; 8; 9; 10; 11; 12; 13; 14; 15; 16; 3; 3; 9; 10; 1; 2; 0; 0; 7; 208; 0; 0; 31; 64; 0; 0; 7; 208; 0; 0; 31; 64; 4; 1; 2; 3; 4; 4; 1; 2;
  3; 4; 4; 1; 2; 3; 4; 0; 4; 1; 2; 3; 4; 1; 1].
Proof. vm_compute. reflexivity. Qed.
(* gtpv2/messages/ies/mmctxgsmkeytriplets.rs, mmctxgsmkt_ie_unmarshal_test *)
Example mmctxgsmkeytriplets__mmctxgsmkt_ie_unmarshal_test : MmContextGsmKeyTriplets_unmarshal Debug [103; 0; 78; 0; 8; 35; 0; 255; 255; 255; 255; 255;
  255; 255; 255; 1; 2; 3; 4; 5; 6; 7; 8; 9; 10; 11; 12; 13; 14; 15; 16; 17; 18; 19; 20; 21; 22; 23; 24; 25; 26; 27; 28; 1; 2; 0; 0; 7; 208; 0; 0; 31;
  64; 0; 0; 7; 208; 0; 0; 31; 64; 4; 1; 2; 3; 4; 4; 1; 2; 3; 4; 4; 1; 2; 3; 4; 0; 4; 1; 2; 3; 4] = Ok (mkIe 103 78 0 (mkMmGsmT
  SecurityMode_GsmKeyAndTriplets 0 CipherValues_NoCipher 18446744073709551615 (Some [mkTriplet [1; 2; 3; 4; 5; 6; 7; 8; 9; 10; 11; 12; 13; 14; 15; 16]
  [17; 18; 19; 20] [21; 22; 23; 24; 25; 26; 27; 28]]) (Some [1; 2]) (Some (mkAmbrMm 2000 8000)) (Some (mkAmbrMm 2000 8000)) (Some [1; 2; 3; 4]) (Some
  [1; 2; 3; 4]) (Some [1; 2; 3; 4]) (mkAccessRestriction false false false false false false false false) (Some [1; 2; 3; 4]))).
Proof. vm_compute. reflexivity. Qed.
Example mmctxgsmkeytriplets__mmctxgsmkt_ie_unmarshal_test_back : MmContextGsmKeyTriplets_marshal ((mkIe 103 78 0 (mkMmGsmT
  SecurityMode_GsmKeyAndTriplets 0 CipherValues_NoCipher 18446744073709551615 (Some [mkTriplet [1; 2; 3; 4; 5; 6; 7; 8; 9; 10; 11; 12; 13; 14; 15; 16]
  [17; 18; 19; 20] [21; 22; 23; 24; 25; 26; 27; 28]]) (Some [1; 2]) (Some (mkAmbrMm 2000 8000)) (Some (mkAmbrMm 2000 8000)) (Some [1; 2; 3; 4]) (Some
  [1; 2; 3; 4]) (Some [1; 2; 3; 4]) (mkAccessRestriction false false false false false false false false) (Some [1; 2; 3; 4])))) = [103; 0; 78; 0; 8;
  35; 0; 255; 255; 255; 255; 255; 255; 255; 255; 1; 2; 3; 4; 5; 6; 7; 8; 9; 10; 11; 12; 13; 14; 15; 16; 17; 18; 19; 20; 21; 22; 23; 24; 25; 26; 27;
  28; 1; 2; 0; 0; 7; 208; 0; 0; 31; 64; 0; 0; 7; 208; 0; 0; 31; 64; 4; 1; 2; 3; 4; 4; 1; 2; 3; 4; 4; 1; 2; 3; 4; 0; 4; 1; 2; 3; 4].
Proof. vm_compute. reflexivity. Qed.
(* gtpv2/messages/ies/mmctxumtskeycipherquintuplets.rs, mmctxumtskcq_ie_unmarshal_test *)
Example mmctxumtskeycipherquintuplets__mmctxumtskcq_ie_unmarshal_test : MmContextUmtsKeyCipherQuintuplets_unmarshal Debug [104; 0; 133; 0; 40; 55; 0;
  255; 255; 255; 255; 255; 255; 255; 255; 255; 255; 255; 255; 255; 255; 255; 255; 255; 255; 255; 255; 255; 255; 255; 255; 255; 255; 255; 255; 255;
  255; 255; 255; 1; 2; 3; 4; 5; 6; 7; 8; 9; 10; 11; 12; 13; 14; 15; 16; 3; 2; 7; 8; 1; 2; 3; 4; 5; 6; 7; 8; 9; 10; 11; 12; 13; 14; 15; 16; 1; 2; 3; 4;
  5; 6; 7; 8; 9; 10; 11; 12; 13; 14; 15; 16; 3; 3; 9; 10; 1; 2; 0; 0; 7; 208; 0; 0; 31; 64; 0; 0; 7; 208; 0; 0; 31; 64; 4; 1; 2; 3; 4; 4; 1; 2; 3; 4;
  4; 1; 2; 3; 4; 0; 4; 1; 2; 3; 4; 1; 1; 255] = Ok (mkIe 104 133 0 (mkMmUmtsCq SecurityMode_UmtsKeyUsedCipherAndQuintuplets 0 CipherValues_NoCipher
  (Some GprsIntegrityProtectionValues_NoIntegrity) false [255; 255; 255; 255; 255; 255; 255; 255; 255; 255; 255; 255; 255; 255; 255; 255] [255; 255;
  255; 255; 255; 255; 255; 255; 255; 255; 255; 255; 255; 255; 255; 255] (Some [mkQuint [1; 2; 3; 4; 5; 6; 7; 8; 9; 10; 11; 12; 13; 14; 15; 16] [2; 7;
  8] [1; 2; 3; 4; 5; 6; 7; 8; 9; 10; 11; 12; 13; 14; 15; 16] [1; 2; 3; 4; 5; 6; 7; 8; 9; 10; 11; 12; 13; 14; 15; 16] [3; 9; 10]]) (Some [1; 2]) (Some
  (mkAmbrMm 2000 8000)) (Some (mkAmbrMm 2000 8000)) (Some [1; 2; 3; 4]) (Some [1; 2; 3; 4]) (Some [1; 2; 3; 4]) (mkAccessRestriction false false false
  false false false false false) (Some [1; 2; 3; 4]) true (Some 255))).
Proof. vm_compute. reflexivity. Qed.
Example mmctxumtskeycipherquintuplets__mmctxumtskcq_ie_unmarshal_test_back : MmContextUmtsKeyCipherQuintuplets_marshal ((mkIe 104 133 0 (mkMmUmtsCq
  SecurityMode_UmtsKeyUsedCipherAndQuintuplets 0 CipherValues_NoCipher (Some GprsIntegrityProtectionValues_NoIntegrity) false [255; 255; 255; 255;
  255; 255; 255; 255; 255; 255; 255; 255; 255; 255; 255; 255] [255; 255; 255; 255; 255; 255; 255; 255; 255; 255; 255; 255; 255; 255; 255; 255] (Some
  [mkQuint [1; 2; 3; 4; 5; 6; 7; 8; 9; 10; 11; 12; 13; 14; 15; 16] [2; 7; 8] [1; 2; 3; 4; 5; 6; 7; 8; 9; 10; 11; 12; 13; 14; 15; 16] [1; 2; 3; 4; 5;
  6; 7; 8; 9; 10; 11; 12; 13; 14; 15; 16] [3; 9; 10]]) (Some [1; 2]) (Some (mkAmbrMm 2000 8000)) (Some (mkAmbrMm 2000 8000)) (Some [1; 2; 3; 4]) (Some
  [1; 2; 3; 4]) (Some [1; 2; 3; 4]) (mkAccessRestriction false false false false false false false false) (Some [1; 2; 3; 4]) true (Some 255)))) =
  [104; 0; 133; 0; 40; 55; 0; 255; 255; 255; 255; 255; 255; 255; 255; 255; 255; 255; 255; 255; 255; 255; 255; 255; 255; 255; 255; 255; 255; 255; 255;
  255; 255; 255; 255; 255; 255; 255; 255; 1; 2; 3; 4; 5; 6; 7; 8; 9; 10; 11; 12; 13; 14; 15; 16; 3; 2; 7; 8; 1; 2; 3; 4; 5; 6; 7; 8; 9; 10; 11; 12;
  13; 14; 15; 16; 1; 2; 3; 4; 5; 6; 7; 8; 9; 10; 11; 12; 13; 14; 15; 16; 3; 3; 9; 10; 1; 2; 0; 0; 7; 208; 0; 0; 31; 64; 0; 0; 7; 208; 0; 0; 31; 64; 4;
  1; 2; 3; 4; 4; 1; 2; 3; 4; 4; 1; 2; 3; 4; 0; 4; 1; 2; 3; 4; 1; 1; 255].
Proof. vm_compute. reflexivity. Qed.
(* gtpv2/messages/ies/mmctxumtskeyquadrupletsquintuplets.rs, mmctxumtskqq_ie_unmarshal_test *)
Example mmctxumtskeyquadrupletsquintuplets__mmctxumtskqq_ie_unmarshal_test : MmContextUmtsKeyQuadrupletsQuintuplets_unmarshal Debug [108; 1; 4; 0;
  168; 39; 0; 255; 255; 255; 255; 255; 255; 255; 255; 255; 255; 255; 255; 255; 255; 255; 255; 255; 255; 255; 255; 255; 255; 255; 255; 255; 255; 255;
  255; 255; 255; 255; 255; 1; 2; 3; 4; 5; 6; 7; 8; 9; 10; 11; 12; 13; 14; 15; 16; 3; 2; 7; 8; 3; 3; 9; 10; 11; 12; 13; 14; 15; 0; 0; 0; 0; 0; 0; 0; 0;
  0; 0; 0; 0; 0; 0; 0; 0; 0; 0; 0; 0; 0; 0; 0; 0; 0; 0; 0; 1; 2; 3; 4; 5; 6; 7; 8; 9; 10; 11; 12; 13; 14; 15; 16; 3; 2; 7; 8; 1; 2; 3; 4; 5; 6; 7; 8;
  9; 10; 11; 12; 13; 14; 15; 16; 1; 2; 3; 4; 5; 6; 7; 8; 9; 10; 11; 12; 13; 14; 15; 16; 3; 3; 9; 10; 1; 2; 0; 0; 7; 208; 0; 0; 31; 64; 0; 0; 7; 208;
  0; 0; 31; 64; 4; 1; 2; 3; 4; 4; 1; 2; 3; 4; 4; 1; 2; 3; 4; 0; 4; 1; 2; 3; 4; 2; 0; 34; 0; 12; 116; 101; 115; 116; 46; 97; 112; 110; 46; 99; 111;
  109; 18; 52; 86; 120; 18; 52; 86; 120; 18; 52; 86; 120; 1; 2; 3; 4; 5; 6; 7; 8; 0; 35; 0; 13; 116; 101; 115; 116; 50; 46; 97; 112; 110; 46; 99; 111;
  109; 18; 52; 86; 120; 18; 52; 86; 120; 18; 52; 86; 120; 1; 2; 3; 4; 5; 6; 7; 8] = Ok (mkIe 108 260 0 (mkMmUmtsQq
  SecurityMode_UmtsKeyQuadrupletsAndQuintuplets 0 [255; 255; 255; 255; 255; 255; 255; 255; 255; 255; 255; 255; 255; 255; 255; 255] [255; 255; 255;
  255; 255; 255; 255; 255; 255; 255; 255; 255; 255; 255; 255; 255] (Some [mkQuad [1; 2; 3; 4; 5; 6; 7; 8; 9; 10; 11; 12; 13; 14; 15; 16] [2; 7; 8] [3;
  9; 10] [11; 12; 13; 14; 15; 0; 0; 0; 0; 0; 0; 0; 0; 0; 0; 0; 0; 0; 0; 0; 0; 0; 0; 0; 0; 0; 0; 0; 0; 0; 0; 0]]) (Some [mkQuint [1; 2; 3; 4; 5; 6; 7;
  8; 9; 10; 11; 12; 13; 14; 15; 16] [2; 7; 8] [1; 2; 3; 4; 5; 6; 7; 8; 9; 10; 11; 12; 13; 14; 15; 16] [1; 2; 3; 4; 5; 6; 7; 8; 9; 10; 11; 12; 13; 14;
  15; 16] [3; 9; 10]]) (Some [1; 2]) (Some (mkAmbrMm 2000 8000)) (Some (mkAmbrMm 2000 8000)) (Some [1; 2; 3; 4]) (Some [1; 2; 3; 4]) (Some [1; 2; 3;
  4]) (mkAccessRestriction false false false false false false false false) (Some [1; 2; 3; 4]) (Some [mkApnRateMm [116; 101; 115; 116; 46; 97; 112;
  110; 46; 99; 111; 109] 305419896 305419896 305419896 [1; 2; 3; 4; 5; 6; 7; 8]; mkApnRateMm [116; 101; 115; 116; 50; 46; 97; 112; 110; 46; 99; 111;
  109] 305419896 305419896 305419896 [1; 2; 3; 4; 5; 6; 7; 8]]))).
Proof. vm_compute. reflexivity. Qed.
Example mmctxumtskeyquadrupletsquintuplets__mmctxumtskqq_ie_unmarshal_test_back : MmContextUmtsKeyQuadrupletsQuintuplets_marshal ((mkIe 108 260 0
  (mkMmUmtsQq SecurityMode_UmtsKeyQuadrupletsAndQuintuplets 0 [255; 255; 255; 255; 255; 255; 255; 255; 255; 255; 255; 255; 255; 255; 255; 255] [255;
  255; 255; 255; 255; 255; 255; 255; 255; 255; 255; 255; 255; 255; 255; 255] (Some [mkQuad [1; 2; 3; 4; 5; 6; 7; 8; 9; 10; 11; 12; 13; 14; 15; 16] [2;
  7; 8] [3; 9; 10] [11; 12; 13; 14; 15; 0; 0; 0; 0; 0; 0; 0; 0; 0; 0; 0; 0; 0; 0; 0; 0; 0; 0; 0; 0; 0; 0; 0; 0; 0; 0; 0]]) (Some [mkQuint [1; 2; 3; 4;
  5; 6; 7; 8; 9; 10; 11; 12; 13; 14; 15; 16] [2; 7; 8] [1; 2; 3; 4; 5; 6; 7; 8; 9; 10; 11; 12; 13; 14; 15; 16] [1; 2; 3; 4; 5; 6; 7; 8; 9; 10; 11; 12;
  13; 14; 15; 16] [3; 9; 10]]) (Some [1; 2]) (Some (mkAmbrMm 2000 8000)) (Some (mkAmbrMm 2000 8000)) (Some [1; 2; 3; 4]) (Some [1; 2; 3; 4]) (Some [1;
  2; 3; 4]) (mkAccessRestriction false false false false false false false false) (Some [1; 2; 3; 4]) (Some [mkApnRateMm [116; 101; 115; 116; 46; 97;
  112; 110; 46; 99; 111; 109] 305419896 305419896 305419896 [1; 2; 3; 4; 5; 6; 7; 8]; mkApnRateMm [116; 101; 115; 116; 50; 46; 97; 112; 110; 46; 99;
  111; 109] 305419896 305419896 305419896 [1; 2; 3; 4; 5; 6; 7; 8]])))) = [108; 1; 4; 0; 168; 39; 0; 255; 255; 255; 255; 255; 255; 255; 255; 255; 255;
  255; 255; 255; 255; 255; 255; 255; 255; 255; 255; 255; 255; 255; 255; 255; 255; 255; 255; 255; 255; 255; 255; 1; 2; 3; 4; 5; 6; 7; 8; 9; 10; 11; 12;
  13; 14; 15; 16; 3; 2; 7; 8; 3; 3; 9; 10; 11; 12; 13; 14; 15; 0; 0; 0; 0; 0; 0; 0; 0; 0; 0; 0; 0; 0; 0; 0; 0; 0; 0; 0; 0; 0; 0; 0; 0; 0; 0; 0; 1; 2;
  3; 4; 5; 6; 7; 8; 9; 10; 11; 12; 13; 14; 15; 16; 3; 2; 7; 8; 1; 2; 3; 4; 5; 6; 7; 8; 9; 10; 11; 12; 13; 14; 15; 16; 1; 2; 3; 4; 5; 6; 7; 8; 9; 10;
  11; 12; 13; 14; 15; 16; 3; 3; 9; 10; 1; 2; 0; 0; 7; 208; 0; 0; 31; 64; 0; 0; 7; 208; 0; 0; 31; 64; 4; 1; 2; 3; 4; 4; 1; 2; 3; 4; 4; 1; 2; 3; 4; 0;
  4; 1; 2; 3; 4; 2; 0; 34; 0; 12; 116; 101; 115; 116; 46; 97; 112; 110; 46; 99; 111; 109; 18; 52; 86; 120; 18; 52; 86; 120; 18; 52; 86; 120; 1; 2; 3;
  4; 5; 6; 7; 8; 0; 35; 0; 13; 116; 101; 115; 116; 50; 46; 97; 112; 110; 46; 99; 111; 109; 18; 52; 86; 120; 18; 52; 86; 120; 18; 52; 86; 120; 1; 2; 3;
  4; 5; 6; 7; 8].
Proof. vm_compute. reflexivity. Qed.
(* gtpv2/messages/ies/mmctxumtskeyquintuplets.rs, mmctxumtskq_ie_unmarshal_test *)
Example mmctxumtskeyquintuplets__mmctxumtskq_ie_unmarshal_test : MmContextUmtsKeyQuintuplets_unmarshal Debug [106; 0; 135; 0; 104; 55; 0; 255; 255;
  255; 255; 255; 255; 255; 255; 255; 255; 255; 255; 255; 255; 255; 255; 255; 255; 255; 255; 255; 255; 255; 255; 255; 255; 255; 255; 255; 255; 255;
  255; 1; 2; 3; 4; 5; 6; 7; 8; 9; 10; 11; 12; 13; 14; 15; 16; 3; 2; 7; 8; 1; 2; 3; 4; 5; 6; 7; 8; 9; 10; 11; 12; 13; 14; 15; 16; 1; 2; 3; 4; 5; 6; 7;
  8; 9; 10; 11; 12; 13; 14; 15; 16; 3; 3; 9; 10; 1; 2; 0; 0; 7; 208; 0; 0; 31; 64; 0; 0; 7; 208; 0; 0; 31; 64; 4; 1; 2; 3; 4; 4; 1; 2; 3; 4; 4; 1; 2;
  3; 4; 0; 4; 1; 2; 3; 4; 1; 1; 255; 1; 1] = Ok (mkIe 106 135 0 (mkMmUmtsQ SecurityMode_UmtsKeyAndQuintuplets 0 CipherValues_NoCipher (Some
  GprsIntegrityProtectionValues_NoIntegrity) false [255; 255; 255; 255; 255; 255; 255; 255; 255; 255; 255; 255; 255; 255; 255; 255] [255; 255; 255;
  255; 255; 255; 255; 255; 255; 255; 255; 255; 255; 255; 255; 255] (Some [mkQuint [1; 2; 3; 4; 5; 6; 7; 8; 9; 10; 11; 12; 13; 14; 15; 16] [2; 7; 8]
  [1; 2; 3; 4; 5; 6; 7; 8; 9; 10; 11; 12; 13; 14; 15; 16] [1; 2; 3; 4; 5; 6; 7; 8; 9; 10; 11; 12; 13; 14; 15; 16] [3; 9; 10]]) (Some [1; 2]) (Some
  (mkAmbrMm 2000 8000)) (Some (mkAmbrMm 2000 8000)) (Some [1; 2; 3; 4]) (Some [1; 2; 3; 4]) (Some [1; 2; 3; 4]) (mkAccessRestriction false false false
  false false false false false) (Some [1; 2; 3; 4]) true (Some 255) (Some (mkExtAccessRestriction false false false false true)))).
Proof. vm_compute. reflexivity. Qed.
Example mmctxumtskeyquintuplets__mmctxumtskq_ie_unmarshal_test_back : MmContextUmtsKeyQuintuplets_marshal ((mkIe 106 135 0 (mkMmUmtsQ
  SecurityMode_UmtsKeyAndQuintuplets 0 CipherValues_NoCipher (Some GprsIntegrityProtectionValues_NoIntegrity) false [255; 255; 255; 255; 255; 255;
  255; 255; 255; 255; 255; 255; 255; 255; 255; 255] [255; 255; 255; 255; 255; 255; 255; 255; 255; 255; 255; 255; 255; 255; 255; 255] (Some [mkQuint
  [1; 2; 3; 4; 5; 6; 7; 8; 9; 10; 11; 12; 13; 14; 15; 16] [2; 7; 8] [1; 2; 3; 4; 5; 6; 7; 8; 9; 10; 11; 12; 13; 14; 15; 16] [1; 2; 3; 4; 5; 6; 7; 8;
  9; 10; 11; 12; 13; 14; 15; 16] [3; 9; 10]]) (Some [1; 2]) (Some (mkAmbrMm 2000 8000)) (Some (mkAmbrMm 2000 8000)) (Some [1; 2; 3; 4]) (Some [1; 2;
  3; 4]) (Some [1; 2; 3; 4]) (mkAccessRestriction false false false false false false false false) (Some [1; 2; 3; 4]) true (Some 255) (Some
  (mkExtAccessRestriction false false false false true))))) = [106; 0; 135; 0; 104; 55; 0; 255; 255; 255; 255; 255; 255; 255; 255; 255; 255; 255; 255;
  255; 255; 255; 255; 255; 255; 255; 255; 255; 255; 255; 255; 255; 255; 255; 255; 255; 255; 255; 255; 1; 2; 3; 4; 5; 6; 7; 8; 9; 10; 11; 12; 13; 14;
  15; 16; 3; 2; 7; 8; 1; 2; 3; 4; 5; 6; 7; 8; 9; 10; 11; 12; 13; 14; 15; 16; 1; 2; 3; 4; 5; 6; 7; 8; 9; 10; 11; 12; 13; 14; 15; 16; 3; 3; 9; 10; 1; 2;
  0; 0; 7; 208; 0; 0; 31; 64; 0; 0; 7; 208; 0; 0; 31; 64; 4; 1; 2; 3; 4; 4; 1; 2; 3; 4; 4; 1; 2; 3; 4; 0; 4; 1; 2; 3; 4; 1; 1; 255; 1; 1].
Proof. vm_compute. reflexivity. Qed.
(* gtpv2/messages/ies/monitoringeventextinfo.rs, monitoringeventextinfo_ie_unmarshal_test *)
Example monitoringeventextinfo__monitoringeventextinfo_ie_unmarshal_test : MonitoringEventExtensionInfo_unmarshal Debug [206; 0; 28; 0; 3; 0; 0; 0; 0;
  11; 101; 120; 97; 109; 112; 108; 101; 46; 99; 111; 109; 0; 0; 255; 255; 255; 255; 255; 255; 255; 255; 255] = Ok (mkIe 206 28 0 (mkMonExt 0 [101;
  120; 97; 109; 112; 108; 101; 46; 99; 111; 109] (Some 255) (Some 18446744073709551615))).
Proof. vm_compute. reflexivity. Qed.
Example monitoringeventextinfo__monitoringeventextinfo_ie_unmarshal_test_back : MonitoringEventExtensionInfo_marshal ((mkIe 206 28 0 (mkMonExt 0 [101;
  120; 97; 109; 112; 108; 101; 46; 99; 111; 109] (Some 255) (Some 18446744073709551615)))) = [206; 0; 28; 0; 3; 0; 0; 0; 0; 11; 101; 120; 97; 109;
  112; 108; 101; 46; 99; 111; 109; 0; 0; 255; 255; 255; 255; 255; 255; 255; 255; 255].
Proof. vm_compute. reflexivity. Qed.
(* gtpv2/messages/ies/monitoringeventextinfo.rs, monitoringeventextinfo_ie_wrong_scefid_length *)
Example monitoringeventextinfo__monitoringeventextinfo_ie_wrong_scefid_length : MonitoringEventExtensionInfo_unmarshal Debug [206; 0; 6; 0; 0; 0; 0;
  0; 0; 4] = Err (IEInvalidLength 206).
Proof. vm_compute. reflexivity. Qed.
(* gtpv2/messages/ies/monitoringeventinfo.rs, monitoringeventinfo_ie_unmarshal_test *)
Example monitoringeventinfo__monitoringeventinfo_ie_unmarshal_test : MonitoringEventInformation_unmarshal Debug [189; 0; 31; 160; 0; 0; 255; 255; 16;
  115; 99; 101; 102; 46; 101; 120; 97; 109; 112; 108; 101; 46; 99; 111; 109; 0; 255; 0; 0; 0; 0; 255; 255; 238; 170] = Ok (mkIe 189 31 0 (mkMonInfo
  true false false 65535 [115; 99; 101; 102; 46; 101; 120; 97; 109; 112; 108; 101; 46; 99; 111; 109] 255 (Some 4294962858))).
Proof. vm_compute. reflexivity. Qed.
Example monitoringeventinfo__monitoringeventinfo_ie_unmarshal_test_back : MonitoringEventInformation_marshal ((mkIe 189 31 0 (mkMonInfo true false
  false 65535 [115; 99; 101; 102; 46; 101; 120; 97; 109; 112; 108; 101; 46; 99; 111; 109] 255 (Some 4294962858)))) = [189; 0; 31; 160; 0; 0; 255; 255;
  16; 115; 99; 101; 102; 46; 101; 120; 97; 109; 112; 108; 101; 46; 99; 111; 109; 0; 255; 0; 0; 0; 0; 255; 255; 238; 170].
Proof. vm_compute. reflexivity. Qed.
(* gtpv2/messages/ies/msisdn.rs, msisdn_ie_unmarshal_test *)
Example msisdn__msisdn_ie_unmarshal_test : Msisdn_unmarshal Debug [76; 0; 8; 0; 136; 34; 88; 1; 16; 82; 17; 242] = Ok (mkIe 76 8 0 [56; 56; 50; 50;
  56; 53; 49; 48; 48; 49; 50; 53; 49; 49; 50]).
Proof. vm_compute. reflexivity. Qed.
Example msisdn__msisdn_ie_unmarshal_test_back : Msisdn_marshal ((mkIe 76 8 0 [56; 56; 50; 50; 56; 53; 49; 48; 48; 49; 50; 53; 49; 49; 50])) = [76; 0;
  8; 0; 136; 34; 88; 1; 16; 82; 17; 242].
Proof. vm_compute. reflexivity. Qed.
(* gtpv2/messages/ies/mueut.rs, mueut_ie_unmarshal_test *)
Example mueut__mueut_ie_unmarshal_test : MappedUeUsageType_unmarshal Debug [200; 0; 2; 0; 0; 15] = Ok (mkIe 200 2 0 15).
Proof. vm_compute. reflexivity. Qed.
Example mueut__mueut_ie_unmarshal_test_back : MappedUeUsageType_marshal ((mkIe 200 2 0 15)) = [200; 0; 2; 0; 0; 15].
Proof. vm_compute. reflexivity. Qed.
(* gtpv2/messages/ies/nodefeatures.rs, node_features_ie_unmarshal_test *)
Example nodefeatures__node_features_ie_unmarshal_test : NodeFeatures_unmarshal Debug [152; 0; 1; 0; 126] = Ok (mkIe 152 1 0 (mkNodeFeatures false true
  true true true true true false)).
Proof. vm_compute. reflexivity. Qed.
Example nodefeatures__node_features_ie_unmarshal_test_back : NodeFeatures_marshal ((mkIe 152 1 0 (mkNodeFeatures false true true true true true true
  false))) = [152; 0; 1; 0; 126].
Proof. vm_compute. reflexivity. Qed.
(* gtpv2/messages/ies/nodeidentifier.rs, node_id_ie_unmarshal_test *)
Example nodeidentifier__node_id_ie_unmarshal_test : NodeIdentifier_unmarshal Debug [176; 0; 54; 0; 19; 116; 111; 112; 111; 110; 46; 110; 111; 100;
  101; 115; 46; 112; 103; 119; 46; 115; 101; 46; 33; 101; 112; 99; 46; 109; 110; 99; 48; 53; 46; 109; 99; 99; 50; 51; 52; 46; 51; 103; 112; 112; 110;
  101; 116; 119; 111; 114; 107; 46; 111; 114; 103; 46] = Ok (mkIe 176 54 0 (mkNodeIdentifier [116; 111; 112; 111; 110; 46; 110; 111; 100; 101; 115;
  46; 112; 103; 119; 46; 115; 101; 46] [101; 112; 99; 46; 109; 110; 99; 48; 53; 46; 109; 99; 99; 50; 51; 52; 46; 51; 103; 112; 112; 110; 101; 116;
  119; 111; 114; 107; 46; 111; 114; 103; 46])).
Proof. vm_compute. reflexivity. Qed.
Example nodeidentifier__node_id_ie_unmarshal_test_back : NodeIdentifier_marshal ((mkIe 176 54 0 (mkNodeIdentifier [116; 111; 112; 111; 110; 46; 110;
  111; 100; 101; 115; 46; 112; 103; 119; 46; 115; 101; 46] [101; 112; 99; 46; 109; 110; 99; 48; 53; 46; 109; 99; 99; 50; 51; 52; 46; 51; 103; 112;
  112; 110; 101; 116; 119; 111; 114; 107; 46; 111; 114; 103; 46]))) = [176; 0; 54; 0; 19; 116; 111; 112; 111; 110; 46; 110; 111; 100; 101; 115; 46;
  112; 103; 119; 46; 115; 101; 46; 33; 101; 112; 99; 46; 109; 110; 99; 48; 53; 46; 109; 99; 99; 50; 51; 52; 46; 51; 103; 112; 112; 110; 101; 116; 119;
  111; 114; 107; 46; 111; 114; 103; 46].
Proof. vm_compute. reflexivity. Qed.
(* gtpv2/messages/ies/nodenumber.rs, node_number_ie_unmarshal_test *)
Example nodenumber__node_number_ie_unmarshal_test : NodeNumber_unmarshal Debug [175; 0; 10; 0; 9; 145; 9; 65; 80; 1; 145; 22; 120; 243] = Ok (mkIe 175
  10 0 [57; 48; 49; 52; 48; 53; 49; 48; 49; 57; 54; 49; 56; 55; 51]).
Proof. vm_compute. reflexivity. Qed.
Example nodenumber__node_number_ie_unmarshal_test_back : NodeNumber_marshal ((mkIe 175 10 0 [57; 48; 49; 52; 48; 53; 49; 48; 49; 57; 54; 49; 56; 55;
  51])) = [175; 0; 10; 0; 9; 145; 9; 65; 80; 1; 145; 22; 120; 243].
Proof. vm_compute. reflexivity. Qed.
(* gtpv2/messages/ies/nodetype.rs, apnrestriciton_ie_unmarshal_test *)
Example nodetype__apnrestriciton_ie_unmarshal_test : NodeType_unmarshal Debug [135; 0; 1; 0; 0] = Ok (mkIe 135 1 0 Node_Mme).
Proof. vm_compute. reflexivity. Qed.
Example nodetype__apnrestriciton_ie_unmarshal_test_back : NodeType_marshal ((mkIe 135 1 0 Node_Mme)) = [135; 0; 1; 0; 0].
Proof. vm_compute. reflexivity. Qed.
(* gtpv2/messages/ies/overloadcontrolinfo.rs, overload_control_ie_unmarshal_test *)
Example overloadcontrolinfo__overload_control_ie_unmarshal_test : OverloadControlInfo_unmarshal (decoder Debug) Debug [180; 0; 35; 1; 183; 0; 4; 0;
  255; 170; 238; 17; 182; 0; 1; 0; 96; 156; 0; 1; 0; 127; 71; 0; 13; 0; 4; 116; 101; 115; 116; 3; 110; 101; 116; 3; 99; 111; 109] = Ok (mkIe 180 35 1
  (mkOverloadControlInfo (mkIe 183 4 0 4289392145) (mkIe 182 1 0 96) (mkIe 156 1 0 (mkEpcTimer 3 31)) (Some [mkIe 71 13 0 [116; 101; 115; 116; 46;
  110; 101; 116; 46; 99; 111; 109]]))).
Proof. vm_compute. reflexivity. Qed.
Example overloadcontrolinfo__overload_control_ie_unmarshal_test_back : OverloadControlInfo_marshal ((mkIe 180 35 1 (mkOverloadControlInfo (mkIe 183 4
  0 4289392145) (mkIe 182 1 0 96) (mkIe 156 1 0 (mkEpcTimer 3 31)) (Some [mkIe 71 13 0 [116; 101; 115; 116; 46; 110; 101; 116; 46; 99; 111; 109]]))))
  = [180; 0; 35; 1; 183; 0; 4; 0; 255; 170; 238; 17; 182; 0; 1; 0; 96; 156; 0; 1; 0; 127; 71; 0; 13; 0; 4; 116; 101; 115; 116; 3; 110; 101; 116; 3;
  99; 111; 109].
Proof. vm_compute. reflexivity. Qed.
(* gtpv2/messages/ies/paa.rs, paa_ie_ipv4_unmarshal_test *)
Example paa__paa_ie_ipv4_unmarshal_test : PdnAddressAllocation_unmarshal Debug [79; 0; 5; 0; 1; 0; 0; 0; 0] = Ok (mkIe 79 5 0 (Paa_V4 [0; 0; 0; 0])).
Proof. vm_compute. reflexivity. Qed.
Example paa__paa_ie_ipv4_unmarshal_test_back : PdnAddressAllocation_marshal ((mkIe 79 5 0 (Paa_V4 [0; 0; 0; 0]))) = [79; 0; 5; 0; 1; 0; 0; 0; 0].
Proof. vm_compute. reflexivity. Qed.
(* gtpv2/messages/ies/paa.rs, paa_ie_ipv6_unmarshal_test *)
Example paa__paa_ie_ipv6_unmarshal_test : PdnAddressAllocation_unmarshal Debug [79; 0; 18; 0; 2; 128; 0; 0; 0; 0; 0; 0; 0; 0; 0; 0; 0; 0; 0; 0; 0; 0]
  = Ok (mkIe 79 18 0 (Paa_V6 [0; 0; 0; 0; 0; 0; 0; 0; 0; 0; 0; 0; 0; 0; 0; 0] 128)).
Proof. vm_compute. reflexivity. Qed.
Example paa__paa_ie_ipv6_unmarshal_test_back : PdnAddressAllocation_marshal ((mkIe 79 18 0 (Paa_V6 [0; 0; 0; 0; 0; 0; 0; 0; 0; 0; 0; 0; 0; 0; 0; 0]
  128))) = [79; 0; 18; 0; 2; 128; 0; 0; 0; 0; 0; 0; 0; 0; 0; 0; 0; 0; 0; 0; 0; 0].
Proof. vm_compute. reflexivity. Qed.
(* gtpv2/messages/ies/paa.rs, paa_ie_ipv46_unmarshal_test *)
Example paa__paa_ie_ipv46_unmarshal_test : PdnAddressAllocation_unmarshal Debug [79; 0; 22; 0; 3; 128; 0; 1; 0; 0; 0; 0; 0; 0; 0; 0; 0; 0; 0; 0; 0; 0;
  1; 0; 0; 0] = Ok (mkIe 79 22 0 (Paa_Dual [1; 0; 0; 0] [0; 1; 0; 0; 0; 0; 0; 0; 0; 0; 0; 0; 0; 0; 0; 0] 128)).
Proof. vm_compute. reflexivity. Qed.
Example paa__paa_ie_ipv46_unmarshal_test_back : PdnAddressAllocation_marshal ((mkIe 79 22 0 (Paa_Dual [1; 0; 0; 0] [0; 1; 0; 0; 0; 0; 0; 0; 0; 0; 0;
  0; 0; 0; 0; 0] 128))) = [79; 0; 22; 0; 3; 128; 0; 1; 0; 0; 0; 0; 0; 0; 0; 0; 0; 0; 0; 0; 0; 0; 1; 0; 0; 0].
Proof. vm_compute. reflexivity. Qed.
(* gtpv2/messages/ies/paa.rs, paa_ie_non_ip_unmarshal_test *)
Example paa__paa_ie_non_ip_unmarshal_test : PdnAddressAllocation_unmarshal Debug [79; 0; 1; 0; 4] = Ok (mkIe 79 1 0 Paa_NonIp).
Proof. vm_compute. reflexivity. Qed.
Example paa__paa_ie_non_ip_unmarshal_test_back : PdnAddressAllocation_marshal ((mkIe 79 1 0 Paa_NonIp)) = [79; 0; 1; 0; 4].
Proof. vm_compute. reflexivity. Qed.
(* gtpv2/messages/ies/packetflowid.rs, packet_flow_id_ie_unmarshal_test *)
Example packetflowid__packet_flow_id_ie_unmarshal_test : PacketFlowId_unmarshal Debug [123; 0; 5; 0; 5; 255; 255; 255; 255] = Ok (mkIe 123 5 0
  (mkPacketFlow 5 4294967295)).
Proof. vm_compute. reflexivity. Qed.
Example packetflowid__packet_flow_id_ie_unmarshal_test_back : PacketFlowId_marshal ((mkIe 123 5 0 (mkPacketFlow 5 4294967295))) = [123; 0; 5; 0; 5;
  255; 255; 255; 255].
Proof. vm_compute. reflexivity. Qed.
(* gtpv2/messages/ies/pagingserviceinfo.rs, paging_service_info_ie_unmarshal_test *)
Example pagingserviceinfo__paging_service_info_ie_unmarshal_test : PagingServiceInfo_unmarshal Debug [186; 0; 3; 0; 2; 1; 3] = Ok (mkIe 186 3 0
  (mkPagingInfo 2 (Some 3))).
Proof. vm_compute. reflexivity. Qed.
Example pagingserviceinfo__paging_service_info_ie_unmarshal_test_back : PagingServiceInfo_marshal ((mkIe 186 3 0 (mkPagingInfo 2 (Some 3)))) = [186;
  0; 3; 0; 2; 1; 3].
Proof. vm_compute. reflexivity. Qed.
(* gtpv2/messages/ies/pc5qosflow.rs, pc5_qos_flow_ie_unmarshal_test *)
Example pc5qosflow__pc5_qos_flow_ie_unmarshal_test : PC5QosFlow_unmarshal Debug [212; 0; 11; 0; 1; 5; 0; 0; 170; 170; 0; 0; 255; 255; 1] = Ok (mkIe
  212 11 0 (mkPc5Flow 5 43690 65535 (Some 1))).
Proof. vm_compute. reflexivity. Qed.
Example pc5qosflow__pc5_qos_flow_ie_unmarshal_test_back : PC5QosFlow_marshal ((mkIe 212 11 0 (mkPc5Flow 5 43690 65535 (Some 1)))) = [212; 0; 11; 0; 1;
  5; 0; 0; 170; 170; 0; 0; 255; 255; 1].
Proof. vm_compute. reflexivity. Qed.
(* gtpv2/messages/ies/pc5qosparameters.rs, pc5_qos_params_ie_unmarshal_test *)
Example pc5qosparameters__pc5_qos_params_ie_unmarshal_test : PC5QosParameters_unmarshal (decoder Debug) Debug [209; 0; 38; 1; 212; 0; 11; 0; 1; 5; 0;
  0; 170; 170; 0; 0; 255; 255; 1; 212; 0; 11; 0; 1; 6; 0; 0; 170; 170; 0; 0; 255; 255; 1; 211; 0; 4; 0; 255; 255; 255; 255] = Ok (mkIe 209 38 1
  (mkPC5QosParameters [mkIe 212 11 0 (mkPc5Flow 5 43690 65535 (Some 1)); mkIe 212 11 0 (mkPc5Flow 6 43690 65535 (Some 1))] (Some (mkIe 211 4 0
  4294967295)))).
Proof. vm_compute. reflexivity. Qed.
Example pc5qosparameters__pc5_qos_params_ie_unmarshal_test_back : PC5QosParameters_marshal ((mkIe 209 38 1 (mkPC5QosParameters [mkIe 212 11 0
  (mkPc5Flow 5 43690 65535 (Some 1)); mkIe 212 11 0 (mkPc5Flow 6 43690 65535 (Some 1))] (Some (mkIe 211 4 0 4294967295))))) = [209; 0; 38; 1; 212; 0;
  11; 0; 1; 5; 0; 0; 170; 170; 0; 0; 255; 255; 1; 212; 0; 11; 0; 1; 6; 0; 0; 170; 170; 0; 0; 255; 255; 1; 211; 0; 4; 0; 255; 255; 255; 255].
Proof. vm_compute. reflexivity. Qed.
(* gtpv2/messages/ies/pco.rs, pco_ie_unmarshal_test *)
Example pco__pco_ie_unmarshal_test : Pco_unmarshal Debug [78; 0; 20; 0; 128; 128; 33; 16; 1; 1; 0; 16; 129; 6; 0; 0; 0; 0; 131; 6; 0; 0; 0; 0] = Ok
  (mkIe 78 20 0 [128; 128; 33; 16; 1; 1; 0; 16; 129; 6; 0; 0; 0; 0; 131; 6; 0; 0; 0; 0]).
Proof. vm_compute. reflexivity. Qed.
Example pco__pco_ie_unmarshal_test_back : Pco_marshal ((mkIe 78 20 0 [128; 128; 33; 16; 1; 1; 0; 16; 129; 6; 0; 0; 0; 0; 131; 6; 0; 0; 0; 0])) = [78;
  0; 20; 0; 128; 128; 33; 16; 1; 1; 0; 16; 129; 6; 0; 0; 0; 0; 131; 6; 0; 0; 0; 0].
Proof. vm_compute. reflexivity. Qed.
(* gtpv2/messages/ies/pdnconnections.rs, pdn_connection_ie_unmarshal_test *)
Example pdnconnections__pdn_connection_ie_unmarshal_test : PdnConnections_unmarshal (decoder Debug) Debug [109; 1; 173; 0; 71; 0; 13; 0; 4; 116; 101;
  115; 116; 3; 110; 101; 116; 3; 99; 111; 109; 127; 0; 1; 0; 0; 128; 0; 1; 0; 0; 74; 0; 4; 0; 0; 0; 0; 0; 74; 0; 16; 1; 0; 0; 0; 0; 0; 0; 0; 0; 0; 0;
  0; 0; 0; 0; 0; 0; 73; 0; 1; 0; 5; 87; 0; 9; 0; 135; 39; 137; 47; 112; 139; 7; 133; 184; 136; 0; 53; 0; 5; 116; 111; 112; 111; 110; 5; 110; 111; 100;
  101; 115; 3; 112; 103; 119; 2; 115; 101; 3; 101; 112; 99; 5; 109; 110; 99; 48; 53; 6; 109; 99; 99; 50; 51; 52; 11; 51; 103; 112; 112; 110; 101; 116;
  119; 111; 114; 107; 3; 111; 114; 103; 0; 93; 0; 52; 0; 73; 0; 1; 0; 0; 87; 0; 9; 2; 133; 59; 149; 152; 90; 62; 153; 137; 85; 80; 0; 22; 0; 44; 9; 0;
  0; 0; 0; 0; 0; 0; 0; 0; 0; 0; 0; 0; 0; 0; 0; 0; 0; 0; 0; 94; 0; 4; 0; 1; 98; 156; 196; 72; 0; 8; 0; 0; 0; 7; 208; 0; 0; 31; 64; 95; 0; 2; 0; 255;
  255; 131; 0; 1; 0; 4; 146; 0; 1; 0; 0; 165; 0; 1; 0; 0; 77; 0; 10; 0; 0; 16; 0; 0; 0; 0; 0; 0; 0; 0; 157; 0; 1; 0; 1; 167; 0; 1; 0; 2; 136; 0; 53;
  1; 5; 116; 111; 112; 111; 110; 5; 110; 111; 100; 101; 115; 3; 112; 103; 119; 2; 115; 101; 3; 101; 112; 99; 5; 109; 110; 99; 48; 53; 6; 109; 99; 99;
  50; 51; 52; 11; 51; 103; 112; 112; 110; 101; 116; 119; 111; 114; 107; 3; 111; 114; 103; 0; 177; 0; 62; 0; 1; 255; 255; 255; 17; 1; 1; 1; 1; 1; 98;
  242; 16; 11; 217; 98; 242; 16; 15; 255; 255; 98; 242; 16; 15; 255; 255; 98; 242; 16; 1; 186; 64; 2; 98; 242; 16; 255; 255; 170; 255; 98; 242; 16;
  255; 255; 221; 221; 98; 242; 16; 255; 255; 170; 170; 1; 98; 242; 16; 15; 255; 255; 185; 0; 1; 0; 2; 191; 0; 41; 0; 192; 0; 28; 0; 3; 8; 9; 65; 80;
  1; 145; 22; 120; 243; 8; 136; 34; 88; 1; 16; 82; 17; 242; 8; 104; 103; 132; 64; 16; 35; 3; 48; 193; 0; 5; 0; 1; 10; 194; 186; 52; 99; 0; 1; 0; 3;
  196; 0; 4; 0; 127; 0; 0; 255] = Ok (mkIe 109 429 0 (mkPdnConnections (mkIe 71 13 0 [116; 101; 115; 116; 46; 110; 101; 116; 46; 99; 111; 109]) (Some
  (mkIe 127 1 0 Restriction_NoApnRestriction)) (Some (mkIe 128 1 0 0)) (Some (mkIe 74 4 0 (IpV4 [0; 0; 0; 0]))) (Some (mkIe 74 16 1 (IpV6 [0; 0; 0; 0;
  0; 0; 0; 0; 0; 0; 0; 0; 0; 0; 0; 0]))) (mkIe 73 1 0 5) (mkIe 87 9 0 (mkFteid 7 663302000 (Some [139; 7; 133; 184]) None)) (Some (mkIe 136 53 0 [116;
  111; 112; 111; 110; 46; 110; 111; 100; 101; 115; 46; 112; 103; 119; 46; 115; 101; 46; 101; 112; 99; 46; 109; 110; 99; 48; 53; 46; 109; 99; 99; 50;
  51; 52; 46; 51; 103; 112; 112; 110; 101; 116; 119; 111; 114; 107; 46; 111; 114; 103; 46])) [mkIe 93 52 0 (mkBearerContext (mkIe 73 1 0 0) None None
  [mkIe 87 9 2 (mkFteid 5 999659610 (Some [62; 153; 137; 85]) None)] (Some (mkIe 80 22 0 (mkBearerQos 0 11 0 9 0 0 0 0))) (Some (mkIe 94 4 0
  23239876)) None None None None None None None None)] (mkIe 72 8 0 (mkAmbr 2000 8000)) (Some (mkIe 95 2 0 65535)) (Some (mkIe 131 1 0 4)) (Some (mkIe
  146 1 0 0)) (Some (mkIe 165 1 0 false)) (Some (mkIe 77 10 0 (mkIndication false false false false false false false false false false false true
  false false false false false false false false false false false false false false false false false false false false false false false false
  false false false false false false false false false false false false false false false false false false false false false false false false
  false false false false false false false false false false false false false false false))) (Some (mkIe 157 1 0 true)) (Some (mkIe 167 1 0
  (mkCtrFlags true false))) (Some (mkIe 136 53 1 [116; 111; 112; 111; 110; 46; 110; 111; 100; 101; 115; 46; 112; 103; 119; 46; 115; 101; 46; 101; 112;
  99; 46; 109; 110; 99; 48; 53; 46; 109; 99; 99; 50; 51; 52; 46; 51; 103; 112; 112; 110; 101; 116; 119; 111; 114; 107; 46; 111; 114; 103; 46])) (Some
  (mkIe 177 62 0 (mkPraa false 1 16777215 [mkTai (mkPlmn 262 1 false) 3033] [mkRai (mkPlmn 262 1 false) 65535 170] [mkMacroEnb (mkPlmn 262 1 false)
  1048575] [mkMacroEnb (mkPlmn 262 1 false) 1048575] [mkEcgi (mkPlmn 262 1 false) 28983298] [mkSai (mkPlmn 262 1 false) 65535 56797] [mkCgi (mkPlmn
  262 1 false) 65535 43690] [mkExtMacroEnb (mkPlmn 262 1 false) false 1048575]))) (Some (mkIe 185 1 0 (mkWlanOffload true false))) [mkIe 191 41 0
  (mkRemoteUeContext (mkIe 192 28 0 (mkRemoteUser [57; 48; 49; 52; 48; 53; 49; 48; 49; 57; 54; 49; 56; 55; 51] (Some [56; 56; 50; 50; 56; 53; 49; 48;
  48; 49; 50; 53; 49; 49; 50]) (Some [56; 54; 55; 54; 52; 56; 48; 52; 48; 49; 51; 50; 51; 48; 48; 51]))) (Some (mkIe 193 5 0 (Rip_V4 [10; 194; 186;
  52]))))] (Some (mkIe 99 1 0 Pdn_Ipv46)) (Some (mkIe 196 4 0 (mkHdrCompr [0; 2; 3; 4; 6; 258; 259; 260] 255))) None None)).
Proof. vm_compute. reflexivity. Qed.
Example pdnconnections__pdn_connection_ie_unmarshal_test_back : PdnConnections_marshal ((mkIe 109 429 0 (mkPdnConnections (mkIe 71 13 0 [116; 101;
  115; 116; 46; 110; 101; 116; 46; 99; 111; 109]) (Some (mkIe 127 1 0 Restriction_NoApnRestriction)) (Some (mkIe 128 1 0 0)) (Some (mkIe 74 4 0 (IpV4
  [0; 0; 0; 0]))) (Some (mkIe 74 16 1 (IpV6 [0; 0; 0; 0; 0; 0; 0; 0; 0; 0; 0; 0; 0; 0; 0; 0]))) (mkIe 73 1 0 5) (mkIe 87 9 0 (mkFteid 7 663302000
  (Some [139; 7; 133; 184]) None)) (Some (mkIe 136 53 0 [116; 111; 112; 111; 110; 46; 110; 111; 100; 101; 115; 46; 112; 103; 119; 46; 115; 101; 46;
  101; 112; 99; 46; 109; 110; 99; 48; 53; 46; 109; 99; 99; 50; 51; 52; 46; 51; 103; 112; 112; 110; 101; 116; 119; 111; 114; 107; 46; 111; 114; 103;
  46])) [mkIe 93 52 0 (mkBearerContext (mkIe 73 1 0 0) None None [mkIe 87 9 2 (mkFteid 5 999659610 (Some [62; 153; 137; 85]) None)] (Some (mkIe 80 22
  0 (mkBearerQos 0 11 0 9 0 0 0 0))) (Some (mkIe 94 4 0 23239876)) None None None None None None None None)] (mkIe 72 8 0 (mkAmbr 2000 8000)) (Some
  (mkIe 95 2 0 65535)) (Some (mkIe 131 1 0 4)) (Some (mkIe 146 1 0 0)) (Some (mkIe 165 1 0 false)) (Some (mkIe 77 10 0 (mkIndication false false false
  false false false false false false false false true false false false false false false false false false false false false false false false false
  false false false false false false false false false false false false false false false false false false false false false false false false
  false false false false false false false false false false false false false false false false false false false false false false false))) (Some
  (mkIe 157 1 0 true)) (Some (mkIe 167 1 0 (mkCtrFlags true false))) (Some (mkIe 136 53 1 [116; 111; 112; 111; 110; 46; 110; 111; 100; 101; 115; 46;
  112; 103; 119; 46; 115; 101; 46; 101; 112; 99; 46; 109; 110; 99; 48; 53; 46; 109; 99; 99; 50; 51; 52; 46; 51; 103; 112; 112; 110; 101; 116; 119;
  111; 114; 107; 46; 111; 114; 103; 46])) (Some (mkIe 177 62 0 (mkPraa false 1 16777215 [mkTai (mkPlmn 262 1 false) 3033] [mkRai (mkPlmn 262 1 false)
  65535 170] [mkMacroEnb (mkPlmn 262 1 false) 1048575] [mkMacroEnb (mkPlmn 262 1 false) 1048575] [mkEcgi (mkPlmn 262 1 false) 28983298] [mkSai (mkPlmn
  262 1 false) 65535 56797] [mkCgi (mkPlmn 262 1 false) 65535 43690] [mkExtMacroEnb (mkPlmn 262 1 false) false 1048575]))) (Some (mkIe 185 1 0
  (mkWlanOffload true false))) [mkIe 191 41 0 (mkRemoteUeContext (mkIe 192 28 0 (mkRemoteUser [57; 48; 49; 52; 48; 53; 49; 48; 49; 57; 54; 49; 56; 55;
  51] (Some [56; 56; 50; 50; 56; 53; 49; 48; 48; 49; 50; 53; 49; 49; 50]) (Some [56; 54; 55; 54; 52; 56; 48; 52; 48; 49; 51; 50; 51; 48; 48; 51])))
  (Some (mkIe 193 5 0 (Rip_V4 [10; 194; 186; 52]))))] (Some (mkIe 99 1 0 Pdn_Ipv46)) (Some (mkIe 196 4 0 (mkHdrCompr [0; 2; 3; 4; 6; 258; 259; 260]
  255))) None None))) = [109; 1; 173; 0; 71; 0; 13; 0; 4; 116; 101; 115; 116; 3; 110; 101; 116; 3; 99; 111; 109; 127; 0; 1; 0; 0; 128; 0; 1; 0; 0; 74;
  0; 4; 0; 0; 0; 0; 0; 74; 0; 16; 1; 0; 0; 0; 0; 0; 0; 0; 0; 0; 0; 0; 0; 0; 0; 0; 0; 73; 0; 1; 0; 5; 87; 0; 9; 0; 135; 39; 137; 47; 112; 139; 7; 133;
  184; 136; 0; 53; 0; 5; 116; 111; 112; 111; 110; 5; 110; 111; 100; 101; 115; 3; 112; 103; 119; 2; 115; 101; 3; 101; 112; 99; 5; 109; 110; 99; 48; 53;
  6; 109; 99; 99; 50; 51; 52; 11; 51; 103; 112; 112; 110; 101; 116; 119; 111; 114; 107; 3; 111; 114; 103; 0; 93; 0; 52; 0; 73; 0; 1; 0; 0; 87; 0; 9;
  2; 133; 59; 149; 152; 90; 62; 153; 137; 85; 80; 0; 22; 0; 44; 9; 0; 0; 0; 0; 0; 0; 0; 0; 0; 0; 0; 0; 0; 0; 0; 0; 0; 0; 0; 0; 94; 0; 4; 0; 1; 98;
  156; 196; 72; 0; 8; 0; 0; 0; 7; 208; 0; 0; 31; 64; 95; 0; 2; 0; 255; 255; 131; 0; 1; 0; 4; 146; 0; 1; 0; 0; 165; 0; 1; 0; 0; 77; 0; 10; 0; 0; 16; 0;
  0; 0; 0; 0; 0; 0; 0; 157; 0; 1; 0; 1; 167; 0; 1; 0; 2; 136; 0; 53; 1; 5; 116; 111; 112; 111; 110; 5; 110; 111; 100; 101; 115; 3; 112; 103; 119; 2;
  115; 101; 3; 101; 112; 99; 5; 109; 110; 99; 48; 53; 6; 109; 99; 99; 50; 51; 52; 11; 51; 103; 112; 112; 110; 101; 116; 119; 111; 114; 107; 3; 111;
  114; 103; 0; 177; 0; 62; 0; 1; 255; 255; 255; 17; 1; 1; 1; 1; 1; 98; 242; 16; 11; 217; 98; 242; 16; 15; 255; 255; 98; 242; 16; 15; 255; 255; 98;
  242; 16; 1; 186; 64; 2; 98; 242; 16; 255; 255; 170; 255; 98; 242; 16; 255; 255; 221; 221; 98; 242; 16; 255; 255; 170; 170; 1; 98; 242; 16; 15; 255;
  255; 185; 0; 1; 0; 2; 191; 0; 41; 0; 192; 0; 28; 0; 3; 8; 9; 65; 80; 1; 145; 22; 120; 243; 8; 136; 34; 88; 1; 16; 82; 17; 242; 8; 104; 103; 132; 64;
  16; 35; 3; 48; 193; 0; 5; 0; 1; 10; 194; 186; 52; 99; 0; 1; 0; 3; 196; 0; 4; 0; 127; 0; 0; 255].
Proof. vm_compute. reflexivity. Qed.
(* gtpv2/messages/ies/pdntype.rs, pdntype_ie_unmarshal_test *)
Example pdntype__pdntype_ie_unmarshal_test : PdnType_unmarshal Debug [99; 0; 1; 0; 1] = Ok (mkIe 99 1 0 Pdn_Ipv4).
Proof. vm_compute. reflexivity. Qed.
Example pdntype__pdntype_ie_unmarshal_test_back : PdnType_marshal ((mkIe 99 1 0 Pdn_Ipv4)) = [99; 0; 1; 0; 1].
Proof. vm_compute. reflexivity. Qed.
(* gtpv2/messages/ies/pdntype.rs, pdntype_ie_unknown_rattype_unmarshal_test *)
Example pdntype__pdntype_ie_unknown_rattype_unmarshal_test : PdnType_unmarshal Debug [99; 0; 1; 0; 7] = Ok (mkIe 99 1 0 Pdn_Reserved).
Proof. vm_compute. reflexivity. Qed.
(* gtpv2/messages/ies/pdunumbers.rs, pdu_numbers_ie_unmarshal_test *)
Example pdunumbers__pdu_numbers_ie_unmarshal_test : PduNumbers_unmarshal Debug [110; 0; 9; 0; 5; 255; 0; 0; 255; 170; 0; 0; 170] = Ok (mkIe 110 9 0
  (mkPduNumbers 5 65280 255 43520 170)).
Proof. vm_compute. reflexivity. Qed.
Example pdunumbers__pdu_numbers_ie_unmarshal_test_back : PduNumbers_marshal ((mkIe 110 9 0 (mkPduNumbers 5 65280 255 43520 170))) = [110; 0; 9; 0; 5;
  255; 0; 0; 255; 170; 0; 0; 170].
Proof. vm_compute. reflexivity. Qed.
(* gtpv2/messages/ies/pgwchangeinfo.rs, pgw_change_info_ie_unmarshal_test *)
Example pgwchangeinfo__pgw_change_info_ie_unmarshal_test : PgwChangeInfo_unmarshal (decoder Debug) Debug [214; 0; 213; 0; 74; 0; 4; 0; 0; 0; 0; 0; 74;
  0; 16; 3; 0; 0; 0; 0; 0; 0; 0; 0; 0; 0; 0; 0; 0; 0; 0; 0; 215; 0; 53; 0; 5; 116; 111; 112; 111; 110; 5; 110; 111; 100; 101; 115; 3; 112; 103; 119;
  2; 115; 101; 3; 101; 112; 99; 5; 109; 110; 99; 48; 53; 6; 109; 99; 99; 50; 51; 52; 11; 51; 103; 112; 112; 110; 101; 116; 119; 111; 114; 107; 3; 111;
  114; 103; 0; 215; 0; 53; 1; 5; 116; 111; 112; 111; 110; 5; 110; 111; 100; 101; 115; 3; 112; 103; 119; 2; 115; 101; 3; 101; 112; 99; 5; 109; 110; 99;
  48; 53; 6; 109; 99; 99; 50; 51; 52; 11; 51; 103; 112; 112; 110; 101; 116; 119; 111; 114; 107; 3; 111; 114; 103; 0; 215; 0; 53; 1; 5; 116; 111; 112;
  111; 110; 5; 110; 111; 100; 101; 115; 3; 112; 103; 119; 2; 100; 101; 3; 101; 112; 99; 5; 109; 110; 99; 48; 53; 6; 109; 99; 99; 50; 51; 52; 11; 51;
  103; 112; 112; 110; 101; 116; 119; 111; 114; 107; 3; 111; 114; 103; 0; 216; 0; 3; 0; 10; 255; 0; 216; 0; 3; 0; 10; 255; 0] = Ok (mkIe 214 213 0
  (mkPgwChangeInfo [mkIe 215 53 0 [116; 111; 112; 111; 110; 46; 110; 111; 100; 101; 115; 46; 112; 103; 119; 46; 115; 101; 46; 101; 112; 99; 46; 109;
  110; 99; 48; 53; 46; 109; 99; 99; 50; 51; 52; 46; 51; 103; 112; 112; 110; 101; 116; 119; 111; 114; 107; 46; 111; 114; 103; 46]; mkIe 215 53 1 [116;
  111; 112; 111; 110; 46; 110; 111; 100; 101; 115; 46; 112; 103; 119; 46; 115; 101; 46; 101; 112; 99; 46; 109; 110; 99; 48; 53; 46; 109; 99; 99; 50;
  51; 52; 46; 51; 103; 112; 112; 110; 101; 116; 119; 111; 114; 107; 46; 111; 114; 103; 46]; mkIe 215 53 1 [116; 111; 112; 111; 110; 46; 110; 111; 100;
  101; 115; 46; 112; 103; 119; 46; 100; 101; 46; 101; 112; 99; 46; 109; 110; 99; 48; 53; 46; 109; 99; 99; 50; 51; 52; 46; 51; 103; 112; 112; 110; 101;
  116; 119; 111; 114; 107; 46; 111; 114; 103; 46]] [mkIe 74 4 0 (IpV4 [0; 0; 0; 0]); mkIe 74 16 3 (IpV6 [0; 0; 0; 0; 0; 0; 0; 0; 0; 0; 0; 0; 0; 0; 0;
  0])] [] [mkIe 216 3 0 [10; 255; 0]; mkIe 216 3 0 [10; 255; 0]])).
Proof. vm_compute. reflexivity. Qed.
Example pgwchangeinfo__pgw_change_info_ie_unmarshal_test_back : PgwChangeInfo_marshal ((mkIe 214 213 0 (mkPgwChangeInfo [mkIe 215 53 0 [116; 111; 112;
  111; 110; 46; 110; 111; 100; 101; 115; 46; 112; 103; 119; 46; 115; 101; 46; 101; 112; 99; 46; 109; 110; 99; 48; 53; 46; 109; 99; 99; 50; 51; 52; 46;
  51; 103; 112; 112; 110; 101; 116; 119; 111; 114; 107; 46; 111; 114; 103; 46]; mkIe 215 53 1 [116; 111; 112; 111; 110; 46; 110; 111; 100; 101; 115;
  46; 112; 103; 119; 46; 115; 101; 46; 101; 112; 99; 46; 109; 110; 99; 48; 53; 46; 109; 99; 99; 50; 51; 52; 46; 51; 103; 112; 112; 110; 101; 116; 119;
  111; 114; 107; 46; 111; 114; 103; 46]; mkIe 215 53 1 [116; 111; 112; 111; 110; 46; 110; 111; 100; 101; 115; 46; 112; 103; 119; 46; 100; 101; 46;
  101; 112; 99; 46; 109; 110; 99; 48; 53; 46; 109; 99; 99; 50; 51; 52; 46; 51; 103; 112; 112; 110; 101; 116; 119; 111; 114; 107; 46; 111; 114; 103;
  46]] [mkIe 74 4 0 (IpV4 [0; 0; 0; 0]); mkIe 74 16 3 (IpV6 [0; 0; 0; 0; 0; 0; 0; 0; 0; 0; 0; 0; 0; 0; 0; 0])] [] [mkIe 216 3 0 [10; 255; 0]; mkIe 216
  3 0 [10; 255; 0]]))) = [214; 0; 213; 0; 74; 0; 4; 0; 0; 0; 0; 0; 74; 0; 16; 3; 0; 0; 0; 0; 0; 0; 0; 0; 0; 0; 0; 0; 0; 0; 0; 0; 215; 0; 53; 0; 5;
  116; 111; 112; 111; 110; 5; 110; 111; 100; 101; 115; 3; 112; 103; 119; 2; 115; 101; 3; 101; 112; 99; 5; 109; 110; 99; 48; 53; 6; 109; 99; 99; 50;
  51; 52; 11; 51; 103; 112; 112; 110; 101; 116; 119; 111; 114; 107; 3; 111; 114; 103; 0; 215; 0; 53; 1; 5; 116; 111; 112; 111; 110; 5; 110; 111; 100;
  101; 115; 3; 112; 103; 119; 2; 115; 101; 3; 101; 112; 99; 5; 109; 110; 99; 48; 53; 6; 109; 99; 99; 50; 51; 52; 11; 51; 103; 112; 112; 110; 101; 116;
  119; 111; 114; 107; 3; 111; 114; 103; 0; 215; 0; 53; 1; 5; 116; 111; 112; 111; 110; 5; 110; 111; 100; 101; 115; 3; 112; 103; 119; 2; 100; 101; 3;
  101; 112; 99; 5; 109; 110; 99; 48; 53; 6; 109; 99; 99; 50; 51; 52; 11; 51; 103; 112; 112; 110; 101; 116; 119; 111; 114; 107; 3; 111; 114; 103; 0;
  216; 0; 3; 0; 10; 255; 0; 216; 0; 3; 0; 10; 255; 0].
Proof. vm_compute. reflexivity. Qed.
(* gtpv2/messages/ies/pgwfqdn.rs, pgw_fqdn_ie_unmarshal_test *)
Example pgwfqdn__pgw_fqdn_ie_unmarshal_test : PgwFqdn_unmarshal Debug [215; 0; 53; 0; 5; 116; 111; 112; 111; 110; 5; 110; 111; 100; 101; 115; 3; 112;
  103; 119; 2; 115; 101; 3; 101; 112; 99; 5; 109; 110; 99; 48; 53; 6; 109; 99; 99; 50; 51; 52; 11; 51; 103; 112; 112; 110; 101; 116; 119; 111; 114;
  107; 3; 111; 114; 103; 0] = Ok (mkIe 215 53 0 [116; 111; 112; 111; 110; 46; 110; 111; 100; 101; 115; 46; 112; 103; 119; 46; 115; 101; 46; 101; 112;
  99; 46; 109; 110; 99; 48; 53; 46; 109; 99; 99; 50; 51; 52; 46; 51; 103; 112; 112; 110; 101; 116; 119; 111; 114; 107; 46; 111; 114; 103; 46]).
Proof. vm_compute. reflexivity. Qed.
Example pgwfqdn__pgw_fqdn_ie_unmarshal_test_back : PgwFqdn_marshal ((mkIe 215 53 0 [116; 111; 112; 111; 110; 46; 110; 111; 100; 101; 115; 46; 112;
  103; 119; 46; 115; 101; 46; 101; 112; 99; 46; 109; 110; 99; 48; 53; 46; 109; 99; 99; 50; 51; 52; 46; 51; 103; 112; 112; 110; 101; 116; 119; 111;
  114; 107; 46; 111; 114; 103; 46])) = [215; 0; 53; 0; 5; 116; 111; 112; 111; 110; 5; 110; 111; 100; 101; 115; 3; 112; 103; 119; 2; 115; 101; 3; 101;
  112; 99; 5; 109; 110; 99; 48; 53; 6; 109; 99; 99; 50; 51; 52; 11; 51; 103; 112; 112; 110; 101; 116; 119; 111; 114; 107; 3; 111; 114; 103; 0].
Proof. vm_compute. reflexivity. Qed.
(* gtpv2/messages/ies/plmnid.rs, plmnid_ie_unmarshal_test *)
Example plmnid__plmnid_ie_unmarshal_test : PlmnId_unmarshal Debug [120; 0; 3; 0; 153; 249; 16] = Ok (mkIe 120 3 0 (mkPlmn 999 1 false)).
Proof. vm_compute. reflexivity. Qed.
Example plmnid__plmnid_ie_unmarshal_test_back : PlmnId_marshal ((mkIe 120 3 0 (mkPlmn 999 1 false))) = [120; 0; 3; 0; 153; 249; 16].
Proof. vm_compute. reflexivity. Qed.
(* gtpv2/messages/ies/portnumber.rs, port_number_ie_unmarshal_test *)
Example portnumber__port_number_ie_unmarshal_test : PortNumber_unmarshal Debug [126; 0; 2; 0; 255; 255] = Ok (mkIe 126 2 0 65535).
Proof. vm_compute. reflexivity. Qed.
Example portnumber__port_number_ie_unmarshal_test_back : PortNumber_marshal ((mkIe 126 2 0 65535)) = [126; 0; 2; 0; 255; 255].
Proof. vm_compute. reflexivity. Qed.
(* gtpv2/messages/ies/praa.rs, praa_ie_unmarshal_test *)
Example praa__praa_ie_unmarshal_test : PresenceReportingAreaAction_unmarshal Debug [177; 0; 62; 0; 1; 255; 255; 255; 17; 1; 1; 1; 1; 1; 98; 242; 16;
  11; 217; 98; 242; 16; 255; 255; 255; 98; 242; 16; 255; 255; 255; 98; 242; 16; 1; 186; 64; 2; 98; 242; 16; 255; 255; 170; 255; 98; 242; 16; 255; 255;
  221; 221; 98; 242; 16; 255; 255; 170; 170; 1; 98; 242; 16; 15; 255; 255] = Ok (mkIe 177 62 0 (mkPraa false 1 16777215 [mkTai (mkPlmn 262 1 false)
  3033] [mkRai (mkPlmn 262 1 false) 65535 170] [mkMacroEnb (mkPlmn 262 1 false) 16777215] [mkMacroEnb (mkPlmn 262 1 false) 16777215] [mkEcgi (mkPlmn
  262 1 false) 28983298] [mkSai (mkPlmn 262 1 false) 65535 56797] [mkCgi (mkPlmn 262 1 false) 65535 43690] [mkExtMacroEnb (mkPlmn 262 1 false) false
  1048575])).
Proof. vm_compute. reflexivity. Qed.
Example praa__praa_ie_unmarshal_test_back : PresenceReportingAreaAction_marshal ((mkIe 177 62 0 (mkPraa false 1 16777215 [mkTai (mkPlmn 262 1 false)
  3033] [mkRai (mkPlmn 262 1 false) 65535 170] [mkMacroEnb (mkPlmn 262 1 false) 16777215] [mkMacroEnb (mkPlmn 262 1 false) 16777215] [mkEcgi (mkPlmn
  262 1 false) 28983298] [mkSai (mkPlmn 262 1 false) 65535 56797] [mkCgi (mkPlmn 262 1 false) 65535 43690] [mkExtMacroEnb (mkPlmn 262 1 false) false
  1048575]))) = [177; 0; 62; 0; 1; 255; 255; 255; 17; 1; 1; 1; 1; 1; 98; 242; 16; 11; 217; 98; 242; 16; 255; 255; 255; 98; 242; 16; 255; 255; 255; 98;
  242; 16; 1; 186; 64; 2; 98; 242; 16; 255; 255; 170; 255; 98; 242; 16; 255; 255; 221; 221; 98; 242; 16; 255; 255; 170; 170; 1; 98; 242; 16; 15; 255;
  255].
Proof. vm_compute. reflexivity. Qed.
(* gtpv2/messages/ies/prai.rs, prai_ie_unmarshal_test *)
Example prai__prai_ie_unmarshal_test : PresenceReportingAreaInformation_unmarshal Debug [178; 0; 8; 0; 0; 0; 0; 5; 0; 0; 255; 2] = Ok (mkIe 178 8 0
  (mkPrai (Ipra 0) (Some [Opra 255]))).
Proof. vm_compute. reflexivity. Qed.
Example prai__prai_ie_unmarshal_test_back : PresenceReportingAreaInformation_marshal ((mkIe 178 8 0 (mkPrai (Ipra 0) (Some [Opra 255])))) = [178; 0;
  8; 0; 0; 0; 0; 5; 0; 0; 255; 2].
Proof. vm_compute. reflexivity. Qed.
(* gtpv2/messages/ies/privateextension.rs, private_ext_ie_unmarshal_test *)
Example privateextension__private_ext_ie_unmarshal_test : PrivateExtension_unmarshal Debug [255; 0; 3; 0; 10; 255; 0] = Ok (mkIe 255 3 0 (mkPrivateExt
  2815 [0])).
Proof. vm_compute. reflexivity. Qed.
Example privateextension__private_ext_ie_unmarshal_test_back : PrivateExtension_marshal ((mkIe 255 3 0 (mkPrivateExt 2815 [0]))) = [255; 0; 3; 0; 10;
  255; 0].
Proof. vm_compute. reflexivity. Qed.
(* gtpv2/messages/ies/privateextension.rs, private_ext_ie_wrong_size_unmarshal_test *)
Example privateextension__private_ext_ie_wrong_size_unmarshal_test : PrivateExtension_unmarshal Debug [255; 0; 2; 0; 10; 0] = Err (IEInvalidLength
  255).
Proof. vm_compute. reflexivity. Qed.
(* gtpv2/messages/ies/pscellid.rs, pscellid_ie_unmarshal_test *)
Example pscellid__pscellid_ie_unmarshal_test : PSCellId_unmarshal Debug [217; 0; 8; 0; 153; 249; 16; 170; 252; 253; 254; 255] = Ok (mkIe 217 8 0
  (mkPscell (mkPlmn 999 1 false) [170; 252; 253; 254; 255])).
Proof. vm_compute. reflexivity. Qed.
Example pscellid__pscellid_ie_unmarshal_test_back : PSCellId_marshal ((mkIe 217 8 0 (mkPscell (mkPlmn 999 1 false) [170; 252; 253; 254; 255]))) =
  [217; 0; 8; 0; 153; 249; 16; 170; 252; 253; 254; 255].
Proof. vm_compute. reflexivity. Qed.
(* gtpv2/messages/ies/pti.rs, pti_ie_unmarshal_test *)
Example pti__pti_ie_unmarshal_test : Pti_unmarshal Debug [100; 0; 1; 0; 1] = Ok (mkIe 100 1 0 1).
Proof. vm_compute. reflexivity. Qed.
Example pti__pti_ie_unmarshal_test_back : Pti_marshal ((mkIe 100 1 0 1)) = [100; 0; 1; 0; 1].
Proof. vm_compute. reflexivity. Qed.
(* gtpv2/messages/ies/ptmsi.rs, ptmsi_ie_unmarshal_test *)
Example ptmsi__ptmsi_ie_unmarshal_test : Ptmsi_unmarshal Debug [111; 0; 4; 0; 255; 255; 255; 255] = Ok (mkIe 111 4 0 4294967295).
Proof. vm_compute. reflexivity. Qed.
Example ptmsi__ptmsi_ie_unmarshal_test_back : Ptmsi_marshal ((mkIe 111 4 0 4294967295)) = [111; 0; 4; 0; 255; 255; 255; 255].
Proof. vm_compute. reflexivity. Qed.
(* gtpv2/messages/ies/ptmsisignature.rs, ptmsi_ie_unmarshal_test *)
Example ptmsisignature__ptmsi_ie_unmarshal_test : PtmsiSignature_unmarshal Debug [112; 0; 4; 0; 255; 255; 255; 255] = Ok (mkIe 112 4 0 4294967295).
Proof. vm_compute. reflexivity. Qed.
Example ptmsisignature__ptmsi_ie_unmarshal_test_back : PtmsiSignature_marshal ((mkIe 112 4 0 4294967295)) = [112; 0; 4; 0; 255; 255; 255; 255].
Proof. vm_compute. reflexivity. Qed.
(* gtpv2/messages/ies/rabcontext.rs, rab_context_ie_unmarshal_test *)
Example rabcontext__rab_context_ie_unmarshal_test : RabContext_unmarshal Debug [124; 0; 9; 0; 5; 255; 0; 0; 255; 170; 0; 0; 170] = Ok (mkIe 124 9 0
  (mkRabCtx 5 65280 255 43520 170)).
Proof. vm_compute. reflexivity. Qed.
Example rabcontext__rab_context_ie_unmarshal_test_back : RabContext_marshal ((mkIe 124 9 0 (mkRabCtx 5 65280 255 43520 170))) = [124; 0; 9; 0; 5; 255;
  0; 0; 255; 170; 0; 0; 170].
Proof. vm_compute. reflexivity. Qed.
(* gtpv2/messages/ies/rannascause.rs, ran_nas_cause_ie_short_unmarshal_test *)
Example rannascause__ran_nas_cause_ie_short_unmarshal_test : RanNasCause_unmarshal Debug [172; 0; 2; 0; 16; 26] = Ok (mkIe 172 2 0 (Rn_S1ap (S1_Radio
  26))).
Proof. vm_compute. reflexivity. Qed.
Example rannascause__ran_nas_cause_ie_short_unmarshal_test_back : RanNasCause_marshal ((mkIe 172 2 0 (Rn_S1ap (S1_Radio 26)))) = [172; 0; 2; 0; 16;
  26].
Proof. vm_compute. reflexivity. Qed.
(* gtpv2/messages/ies/rannascause.rs, cause_ie_incorrect_length_unmarshal_test *)
Example rannascause__cause_ie_incorrect_length_unmarshal_test : RanNasCause_unmarshal Debug [172; 0; 1; 0; 16] = Err (IEInvalidLength 172).
Proof. vm_compute. reflexivity. Qed.
(* gtpv2/messages/ies/rattype.rs, rattype_ie_unmarshal_test *)
Example rattype__rattype_ie_unmarshal_test : RatType_unmarshal Debug [82; 0; 1; 0; 6] = Ok (mkIe 82 1 0 Rat_Eutran).
Proof. vm_compute. reflexivity. Qed.
Example rattype__rattype_ie_unmarshal_test_back : RatType_marshal ((mkIe 82 1 0 Rat_Eutran)) = [82; 0; 1; 0; 6].
Proof. vm_compute. reflexivity. Qed.
(* gtpv2/messages/ies/rattype.rs, rattype_ie_unknown_rattype_unmarshal_test *)
Example rattype__rattype_ie_unknown_rattype_unmarshal_test : RatType_unmarshal Debug [82; 0; 1; 0; 255] = Ok (mkIe 82 1 0 Rat_Spare).
Proof. vm_compute. reflexivity. Qed.
(* gtpv2/messages/ies/recovery.rs, recovery_ie_unmarshal_test *)
Example recovery__recovery_ie_unmarshal_test : Recovery_unmarshal Debug [3; 0; 1; 0; 4] = Ok (mkIe 3 1 0 4).
Proof. vm_compute. reflexivity. Qed.
Example recovery__recovery_ie_unmarshal_test_back : Recovery_marshal ((mkIe 3 1 0 4)) = [3; 0; 1; 0; 4].
Proof. vm_compute. reflexivity. Qed.
(* gtpv2/messages/ies/recovery.rs, recovery_ie_unmarshal_fail_test *)
Example recovery__recovery_ie_unmarshal_fail_test : Recovery_unmarshal Debug [3; 0; 1; 0] = Err (IEInvalidLength 3).
Proof. vm_compute. reflexivity. Qed.
(* gtpv2/messages/ies/remoteuecontext.rs, remote_ue_ctx_ie_unmarshal_test *)
Example remoteuecontext__remote_ue_ctx_ie_unmarshal_test : RemoteUeContext_unmarshal (decoder Debug) Debug [191; 0; 41; 0; 192; 0; 28; 0; 3; 8; 9; 65;
  80; 1; 145; 22; 120; 243; 8; 136; 34; 88; 1; 16; 82; 17; 242; 8; 104; 103; 132; 64; 16; 35; 3; 48; 193; 0; 5; 0; 1; 10; 194; 186; 52] = Ok (mkIe 191
  41 0 (mkRemoteUeContext (mkIe 192 28 0 (mkRemoteUser [57; 48; 49; 52; 48; 53; 49; 48; 49; 57; 54; 49; 56; 55; 51] (Some [56; 56; 50; 50; 56; 53; 49;
  48; 48; 49; 50; 53; 49; 49; 50]) (Some [56; 54; 55; 54; 52; 56; 48; 52; 48; 49; 51; 50; 51; 48; 48; 51]))) (Some (mkIe 193 5 0 (Rip_V4 [10; 194;
  186; 52]))))).
Proof. vm_compute. reflexivity. Qed.
Example remoteuecontext__remote_ue_ctx_ie_unmarshal_test_back : RemoteUeContext_marshal ((mkIe 191 41 0 (mkRemoteUeContext (mkIe 192 28 0
  (mkRemoteUser [57; 48; 49; 52; 48; 53; 49; 48; 49; 57; 54; 49; 56; 55; 51] (Some [56; 56; 50; 50; 56; 53; 49; 48; 48; 49; 50; 53; 49; 49; 50]) (Some
  [56; 54; 55; 54; 52; 56; 48; 52; 48; 49; 51; 50; 51; 48; 48; 51]))) (Some (mkIe 193 5 0 (Rip_V4 [10; 194; 186; 52])))))) = [191; 0; 41; 0; 192; 0;
  28; 0; 3; 8; 9; 65; 80; 1; 145; 22; 120; 243; 8; 136; 34; 88; 1; 16; 82; 17; 242; 8; 104; 103; 132; 64; 16; 35; 3; 48; 193; 0; 5; 0; 1; 10; 194;
  186; 52].
Proof. vm_compute. reflexivity. Qed.
(* gtpv2/messages/ies/remoteueip.rs, remote_ue_ip_ie_nonip_unmarshal_test *)
Example remoteueip__remote_ue_ip_ie_nonip_unmarshal_test : RemoteUeIpInformation_unmarshal Debug [193; 0; 1; 0; 0] = Ok (mkIe 193 1 0 Rip_NonIp).
Proof. vm_compute. reflexivity. Qed.
Example remoteueip__remote_ue_ip_ie_nonip_unmarshal_test_back : RemoteUeIpInformation_marshal ((mkIe 193 1 0 Rip_NonIp)) = [193; 0; 1; 0; 0].
Proof. vm_compute. reflexivity. Qed.
(* gtpv2/messages/ies/remoteueip.rs, remote_ue_ip_ie_ipv4_unmarshal_test *)
Example remoteueip__remote_ue_ip_ie_ipv4_unmarshal_test : RemoteUeIpInformation_unmarshal Debug [193; 0; 5; 0; 1; 10; 194; 186; 52] = Ok (mkIe 193 5 0
  (Rip_V4 [10; 194; 186; 52])).
Proof. vm_compute. reflexivity. Qed.
Example remoteueip__remote_ue_ip_ie_ipv4_unmarshal_test_back : RemoteUeIpInformation_marshal ((mkIe 193 5 0 (Rip_V4 [10; 194; 186; 52]))) = [193; 0;
  5; 0; 1; 10; 194; 186; 52].
Proof. vm_compute. reflexivity. Qed.
(* gtpv2/messages/ies/remoteueip.rs, remote_ue_ip_ie_ipv6_unmarshal_test *)
Example remoteueip__remote_ue_ip_ie_ipv6_unmarshal_test : RemoteUeIpInformation_unmarshal Debug [193; 0; 9; 0; 2; 0; 0; 0; 0; 0; 0; 0; 0] = Ok (mkIe
  193 9 0 (Rip_V6 [0; 0; 0; 0; 0; 0; 0; 0; 0; 0; 0; 0; 0; 0; 0; 0])).
Proof. vm_compute. reflexivity. Qed.
Example remoteueip__remote_ue_ip_ie_ipv6_unmarshal_test_back : RemoteUeIpInformation_marshal ((mkIe 193 9 0 (Rip_V6 [0; 0; 0; 0; 0; 0; 0; 0; 0; 0; 0;
  0; 0; 0; 0; 0]))) = [193; 0; 9; 0; 2; 0; 0; 0; 0; 0; 0; 0; 0].
Proof. vm_compute. reflexivity. Qed.
(* gtpv2/messages/ies/remoteuserid.rs, remote_user_id_ie_unmarshal_test *)
Example remoteuserid__remote_user_id_ie_unmarshal_test : RemoteUserId_unmarshal Debug [192; 0; 28; 0; 3; 8; 9; 65; 80; 1; 145; 22; 120; 243; 8; 136;
  34; 88; 1; 16; 82; 17; 242; 8; 104; 103; 132; 64; 16; 35; 3; 48] = Ok (mkIe 192 28 0 (mkRemoteUser [57; 48; 49; 52; 48; 53; 49; 48; 49; 57; 54; 49;
  56; 55; 51] (Some [56; 56; 50; 50; 56; 53; 49; 48; 48; 49; 50; 53; 49; 49; 50]) (Some [56; 54; 55; 54; 52; 56; 48; 52; 48; 49; 51; 50; 51; 48; 48;
  51]))).
Proof. vm_compute. reflexivity. Qed.
Example remoteuserid__remote_user_id_ie_unmarshal_test_back : RemoteUserId_marshal ((mkIe 192 28 0 (mkRemoteUser [57; 48; 49; 52; 48; 53; 49; 48; 49;
  57; 54; 49; 56; 55; 51] (Some [56; 56; 50; 50; 56; 53; 49; 48; 48; 49; 50; 53; 49; 49; 50]) (Some [56; 54; 55; 54; 52; 56; 48; 52; 48; 49; 51; 50;
  51; 48; 48; 51])))) = [192; 0; 28; 0; 3; 8; 9; 65; 80; 1; 145; 22; 120; 243; 8; 136; 34; 88; 1; 16; 82; 17; 242; 8; 104; 103; 132; 64; 16; 35; 3;
  48].
Proof. vm_compute. reflexivity. Qed.
(* gtpv2/messages/ies/remoteuserid.rs, remote_user_id_ie_invalid_length_unmarshal_test *)
Example remoteuserid__remote_user_id_ie_invalid_length_unmarshal_test : RemoteUserId_unmarshal Debug [192; 0; 28; 0; 1; 8; 9; 65; 80; 1; 145; 22; 120;
  243; 8; 136; 34; 88; 1; 16; 82; 17] = Err (IEInvalidLength 192).
Proof. vm_compute. reflexivity. Qed.
(* gtpv2/messages/ies/rfspindex.rs, rfsp_index_ie_unmarshal_test *)
Example rfspindex__rfsp_index_ie_unmarshal_test : RfspIndex_unmarshal Debug [144; 0; 2; 0; 1; 0] = Ok (mkIe 144 2 0 256).
Proof. vm_compute. reflexivity. Qed.
Example rfspindex__rfsp_index_ie_unmarshal_test_back : RfspIndex_marshal ((mkIe 144 2 0 256)) = [144; 0; 2; 0; 1; 0].
Proof. vm_compute. reflexivity. Qed.
(* gtpv2/messages/ies/s103pdf.rs, s103pdf_ie_ipv4_unmarshal_test *)
Example s103pdf__s103pdf_ie_ipv4_unmarshal_test : S103pdf_unmarshal Debug [90; 0; 12; 0; 4; 0; 0; 0; 0; 0; 0; 0; 0; 2; 1; 2] = Ok (mkIe 90 12 0
  (mkS103 (IpV4 [0; 0; 0; 0]) 0 [1; 2])).
Proof. vm_compute. reflexivity. Qed.
Example s103pdf__s103pdf_ie_ipv4_unmarshal_test_back : S103pdf_marshal ((mkIe 90 12 0 (mkS103 (IpV4 [0; 0; 0; 0]) 0 [1; 2]))) = [90; 0; 12; 0; 4; 0;
  0; 0; 0; 0; 0; 0; 0; 2; 1; 2].
Proof. vm_compute. reflexivity. Qed.
(* gtpv2/messages/ies/s103pdf.rs, s103pdf_ie_ipv6_unmarshal_test *)
Example s103pdf__s103pdf_ie_ipv6_unmarshal_test : S103pdf_unmarshal Debug [90; 0; 24; 0; 16; 0; 0; 0; 0; 0; 0; 0; 0; 0; 0; 0; 0; 0; 0; 0; 0; 0; 0; 0;
  0; 2; 1; 2] = Ok (mkIe 90 24 0 (mkS103 (IpV6 [0; 0; 0; 0; 0; 0; 0; 0; 0; 0; 0; 0; 0; 0; 0; 0]) 0 [1; 2])).
Proof. vm_compute. reflexivity. Qed.
Example s103pdf__s103pdf_ie_ipv6_unmarshal_test_back : S103pdf_marshal ((mkIe 90 24 0 (mkS103 (IpV6 [0; 0; 0; 0; 0; 0; 0; 0; 0; 0; 0; 0; 0; 0; 0; 0])
  0 [1; 2]))) = [90; 0; 24; 0; 16; 0; 0; 0; 0; 0; 0; 0; 0; 0; 0; 0; 0; 0; 0; 0; 0; 0; 0; 0; 0; 2; 1; 2].
Proof. vm_compute. reflexivity. Qed.
(* gtpv2/messages/ies/s103pdf.rs, s103pdf_ie_ipv6_sic_unmarshal_test *)
Example s103pdf__s103pdf_ie_ipv6_sic_unmarshal_test : S103pdf_unmarshal Debug [90; 0; 23; 0; 16; 0; 0; 0; 0; 0; 0; 0; 0; 0; 0; 0; 0; 0; 0; 0; 0; 0; 0;
  0; 0; 1; 6] = Ok (mkIe 90 23 0 (mkS103 (IpV6 [0; 0; 0; 0; 0; 0; 0; 0; 0; 0; 0; 0; 0; 0; 0; 0]) 0 [6])).
Proof. vm_compute. reflexivity. Qed.
Example s103pdf__s103pdf_ie_ipv6_sic_unmarshal_test_back : S103pdf_marshal ((mkIe 90 23 0 (mkS103 (IpV6 [0; 0; 0; 0; 0; 0; 0; 0; 0; 0; 0; 0; 0; 0; 0;
  0]) 0 [6]))) = [90; 0; 23; 0; 16; 0; 0; 0; 0; 0; 0; 0; 0; 0; 0; 0; 0; 0; 0; 0; 0; 0; 0; 0; 0; 1; 6].
Proof. vm_compute. reflexivity. Qed.
(* gtpv2/messages/ies/s103pdf.rs, s103pdf_ie_wrong_ip_address_type *)
Example s103pdf__s103pdf_ie_wrong_ip_address_type : S103pdf_unmarshal Debug [90; 0; 11; 0; 5; 0; 0; 0; 0; 0; 0; 0; 0; 0; 0] = Err (IEIncorrect 90).
Proof. vm_compute. reflexivity. Qed.
(* gtpv2/messages/ies/s1udf.rs, s1udf_ie_ipv4_unmarshal_test *)
Example s1udf__s1udf_ie_ipv4_unmarshal_test : S1udf_unmarshal Debug [91; 0; 10; 0; 1; 4; 0; 0; 0; 0; 0; 0; 0; 0] = Ok (mkIe 91 10 0 (mkS1udf 1 (IpV4
  [0; 0; 0; 0]) 0)).
Proof. vm_compute. reflexivity. Qed.
Example s1udf__s1udf_ie_ipv4_unmarshal_test_back : S1udf_marshal ((mkIe 91 10 0 (mkS1udf 1 (IpV4 [0; 0; 0; 0]) 0))) = [91; 0; 10; 0; 1; 4; 0; 0; 0; 0;
  0; 0; 0; 0].
Proof. vm_compute. reflexivity. Qed.
(* gtpv2/messages/ies/s1udf.rs, s1udf_ie_ipv6_unmarshal_test *)
Example s1udf__s1udf_ie_ipv6_unmarshal_test : S1udf_unmarshal Debug [91; 0; 22; 0; 1; 16; 0; 0; 0; 0; 0; 0; 0; 0; 0; 0; 0; 0; 0; 0; 0; 0; 0; 0; 0; 0]
  = Ok (mkIe 91 22 0 (mkS1udf 1 (IpV6 [0; 0; 0; 0; 0; 0; 0; 0; 0; 0; 0; 0; 0; 0; 0; 0]) 0)).
Proof. vm_compute. reflexivity. Qed.
Example s1udf__s1udf_ie_ipv6_unmarshal_test_back : S1udf_marshal ((mkIe 91 22 0 (mkS1udf 1 (IpV6 [0; 0; 0; 0; 0; 0; 0; 0; 0; 0; 0; 0; 0; 0; 0; 0])
  0))) = [91; 0; 22; 0; 1; 16; 0; 0; 0; 0; 0; 0; 0; 0; 0; 0; 0; 0; 0; 0; 0; 0; 0; 0; 0; 0].
Proof. vm_compute. reflexivity. Qed.
(* gtpv2/messages/ies/s1udf.rs, s1udf_ie_wrong_ip_address_type *)
Example s1udf__s1udf_ie_wrong_ip_address_type : S1udf_unmarshal Debug [91; 0; 10; 0; 1; 5; 0; 0; 0; 0; 0; 0; 0; 0] = Err (IEIncorrect 91).
Proof. vm_compute. reflexivity. Qed.
(* gtpv2/messages/ies/scefpdnconnections.rs, scef_pdn_connection_ie_unmarshal_test *)
Example scefpdnconnections__scef_pdn_connection_ie_unmarshal_test : ScefPdnConnections_unmarshal (decoder Debug) Debug [195; 0; 79; 0; 71; 0; 13; 0;
  4; 116; 101; 115; 116; 3; 110; 101; 116; 3; 99; 111; 109; 73; 0; 1; 0; 5; 176; 0; 53; 0; 18; 115; 99; 101; 102; 46; 110; 111; 100; 101; 115; 46;
  112; 103; 119; 46; 115; 101; 46; 33; 101; 112; 99; 46; 109; 110; 99; 48; 53; 46; 109; 99; 99; 50; 51; 52; 46; 51; 103; 112; 112; 110; 101; 116; 119;
  111; 114; 107; 46; 111; 114; 103; 46] = Ok (mkIe 195 79 0 (mkScefPdnConnections (mkIe 71 13 0 [116; 101; 115; 116; 46; 110; 101; 116; 46; 99; 111;
  109]) (mkIe 73 1 0 5) (mkIe 176 53 0 (mkNodeIdentifier [115; 99; 101; 102; 46; 110; 111; 100; 101; 115; 46; 112; 103; 119; 46; 115; 101; 46] [101;
  112; 99; 46; 109; 110; 99; 48; 53; 46; 109; 99; 99; 50; 51; 52; 46; 51; 103; 112; 112; 110; 101; 116; 119; 111; 114; 107; 46; 111; 114; 103;
  46])))).
Proof. vm_compute. reflexivity. Qed.
Example scefpdnconnections__scef_pdn_connection_ie_unmarshal_test_back : ScefPdnConnections_marshal ((mkIe 195 79 0 (mkScefPdnConnections (mkIe 71 13
  0 [116; 101; 115; 116; 46; 110; 101; 116; 46; 99; 111; 109]) (mkIe 73 1 0 5) (mkIe 176 53 0 (mkNodeIdentifier [115; 99; 101; 102; 46; 110; 111; 100;
  101; 115; 46; 112; 103; 119; 46; 115; 101; 46] [101; 112; 99; 46; 109; 110; 99; 48; 53; 46; 109; 99; 99; 50; 51; 52; 46; 51; 103; 112; 112; 110;
  101; 116; 119; 111; 114; 107; 46; 111; 114; 103; 46]))))) = [195; 0; 79; 0; 71; 0; 13; 0; 4; 116; 101; 115; 116; 3; 110; 101; 116; 3; 99; 111; 109;
  73; 0; 1; 0; 5; 176; 0; 53; 0; 18; 115; 99; 101; 102; 46; 110; 111; 100; 101; 115; 46; 112; 103; 119; 46; 115; 101; 46; 33; 101; 112; 99; 46; 109;
  110; 99; 48; 53; 46; 109; 99; 99; 50; 51; 52; 46; 51; 103; 112; 112; 110; 101; 116; 119; 111; 114; 107; 46; 111; 114; 103; 46].
Proof. vm_compute. reflexivity. Qed.
(* gtpv2/messages/ies/secondaryratudr.rs, secondary_rat_udr_ie_unmarshal_test *)
Example secondaryratudr__secondary_rat_udr_ie_unmarshal_test : SecondaryRatUsageDataReport_unmarshal Debug [201; 0; 27; 0; 3; 0; 5; 0; 0; 0; 255; 0;
  0; 255; 255; 0; 0; 0; 0; 255; 255; 255; 0; 0; 0; 0; 0; 0; 0; 255; 255] = Ok (mkIe 201 27 0 (mkRatReport true true 0 5 255 65535 4294967040 65535
  None)).
Proof. vm_compute. reflexivity. Qed.
Example secondaryratudr__secondary_rat_udr_ie_unmarshal_test_back : SecondaryRatUsageDataReport_marshal ((mkIe 201 27 0 (mkRatReport true true 0 5 255
  65535 4294967040 65535 None))) = [201; 0; 27; 0; 3; 0; 5; 0; 0; 0; 255; 0; 0; 255; 255; 0; 0; 0; 0; 255; 255; 255; 0; 0; 0; 0; 0; 0; 0; 255; 255].
Proof. vm_compute. reflexivity. Qed.
(* gtpv2/messages/ies/selectionmode.rs, chargingchar_ie_unmarshal_test *)
Example selectionmode__chargingchar_ie_unmarshal_test : SelectionMode_unmarshal Debug [128; 0; 1; 0; 0] = Ok (mkIe 128 1 0 0).
Proof. vm_compute. reflexivity. Qed.
Example selectionmode__chargingchar_ie_unmarshal_test_back : SelectionMode_marshal ((mkIe 128 1 0 0)) = [128; 0; 1; 0; 0].
Proof. vm_compute. reflexivity. Qed.
(* gtpv2/messages/ies/serviceindicator.rs, service_indicator_ie_unmarshal_test *)
Example serviceindicator__service_indicator_ie_unmarshal_test : ServiceIndicator_unmarshal Debug [149; 0; 1; 0; 2] = Ok (mkIe 149 1 0
  ServiceIndication_SmsIndicator).
Proof. vm_compute. reflexivity. Qed.
Example serviceindicator__service_indicator_ie_unmarshal_test_back : ServiceIndicator_marshal ((mkIe 149 1 0 ServiceIndication_SmsIndicator)) = [149;
  0; 1; 0; 2].
Proof. vm_compute. reflexivity. Qed.
(* gtpv2/messages/ies/servicesauthorized.rs, services_auth_ie_unmarshal_test *)
Example servicesauthorized__services_auth_ie_unmarshal_test : ServicesAuthorized_unmarshal Debug [210; 0; 2; 0; 0; 1] = Ok (mkIe 210 2 0
  (mkServicesAuth false true)).
Proof. vm_compute. reflexivity. Qed.
Example servicesauthorized__services_auth_ie_unmarshal_test_back : ServicesAuthorized_marshal ((mkIe 210 2 0 (mkServicesAuth false true))) = [210; 0;
  2; 0; 0; 1].
Proof. vm_compute. reflexivity. Qed.
(* gtpv2/messages/ies/servingnetwork.rs, serving_nw_ie_unmarshal_test *)
Example servingnetwork__serving_nw_ie_unmarshal_test : ServingNetwork_unmarshal Debug [83; 0; 3; 0; 153; 249; 16] = Ok (mkIe 83 3 0 (mkPlmn 999 1
  false)).
Proof. vm_compute. reflexivity. Qed.
Example servingnetwork__serving_nw_ie_unmarshal_test_back : ServingNetwork_marshal ((mkIe 83 3 0 (mkPlmn 999 1 false))) = [83; 0; 3; 0; 153; 249; 16].
Proof. vm_compute. reflexivity. Qed.
(* gtpv2/messages/ies/servingplmnratecontrol.rs, serving_plmn_rate_ctrl_ie_unmarshal_test *)
Example servingplmnratecontrol__serving_plmn_rate_ctrl_ie_unmarshal_test : ServingPlmnRateControl_unmarshal Debug [198; 0; 4; 0; 0; 100; 1; 244] = Ok
  (mkIe 198 4 0 (mkPlmnRate 100 500)).
Proof. vm_compute. reflexivity. Qed.
Example servingplmnratecontrol__serving_plmn_rate_ctrl_ie_unmarshal_test_back : ServingPlmnRateControl_marshal ((mkIe 198 4 0 (mkPlmnRate 100 500))) =
  [198; 0; 4; 0; 0; 100; 1; 244].
Proof. vm_compute. reflexivity. Qed.
(* gtpv2/messages/ies/sgiptptunneladdress.rs, sgi_ptp_tun_address_ie_ipv4_unmarshal_test *)
Example sgiptptunneladdress__sgi_ptp_tun_address_ie_ipv4_unmarshal_test : SgiPtpTunnelAddress_unmarshal Debug [213; 0; 7; 0; 5; 10; 100; 50; 10; 19;
  136] = Ok (mkIe 213 7 0 (mkSgiTunnel (IpV4 [10; 100; 50; 10]) (Some 5000))).
Proof. vm_compute. reflexivity. Qed.
Example sgiptptunneladdress__sgi_ptp_tun_address_ie_ipv4_unmarshal_test_back : SgiPtpTunnelAddress_marshal ((mkIe 213 7 0 (mkSgiTunnel (IpV4 [10; 100;
  50; 10]) (Some 5000)))) = [213; 0; 7; 0; 5; 10; 100; 50; 10; 19; 136].
Proof. vm_compute. reflexivity. Qed.
(* gtpv2/messages/ies/sgiptptunneladdress.rs, sgi_ptp_tun_address_ie_ipv6_unmarshal_test *)
Example sgiptptunneladdress__sgi_ptp_tun_address_ie_ipv6_unmarshal_test : SgiPtpTunnelAddress_unmarshal Debug [213; 0; 17; 0; 2; 0; 255; 0; 255; 0;
  255; 0; 255; 0; 255; 0; 255; 0; 255; 0; 255] = Ok (mkIe 213 17 0 (mkSgiTunnel (IpV6 [0; 255; 0; 255; 0; 255; 0; 255; 0; 255; 0; 255; 0; 255; 0;
  255]) None)).
Proof. vm_compute. reflexivity. Qed.
Example sgiptptunneladdress__sgi_ptp_tun_address_ie_ipv6_unmarshal_test_back : SgiPtpTunnelAddress_marshal ((mkIe 213 17 0 (mkSgiTunnel (IpV6 [0; 255;
  0; 255; 0; 255; 0; 255; 0; 255; 0; 255; 0; 255; 0; 255]) None))) = [213; 0; 17; 0; 2; 0; 255; 0; 255; 0; 255; 0; 255; 0; 255; 0; 255; 0; 255; 0;
  255].
Proof. vm_compute. reflexivity. Qed.
(* gtpv2/messages/ies/sourceid.rs, source_id_ie_source_rnc_id_unmarshal_test *)
Example sourceid__source_id_ie_source_rnc_id_unmarshal_test : SourceIdentification_unmarshal Debug [129; 0; 16; 0; 98; 243; 16; 255; 255; 170; 255;
  170; 1; 98; 243; 16; 255; 170; 16; 2] = Ok (mkIe 129 16 0 (mkSourceId (mkCellId (mkPlmn 263 1 false) 65535 170 65450) (St_Rnc (mkSourceRnc (mkPlmn
  263 1 false) 65450 (Some 4098))))).
Proof. vm_compute. reflexivity. Qed.
Example sourceid__source_id_ie_source_rnc_id_unmarshal_test_back : SourceIdentification_marshal ((mkIe 129 16 0 (mkSourceId (mkCellId (mkPlmn 263 1
  false) 65535 170 65450) (St_Rnc (mkSourceRnc (mkPlmn 263 1 false) 65450 (Some 4098)))))) = [129; 0; 16; 0; 98; 243; 16; 255; 255; 170; 255; 170; 1;
  98; 243; 16; 255; 170; 16; 2].
Proof. vm_compute. reflexivity. Qed.
(* gtpv2/messages/ies/sourceid.rs, source_id_ie_cell_id_unmarshal_test *)
Example sourceid__source_id_ie_cell_id_unmarshal_test : SourceIdentification_unmarshal Debug [129; 0; 17; 0; 98; 243; 64; 16; 2; 2; 0; 16; 0; 98; 243;
  64; 16; 2; 2; 0; 16] = Ok (mkIe 129 17 0 (mkSourceId (mkCellId (mkPlmn 263 4 false) 4098 2 16) (St_Cell (mkCellId (mkPlmn 263 4 false) 4098 2
  16)))).
Proof. vm_compute. reflexivity. Qed.
Example sourceid__source_id_ie_cell_id_unmarshal_test_back : SourceIdentification_marshal ((mkIe 129 17 0 (mkSourceId (mkCellId (mkPlmn 263 4 false)
  4098 2 16) (St_Cell (mkCellId (mkPlmn 263 4 false) 4098 2 16))))) = [129; 0; 17; 0; 98; 243; 64; 16; 2; 2; 0; 16; 0; 98; 243; 64; 16; 2; 2; 0; 16].
Proof. vm_compute. reflexivity. Qed.
(* gtpv2/messages/ies/specialiewithtypeext.rs, iewithietypeext_ie_unmarshal_test *)
Example specialiewithtypeext__iewithietypeext_ie_unmarshal_test : SpecialIEWithTypeExt_unmarshal Debug [254; 0; 4; 0; 1; 1; 255; 255] = Ok (mkIe 254 4
  0 (mkSpecialIe 257 [255; 255])).
Proof. vm_compute. reflexivity. Qed.
Example specialiewithtypeext__iewithietypeext_ie_unmarshal_test_back : SpecialIEWithTypeExt_marshal ((mkIe 254 4 0 (mkSpecialIe 257 [255; 255]))) =
  [254; 0; 4; 0; 1; 1; 255; 255].
Proof. vm_compute. reflexivity. Qed.
(* gtpv2/messages/ies/spi.rs, spi_ie_unmarshal_test *)
Example spi__spi_ie_unmarshal_test : Spi_unmarshal Debug [157; 0; 1; 0; 1] = Ok (mkIe 157 1 0 true).
Proof. vm_compute. reflexivity. Qed.
Example spi__spi_ie_unmarshal_test_back : Spi_marshal ((mkIe 157 1 0 true)) = [157; 0; 1; 0; 1].
Proof. vm_compute. reflexivity. Qed.
(* gtpv2/messages/ies/sqn.rs, sqn_ie_unmarshal_test *)
Example sqn__sqn_ie_unmarshal_test : Sqn_unmarshal Debug [183; 0; 4; 0; 255; 170; 238; 17] = Ok (mkIe 183 4 0 4289392145).
Proof. vm_compute. reflexivity. Qed.
Example sqn__sqn_ie_unmarshal_test_back : Sqn_marshal ((mkIe 183 4 0 4289392145)) = [183; 0; 4; 0; 255; 170; 238; 17].
Proof. vm_compute. reflexivity. Qed.
(* gtpv2/messages/ies/srcrncpdcpctxinfo.rs, src_rnc_pdcp_ie_unmarshal_test *)
Example srcrncpdcpctxinfo__src_rnc_pdcp_ie_unmarshal_test : SourceRncPdcpContextInfo_unmarshal Debug [125; 0; 20; 0; 128; 128; 33; 16; 1; 1; 0; 16;
  129; 6; 0; 0; 0; 0; 131; 6; 0; 0; 0; 0] = Ok (mkIe 125 20 0 [128; 128; 33; 16; 1; 1; 0; 16; 129; 6; 0; 0; 0; 0; 131; 6; 0; 0; 0; 0]).
Proof. vm_compute. reflexivity. Qed.
Example srcrncpdcpctxinfo__src_rnc_pdcp_ie_unmarshal_test_back : SourceRncPdcpContextInfo_marshal ((mkIe 125 20 0 [128; 128; 33; 16; 1; 1; 0; 16; 129;
  6; 0; 0; 0; 0; 131; 6; 0; 0; 0; 0])) = [125; 0; 20; 0; 128; 128; 33; 16; 1; 1; 0; 16; 129; 6; 0; 0; 0; 0; 131; 6; 0; 0; 0; 0].
Proof. vm_compute. reflexivity. Qed.
(* gtpv2/messages/ies/srvcccause.rs, srvcc_cause_ie_unmarshal_test *)
Example srvcccause__srvcc_cause_ie_unmarshal_test : SrvccCause_unmarshal Debug [56; 0; 1; 0; 5] = Ok (mkIe 56 1 0 SrvccCauseValues_UnknownTargetId).
Proof. vm_compute. reflexivity. Qed.
Example srvcccause__srvcc_cause_ie_unmarshal_test_back : SrvccCause_marshal ((mkIe 56 1 0 SrvccCauseValues_UnknownTargetId)) = [56; 0; 1; 0; 5].
Proof. vm_compute. reflexivity. Qed.
(* gtpv2/messages/ies/stnsr.rs, stnsr_ie_unmarshal_test *)
Example stnsr__stnsr_ie_unmarshal_test : StnSr_unmarshal Debug [51; 0; 9; 0; 4; 136; 34; 88; 1; 16; 82; 17; 242] = Ok (mkIe 51 9 0 (mkStnSr 4 [56; 56;
  50; 50; 56; 53; 49; 48; 48; 49; 50; 53; 49; 49; 50])).
Proof. vm_compute. reflexivity. Qed.
Example stnsr__stnsr_ie_unmarshal_test_back : StnSr_marshal ((mkIe 51 9 0 (mkStnSr 4 [56; 56; 50; 50; 56; 53; 49; 48; 48; 49; 50; 53; 49; 49; 50]))) =
  [51; 0; 9; 0; 4; 136; 34; 88; 1; 16; 82; 17; 242].
Proof. vm_compute. reflexivity. Qed.
(* gtpv2/messages/ies/tad.rs, tad_ie_unmarshal_test *)
Example tad__tad_ie_unmarshal_test : TrafficAggregateDescription_unmarshal Debug [85; 0; 4; 0; 0; 0; 0; 0] = Ok (mkIe 85 4 0 [0; 0; 0; 0]).
Proof. vm_compute. reflexivity. Qed.
Example tad__tad_ie_unmarshal_test_back : TrafficAggregateDescription_marshal ((mkIe 85 4 0 [0; 0; 0; 0])) = [85; 0; 4; 0; 0; 0; 0; 0].
Proof. vm_compute. reflexivity. Qed.
(* gtpv2/messages/ies/targetid.rs, target_id_ie_unmarshal_test *)
Example targetid__target_id_ie_unmarshal_test : TargetIdentification_unmarshal Debug [121; 0; 11; 0; 0; 98; 243; 16; 255; 255; 170; 255; 170; 16; 2] =
  Ok (mkIe 121 11 0 (Tt_Rnc (mkRncId (mkRai (mkPlmn 263 1 false) 65535 170) 65450 (Some 4098)))).
Proof. vm_compute. reflexivity. Qed.
Example targetid__target_id_ie_unmarshal_test_back : TargetIdentification_marshal ((mkIe 121 11 0 (Tt_Rnc (mkRncId (mkRai (mkPlmn 263 1 false) 65535
  170) 65450 (Some 4098))))) = [121; 0; 11; 0; 0; 98; 243; 16; 255; 255; 170; 255; 170; 16; 2].
Proof. vm_compute. reflexivity. Qed.
(* gtpv2/messages/ies/targetid.rs, target_id_ie_macro_enb_unmarshal_test *)
Example targetid__target_id_ie_macro_enb_unmarshal_test : TargetIdentification_unmarshal Debug [121; 0; 9; 0; 1; 98; 243; 16; 0; 255; 255; 16; 2] = Ok
  (mkIe 121 9 0 (Tt_MacroeNb (mkMacroTac (mkMacroEnb (mkPlmn 263 1 false) 65535) 4098))).
Proof. vm_compute. reflexivity. Qed.
Example targetid__target_id_ie_macro_enb_unmarshal_test_back : TargetIdentification_marshal ((mkIe 121 9 0 (Tt_MacroeNb (mkMacroTac (mkMacroEnb
  (mkPlmn 263 1 false) 65535) 4098)))) = [121; 0; 9; 0; 1; 98; 243; 16; 0; 255; 255; 16; 2].
Proof. vm_compute. reflexivity. Qed.
(* gtpv2/messages/ies/targetid.rs, target_id_ie_ext_macro_enb_unmarshal_test *)
Example targetid__target_id_ie_ext_macro_enb_unmarshal_test : TargetIdentification_unmarshal Debug [121; 0; 9; 0; 4; 98; 243; 64; 2; 0; 0; 16; 2] = Ok
  (mkIe 121 9 0 (Tt_ExtMacro (mkExtTac (mkExtMacroEnb (mkPlmn 263 4 false) false 131072) 4098))).
Proof. vm_compute. reflexivity. Qed.
Example targetid__target_id_ie_ext_macro_enb_unmarshal_test_back : TargetIdentification_marshal ((mkIe 121 9 0 (Tt_ExtMacro (mkExtTac (mkExtMacroEnb
  (mkPlmn 263 4 false) false 131072) 4098)))) = [121; 0; 9; 0; 4; 98; 243; 64; 2; 0; 0; 16; 2].
Proof. vm_compute. reflexivity. Qed.
(* gtpv2/messages/ies/targetid.rs, target_id_ie_cell_id_unmarshal_test *)
Example targetid__target_id_ie_cell_id_unmarshal_test : TargetIdentification_unmarshal Debug [121; 0; 9; 0; 2; 98; 243; 64; 16; 2; 2; 0; 16] = Ok
  (mkIe 121 9 0 (Tt_Cell (mkCellId (mkPlmn 263 4 false) 4098 2 16))).
Proof. vm_compute. reflexivity. Qed.
Example targetid__target_id_ie_cell_id_unmarshal_test_back : TargetIdentification_marshal ((mkIe 121 9 0 (Tt_Cell (mkCellId (mkPlmn 263 4 false) 4098
  2 16)))) = [121; 0; 9; 0; 2; 98; 243; 64; 16; 2; 2; 0; 16].
Proof. vm_compute. reflexivity. Qed.
(* gtpv2/messages/ies/targetid.rs, target_id_ie_gnodeb_id_unmarshal_test *)
Example targetid__target_id_ie_gnodeb_id_unmarshal_test : TargetIdentification_unmarshal Debug [121; 0; 12; 0; 5; 98; 243; 64; 22; 0; 0; 16; 2; 0; 16;
  2] = Ok (mkIe 121 12 0 (Tt_GNb (mkGnb (mkPlmn 263 4 false) 22 4098 [0; 16; 2]))).
Proof. vm_compute. reflexivity. Qed.
Example targetid__target_id_ie_gnodeb_id_unmarshal_test_back : TargetIdentification_marshal ((mkIe 121 12 0 (Tt_GNb (mkGnb (mkPlmn 263 4 false) 22
  4098 [0; 16; 2])))) = [121; 0; 12; 0; 5; 98; 243; 64; 22; 0; 0; 16; 2; 0; 16; 2].
Proof. vm_compute. reflexivity. Qed.
(* gtpv2/messages/ies/targetid.rs, target_id_ie_macro_gnodeb_id_unmarshal_test *)
Example targetid__target_id_ie_macro_gnodeb_id_unmarshal_test : TargetIdentification_unmarshal Debug [121; 0; 10; 0; 6; 98; 243; 64; 0; 16; 2; 0; 16;
  2] = Ok (mkIe 121 10 0 (Tt_MacroNg (mkMacroNg (mkMacroEnb (mkPlmn 263 4 false) 4098) [0; 16; 2]))).
Proof. vm_compute. reflexivity. Qed.
Example targetid__target_id_ie_macro_gnodeb_id_unmarshal_test_back : TargetIdentification_marshal ((mkIe 121 10 0 (Tt_MacroNg (mkMacroNg (mkMacroEnb
  (mkPlmn 263 4 false) 4098) [0; 16; 2])))) = [121; 0; 10; 0; 6; 98; 243; 64; 0; 16; 2; 0; 16; 2].
Proof. vm_compute. reflexivity. Qed.
(* gtpv2/messages/ies/targetid.rs, target_id_ie_extended_macro_gnodeb_id_unmarshal_test *)
Example targetid__target_id_ie_extended_macro_gnodeb_id_unmarshal_test : TargetIdentification_unmarshal Debug [121; 0; 10; 0; 7; 98; 243; 64; 0; 16;
  2; 0; 16; 2] = Ok (mkIe 121 10 0 (Tt_ExtNg (mkExtNg (mkExtMacroEnb (mkPlmn 263 4 false) false 4098) [0; 16; 2]))).
Proof. vm_compute. reflexivity. Qed.
Example targetid__target_id_ie_extended_macro_gnodeb_id_unmarshal_test_back : TargetIdentification_marshal ((mkIe 121 10 0 (Tt_ExtNg (mkExtNg
  (mkExtMacroEnb (mkPlmn 263 4 false) false 4098) [0; 16; 2])))) = [121; 0; 10; 0; 7; 98; 243; 64; 0; 16; 2; 0; 16; 2].
Proof. vm_compute. reflexivity. Qed.
(* gtpv2/messages/ies/targetid.rs, target_id_ie_engnodeb_id_unmarshal_test *)
Example targetid__target_id_ie_engnodeb_id_unmarshal_test : TargetIdentification_unmarshal Debug [121; 0; 14; 0; 8; 98; 243; 64; 214; 0; 0; 16; 2; 16;
  2; 0; 16; 2] = Ok (mkIe 121 14 0 (Tt_EnGNb (mkEnGnb (mkPlmn 263 4 false) 22 4098 (Some 4098) (Some [0; 16; 2])))).
Proof. vm_compute. reflexivity. Qed.
Example targetid__target_id_ie_engnodeb_id_unmarshal_test_back : TargetIdentification_marshal ((mkIe 121 14 0 (Tt_EnGNb (mkEnGnb (mkPlmn 263 4 false)
  22 4098 (Some 4098) (Some [0; 16; 2]))))) = [121; 0; 14; 0; 8; 98; 243; 64; 214; 0; 0; 16; 2; 16; 2; 0; 16; 2].
Proof. vm_compute. reflexivity. Qed.
(* gtpv2/messages/ies/throttling.rs, throttling_ie_unmarshal_test *)
Example throttling__throttling_ie_unmarshal_test : Throttling_unmarshal Debug [154; 0; 2; 0; 101; 100] = Ok (mkIe 154 2 0 (mkThrottle 3 5 100)).
Proof. vm_compute. reflexivity. Qed.
Example throttling__throttling_ie_unmarshal_test_back : Throttling_marshal ((mkIe 154 2 0 (mkThrottle 3 5 100))) = [154; 0; 2; 0; 101; 100].
Proof. vm_compute. reflexivity. Qed.
(* gtpv2/messages/ies/tmgi.rs, tmgi_ie_unmarshal_test *)
Example tmgi__tmgi_ie_unmarshal_test : Tmgi_unmarshal Debug [158; 0; 6; 0; 0; 1; 2; 3; 4; 5] = Ok (mkIe 158 6 0 [0; 1; 2; 3; 4; 5]).
Proof. vm_compute. reflexivity. Qed.
Example tmgi__tmgi_ie_unmarshal_test_back : Tmgi_marshal ((mkIe 158 6 0 [0; 1; 2; 3; 4; 5])) = [158; 0; 6; 0; 0; 1; 2; 3; 4; 5].
Proof. vm_compute. reflexivity. Qed.
(* gtpv2/messages/ies/tmsi.rs, tmsi_ie_unmarshal_test *)
Example tmsi__tmsi_ie_unmarshal_test : Tmsi_unmarshal Debug [88; 0; 4; 0; 255; 255; 255; 250] = Ok (mkIe 88 4 0 4294967290).
Proof. vm_compute. reflexivity. Qed.
Example tmsi__tmsi_ie_unmarshal_test_back : Tmsi_marshal ((mkIe 88 4 0 4294967290)) = [88; 0; 4; 0; 255; 255; 255; 250].
Proof. vm_compute. reflexivity. Qed.
(* gtpv2/messages/ies/traceinfo.rs, trace_info_ie_unmarshal_test *)
Example traceinfo__trace_info_ie_unmarshal_test : TraceInformation_unmarshal Debug [96; 0; 34; 0; 153; 249; 16; 255; 255; 250; 0; 0; 0; 0; 0; 0; 0; 0;
  0; 170; 170; 9; 0; 0; 0; 0; 0; 0; 0; 0; 0; 0; 0; 0; 139; 7; 133; 184] = Ok (mkIe 96 34 0 (mkTraceInfo (mkPlmn 999 1 false) 16777210 [0; 0; 0; 0; 0;
  0; 0; 0; 0] 43690 9 [0; 0; 0; 0; 0; 0; 0; 0; 0; 0; 0; 0] [139; 7; 133; 184])).
Proof. vm_compute. reflexivity. Qed.
Example traceinfo__trace_info_ie_unmarshal_test_back : TraceInformation_marshal ((mkIe 96 34 0 (mkTraceInfo (mkPlmn 999 1 false) 16777210 [0; 0; 0; 0;
  0; 0; 0; 0; 0] 43690 9 [0; 0; 0; 0; 0; 0; 0; 0; 0; 0; 0; 0] [139; 7; 133; 184]))) = [96; 0; 34; 0; 153; 249; 16; 255; 255; 250; 0; 0; 0; 0; 0; 0; 0;
  0; 0; 170; 170; 9; 0; 0; 0; 0; 0; 0; 0; 0; 0; 0; 0; 0; 139; 7; 133; 184].
Proof. vm_compute. reflexivity. Qed.
(* gtpv2/messages/ies/tracereference.rs, trace_ref_ie_unmarshal_test *)
Example tracereference__trace_ref_ie_unmarshal_test : TraceReference_unmarshal Debug [83; 0; 6; 0; 153; 249; 16; 255; 255; 255] = Ok (mkIe 83 6 0
  (mkTraceRef (mkPlmn 999 1 false) 16777215)).
Proof. vm_compute. reflexivity. Qed.
Example tracereference__trace_ref_ie_unmarshal_test_back : TraceReference_marshal ((mkIe 83 6 0 (mkTraceRef (mkPlmn 999 1 false) 16777215))) = [83; 0;
  6; 0; 153; 249; 16; 255; 255; 255].
Proof. vm_compute. reflexivity. Qed.
(* gtpv2/messages/ies/transactionid.rs, transaction_id_ie_unmarshal_test *)
Example transactionid__transaction_id_ie_unmarshal_test : TransactionIdentifier_unmarshal Debug [137; 0; 2; 0; 128; 7] = Ok (mkIe 137 2 0
  (mkTransactionId true 7)).
Proof. vm_compute. reflexivity. Qed.
Example transactionid__transaction_id_ie_unmarshal_test_back : TransactionIdentifier_marshal ((mkIe 137 2 0 (mkTransactionId true 7))) = [137; 0; 2;
  0; 128; 7].
Proof. vm_compute. reflexivity. Qed.
(* gtpv2/messages/ies/twanid.rs, twan_id_ie_unmarshal_test *)
Example twanid__twan_id_ie_unmarshal_test : TwanId_unmarshal Debug [169; 0; 33; 0; 31; 3; 0; 0; 0; 255; 255; 255; 255; 255; 255; 3; 0; 0; 0; 153; 249;
  16; 4; 116; 101; 115; 116; 0; 4; 255; 255; 255; 255; 3; 170; 170; 170] = Ok (mkIe 169 33 0 (mkTwanId [0; 0; 0] (Some [255; 255; 255; 255; 255; 255])
  (Some [0; 0; 0]) (Some (mkPlmn 999 1 false)) (Some [116; 101; 115; 116]) (Some (0, [255; 255; 255; 255])) (Some [170; 170; 170]))).
Proof. vm_compute. reflexivity. Qed.
Example twanid__twan_id_ie_unmarshal_test_back : TwanId_marshal ((mkIe 169 33 0 (mkTwanId [0; 0; 0] (Some [255; 255; 255; 255; 255; 255]) (Some [0; 0;
  0]) (Some (mkPlmn 999 1 false)) (Some [116; 101; 115; 116]) (Some (0, [255; 255; 255; 255])) (Some [170; 170; 170])))) = [169; 0; 33; 0; 31; 3; 0;
  0; 0; 255; 255; 255; 255; 255; 255; 3; 0; 0; 0; 153; 249; 16; 4; 116; 101; 115; 116; 0; 4; 255; 255; 255; 255; 3; 170; 170; 170].
Proof. vm_compute. reflexivity. Qed.
(* gtpv2/messages/ies/twanidtimestamp.rs, twan_id_timestamp_ie_unmarshal_test *)
Example twanidtimestamp__twan_id_timestamp_ie_unmarshal_test : TwanIdTimeStamp_unmarshal Debug [179; 0; 4; 0; 238; 107; 40; 0] = Ok (mkIe 179 4 0
  4000000000).
Proof. vm_compute. reflexivity. Qed.
Example twanidtimestamp__twan_id_timestamp_ie_unmarshal_test_back : TwanIdTimeStamp_marshal ((mkIe 179 4 0 4000000000)) = [179; 0; 4; 0; 238; 107; 40;
  0].
Proof. vm_compute. reflexivity. Qed.
(* gtpv2/messages/ies/twmi.rs, twmi_ie_unmarshal_test *)
Example twmi__twmi_ie_unmarshal_test : Twmi_unmarshal Debug [174; 0; 1; 0; 2] = Ok (mkIe 174 1 0 (mkTwmi true false)).
Proof. vm_compute. reflexivity. Qed.
Example twmi__twmi_ie_unmarshal_test_back : Twmi_marshal ((mkIe 174 1 0 (mkTwmi true false))) = [174; 0; 1; 0; 2].
Proof. vm_compute. reflexivity. Qed.
(* gtpv2/messages/ies/uci.rs, uci_ie_unmarshal_test *)
Example uci__uci_ie_unmarshal_test : Uci_unmarshal Debug [145; 0; 8; 0; 98; 242; 48; 0; 0; 188; 62; 1] = Ok (mkIe 145 8 0 (mkUci (mkPlmn 262 3 false)
  48190 AccessMode_ClosedMode false Cmi_CsgMembership)).
Proof. vm_compute. reflexivity. Qed.
Example uci__uci_ie_unmarshal_test_back : Uci_marshal ((mkIe 145 8 0 (mkUci (mkPlmn 262 3 false) 48190 AccessMode_ClosedMode false
  Cmi_CsgMembership))) = [145; 0; 8; 0; 98; 242; 48; 0; 0; 188; 62; 1].
Proof. vm_compute. reflexivity. Qed.
(* gtpv2/messages/ies/uetimezone.rs, uetimezone_ie_unmarshal_test *)
Example uetimezone__uetimezone_ie_unmarshal_test : UeTimeZone_unmarshal Debug [114; 0; 2; 0; 4; 1] = Ok (mkIe 114 2 0 (mkUeTimeZone 4 1)).
Proof. vm_compute. reflexivity. Qed.
Example uetimezone__uetimezone_ie_unmarshal_test_back : UeTimeZone_marshal ((mkIe 114 2 0 (mkUeTimeZone 4 1))) = [114; 0; 2; 0; 4; 1].
Proof. vm_compute. reflexivity. Qed.
(* gtpv2/messages/ies/uli.rs, uli_ie_unmarshal_test_tai_ecgi *)
Example uli__uli_ie_unmarshal_test_tai_ecgi : Uli_unmarshal Debug [86; 0; 13; 0; 24; 98; 242; 16; 11; 217; 98; 242; 16; 1; 186; 64; 2] = Ok (mkIe 86
  13 0 [Loc_Tai (mkTai (mkPlmn 262 1 false) 3033); Loc_Ecgi (mkEcgi (mkPlmn 262 1 false) 28983298)]).
Proof. vm_compute. reflexivity. Qed.
Example uli__uli_ie_unmarshal_test_tai_ecgi_back : Uli_marshal ((mkIe 86 13 0 [Loc_Tai (mkTai (mkPlmn 262 1 false) 3033); Loc_Ecgi (mkEcgi (mkPlmn 262
  1 false) 28983298)])) = [86; 0; 13; 0; 24; 98; 242; 16; 11; 217; 98; 242; 16; 1; 186; 64; 2].
Proof. vm_compute. reflexivity. Qed.
(* gtpv2/messages/ies/uli.rs, uli_ie_unmarshal_test_tai_ecgi_invalid_length *)
Example uli__uli_ie_unmarshal_test_tai_ecgi_invalid_length : Uli_unmarshal Debug [86; 0; 13; 0; 24; 98; 242; 16; 11; 217; 98; 242; 1; 186; 64; 2] =
  Err (IEInvalidLength 86).
Proof. vm_compute. reflexivity. Qed.
(* gtpv2/messages/ies/ulitimestamp.rs, uli_timestamp_ie_unmarshal_test *)
Example ulitimestamp__uli_timestamp_ie_unmarshal_test : UliTimestamp_unmarshal Debug [170; 0; 4; 0; 238; 107; 40; 0] = Ok (mkIe 170 4 0 4000000000).
Proof. vm_compute. reflexivity. Qed.
Example ulitimestamp__uli_timestamp_ie_unmarshal_test_back : UliTimestamp_marshal ((mkIe 170 4 0 4000000000)) = [170; 0; 4; 0; 238; 107; 40; 0].
Proof. vm_compute. reflexivity. Qed.
(* gtpv2/messages/ies/unknown.rs, unknown_ie_unmarshal_test *)
Example unknown__unknown_ie_unmarshal_test : Unknown_unmarshal Debug [0; 0; 3; 0; 0; 15; 255] = Ok (mkIe 0 3 0 [0; 15; 255]).
Proof. vm_compute. reflexivity. Qed.
Example unknown__unknown_ie_unmarshal_test_back : Unknown_marshal ((mkIe 0 3 0 [0; 15; 255])) = [0; 0; 3; 0; 0; 15; 255].
Proof. vm_compute. reflexivity. Qed.
(* gtpv2/messages/ies/upfsif.rs, upfsif_ie_unmarshal_test *)
Example upfsif__upfsif_ie_unmarshal_test : UpFunctionSelectionIndicationFlags_unmarshal Debug [202; 0; 1; 0; 1] = Ok (mkIe 202 1 0 true).
Proof. vm_compute. reflexivity. Qed.
Example upfsif__upfsif_ie_unmarshal_test_back : UpFunctionSelectionIndicationFlags_marshal ((mkIe 202 1 0 true)) = [202; 0; 1; 0; 1].
Proof. vm_compute. reflexivity. Qed.
(* gtpv2/messages/ies/upsp.rs, upsp_ie_unmarshal_test *)
Example upsp__upsp_ie_unmarshal_test : UpSecurityPolicy_unmarshal Debug [218; 0; 1; 0; 1] = Ok (mkIe 218 1 0 UpIpPolicy_Preferred).
Proof. vm_compute. reflexivity. Qed.
Example upsp__upsp_ie_unmarshal_test_back : UpSecurityPolicy_marshal ((mkIe 218 1 0 UpIpPolicy_Preferred)) = [218; 0; 1; 0; 1].
Proof. vm_compute. reflexivity. Qed.
(* gtpv2/messages/ies/v2xinformation.rs, v2x_info_ie_unmarshal_test *)
Example v2xinformation__v2x_info_ie_unmarshal_test : V2xInformation_unmarshal (decoder Debug) Debug [208; 0; 70; 0; 210; 0; 2; 0; 0; 1; 210; 0; 2; 1;
  0; 1; 211; 0; 4; 0; 170; 255; 255; 255; 211; 0; 4; 1; 255; 255; 255; 170; 209; 0; 38; 0; 212; 0; 11; 0; 1; 5; 0; 0; 170; 170; 0; 0; 255; 255; 1;
  212; 0; 11; 0; 1; 6; 0; 0; 170; 170; 0; 0; 255; 255; 1; 211; 0; 4; 0; 255; 255; 255; 255] = Ok (mkIe 208 70 0 (mkV2xInformation [mkIe 210 2 0
  (mkServicesAuth false true); mkIe 210 2 1 (mkServicesAuth false true)] [mkIe 211 4 0 2868903935; mkIe 211 4 1 4294967210] (Some (mkIe 209 38 0
  (mkPC5QosParameters [mkIe 212 11 0 (mkPc5Flow 5 43690 65535 (Some 1)); mkIe 212 11 0 (mkPc5Flow 6 43690 65535 (Some 1))] (Some (mkIe 211 4 0
  4294967295))))))).
Proof. vm_compute. reflexivity. Qed.
Example v2xinformation__v2x_info_ie_unmarshal_test_back : V2xInformation_marshal ((mkIe 208 70 0 (mkV2xInformation [mkIe 210 2 0 (mkServicesAuth false
  true); mkIe 210 2 1 (mkServicesAuth false true)] [mkIe 211 4 0 2868903935; mkIe 211 4 1 4294967210] (Some (mkIe 209 38 0 (mkPC5QosParameters [mkIe
  212 11 0 (mkPc5Flow 5 43690 65535 (Some 1)); mkIe 212 11 0 (mkPc5Flow 6 43690 65535 (Some 1))] (Some (mkIe 211 4 0 4294967295)))))))) = [208; 0; 70;
  0; 210; 0; 2; 0; 0; 1; 210; 0; 2; 1; 0; 1; 211; 0; 4; 0; 170; 255; 255; 255; 211; 0; 4; 1; 255; 255; 255; 170; 209; 0; 38; 0; 212; 0; 11; 0; 1; 5;
  0; 0; 170; 170; 0; 0; 255; 255; 1; 212; 0; 11; 0; 1; 6; 0; 0; 170; 170; 0; 0; 255; 255; 1; 211; 0; 4; 0; 255; 255; 255; 255].
Proof. vm_compute. reflexivity. Qed.
(* gtpv2/messages/ies/wlanoffloadindication.rs, wlan_offload_ind_ie_unmarshal_test *)
Example wlanoffloadindication__wlan_offload_ind_ie_unmarshal_test : WlanOffloadIndication_unmarshal Debug [185; 0; 1; 0; 2] = Ok (mkIe 185 1 0
  (mkWlanOffload true false)).
Proof. vm_compute. reflexivity. Qed.
Example wlanoffloadindication__wlan_offload_ind_ie_unmarshal_test_back : WlanOffloadIndication_marshal ((mkIe 185 1 0 (mkWlanOffload true false))) =
  [185; 0; 1; 0; 2].
Proof. vm_compute. reflexivity. Qed.
(* gtpv2/messages/isrstatusindication.rs, test_isr_status_ind_unmarshal *)
Example isrstatusindication__test_isr_status_ind_unmarshal : msg_unmarshal md_isrstatusindication Debug [72; 157; 0; 23; 9; 9; 164; 86; 0; 0; 47; 0;
  168; 0; 1; 0; 3; 255; 0; 6; 0; 0; 0; 1; 98; 156; 196] = Ok (mkMsg (mkHdr2 157 false None 23 (Some 151626838) 47) [[IE_ActionIndication (mkIe 168 1 0
  IndicationValues_PagingStopIndication)]; [IE_PrivateExtension (mkIe 255 6 0 (mkPrivateExt 0 [1; 98; 156; 196]))]]).
Proof. vm_compute. reflexivity. Qed.
Example isrstatusindication__test_isr_status_ind_unmarshal_back : (fun x => msg_marshal md_isrstatusindication x []) ((mkMsg (mkHdr2 157 false None 23
  (Some 151626838) 47) [[IE_ActionIndication (mkIe 168 1 0 IndicationValues_PagingStopIndication)]; [IE_PrivateExtension (mkIe 255 6 0 (mkPrivateExt 0
  [1; 98; 156; 196]))]])) = [72; 157; 0; 23; 9; 9; 164; 86; 0; 0; 47; 0; 168; 0; 1; 0; 3; 255; 0; 6; 0; 0; 0; 1; 98; 156; 196].
Proof. vm_compute. reflexivity. Qed.
(* gtpv2/messages/mbmssessionstartreq.rs, test_mbms_session_start_req_unmarshal *)
Example mbmssessionstartreq__test_mbms_session_start_req_unmarshal : msg_unmarshal md_mbmssessionstartreq Debug [72; 231; 0; 216; 0; 0; 0; 0; 0; 0;
  104; 0; 87; 0; 25; 0; 202; 35; 237; 56; 32; 217; 171; 141; 242; 42; 4; 74; 69; 0; 4; 0; 0; 0; 0; 0; 0; 0; 0; 0; 39; 158; 0; 6; 0; 0; 1; 2; 3; 4; 5;
  138; 0; 3; 0; 0; 200; 10; 139; 0; 5; 0; 1; 0; 0; 255; 255; 140; 0; 1; 0; 10; 141; 0; 2; 0; 10; 15; 80; 0; 22; 0; 100; 9; 0; 0; 0; 0; 0; 0; 0; 0; 0;
  0; 0; 0; 0; 0; 0; 0; 0; 0; 0; 0; 142; 0; 27; 0; 0; 0; 255; 255; 4; 10; 10; 10; 1; 80; 0; 253; 0; 0; 0; 0; 0; 0; 0; 0; 0; 0; 0; 0; 0; 255; 0; 3; 0;
  1; 0; 170; 153; 0; 1; 0; 255; 164; 0; 8; 0; 0; 0; 0; 0; 0; 0; 255; 255; 171; 0; 1; 0; 1; 142; 0; 27; 1; 0; 0; 255; 250; 4; 10; 10; 10; 1; 80; 0;
  253; 0; 0; 0; 0; 0; 0; 0; 0; 0; 0; 0; 0; 0; 255; 0; 190; 0; 23; 0; 0; 3; 98; 242; 16; 1; 186; 64; 2; 98; 242; 16; 1; 186; 64; 3; 98; 242; 16; 1;
  186; 64; 1] = Ok (mkMsg (mkHdr2 231 false None 216 (Some 0) 104) [[IE_Fteid (mkIe 87 25 0 (mkFteid 10 602748960 (Some [217; 171; 141; 242]) (Some
  [42; 4; 74; 69; 0; 4; 0; 0; 0; 0; 0; 0; 0; 0; 0; 39])))]; [IE_Tmgi (mkIe 158 6 0 [0; 1; 2; 3; 4; 5])]; [IE_MbmsSd (mkIe 138 3 0 (mkMbmsSd 400 10))];
  [IE_MbmsSa (mkIe 139 5 0 [0; 65535])]; [IE_MbmsSessionId (mkIe 140 1 0 10)]; [IE_MbmsFlowId (mkIe 141 2 0 2575)]; [IE_BearerQos (mkIe 80 22 0
  (mkBearerQos 0 9 1 9 0 0 0 0))]; [IE_MbmsIpMulticastDistribution (mkIe 142 27 0 (mkMulticast 65535 (IpV4 [10; 10; 10; 1]) (IpV6 [0; 253; 0; 0; 0; 0;
  0; 0; 0; 0; 0; 0; 0; 0; 0; 255]) MbmsHc_UncompressedHeader))]; [IE_Recovery (mkIe 3 1 0 170)]; [IE_MbmsTimeToDataTransfer (mkIe 153 1 0 255)];
  [IE_AbsoluteTimeMbmsDataTransfer (mkIe 164 8 0 65535)]; [IE_MbmsFlags (mkIe 171 1 0 (mkMbmsFlags true false))]; [IE_MbmsIpMulticastDistribution
  (mkIe 142 27 1 (mkMulticast 65530 (IpV4 [10; 10; 10; 1]) (IpV6 [0; 253; 0; 0; 0; 0; 0; 0; 0; 0; 0; 0; 0; 0; 0; 255]) MbmsHc_UncompressedHeader))];
  [IE_EcgiList (mkIe 190 23 0 (Some [mkEcgi (mkPlmn 262 1 false) 28983298; mkEcgi (mkPlmn 262 1 false) 28983299; mkEcgi (mkPlmn 262 1 false)
  28983297]))]; []]).
Proof. vm_compute. reflexivity. Qed.
Example mbmssessionstartreq__test_mbms_session_start_req_unmarshal_back : (fun x => msg_marshal md_mbmssessionstartreq x []) ((mkMsg (mkHdr2 231 false
  None 216 (Some 0) 104) [[IE_Fteid (mkIe 87 25 0 (mkFteid 10 602748960 (Some [217; 171; 141; 242]) (Some [42; 4; 74; 69; 0; 4; 0; 0; 0; 0; 0; 0; 0;
  0; 0; 39])))]; [IE_Tmgi (mkIe 158 6 0 [0; 1; 2; 3; 4; 5])]; [IE_MbmsSd (mkIe 138 3 0 (mkMbmsSd 400 10))]; [IE_MbmsSa (mkIe 139 5 0 [0; 65535])];
  [IE_MbmsSessionId (mkIe 140 1 0 10)]; [IE_MbmsFlowId (mkIe 141 2 0 2575)]; [IE_BearerQos (mkIe 80 22 0 (mkBearerQos 0 9 1 9 0 0 0 0))];
  [IE_MbmsIpMulticastDistribution (mkIe 142 27 0 (mkMulticast 65535 (IpV4 [10; 10; 10; 1]) (IpV6 [0; 253; 0; 0; 0; 0; 0; 0; 0; 0; 0; 0; 0; 0; 0; 255])
  MbmsHc_UncompressedHeader))]; [IE_Recovery (mkIe 3 1 0 170)]; [IE_MbmsTimeToDataTransfer (mkIe 153 1 0 255)]; [IE_AbsoluteTimeMbmsDataTransfer (mkIe
  164 8 0 65535)]; [IE_MbmsFlags (mkIe 171 1 0 (mkMbmsFlags true false))]; [IE_MbmsIpMulticastDistribution (mkIe 142 27 1 (mkMulticast 65530 (IpV4
  [10; 10; 10; 1]) (IpV6 [0; 253; 0; 0; 0; 0; 0; 0; 0; 0; 0; 0; 0; 0; 0; 255]) MbmsHc_UncompressedHeader))]; [IE_EcgiList (mkIe 190 23 0 (Some [mkEcgi
  (mkPlmn 262 1 false) 28983298; mkEcgi (mkPlmn 262 1 false) 28983299; mkEcgi (mkPlmn 262 1 false) 28983297]))]; []])) = [72; 231; 0; 216; 0; 0; 0; 0;
  0; 0; 104; 0; 87; 0; 25; 0; 202; 35; 237; 56; 32; 217; 171; 141; 242; 42; 4; 74; 69; 0; 4; 0; 0; 0; 0; 0; 0; 0; 0; 0; 39; 158; 0; 6; 0; 0; 1; 2; 3;
  4; 5; 138; 0; 3; 0; 0; 200; 10; 139; 0; 5; 0; 1; 0; 0; 255; 255; 140; 0; 1; 0; 10; 141; 0; 2; 0; 10; 15; 80; 0; 22; 0; 100; 9; 0; 0; 0; 0; 0; 0; 0;
  0; 0; 0; 0; 0; 0; 0; 0; 0; 0; 0; 0; 0; 142; 0; 27; 0; 0; 0; 255; 255; 4; 10; 10; 10; 1; 80; 0; 253; 0; 0; 0; 0; 0; 0; 0; 0; 0; 0; 0; 0; 0; 255; 0;
  3; 0; 1; 0; 170; 153; 0; 1; 0; 255; 164; 0; 8; 0; 0; 0; 0; 0; 0; 0; 255; 255; 171; 0; 1; 0; 1; 142; 0; 27; 1; 0; 0; 255; 250; 4; 10; 10; 10; 1; 80;
  0; 253; 0; 0; 0; 0; 0; 0; 0; 0; 0; 0; 0; 0; 0; 255; 0; 190; 0; 23; 0; 0; 3; 98; 242; 16; 1; 186; 64; 2; 98; 242; 16; 1; 186; 64; 3; 98; 242; 16; 1;
  186; 64; 1].
Proof. vm_compute. reflexivity. Qed.
(* gtpv2/messages/mbmssessionstartresp.rs, test_mbms_session_start_resp_unmarshal *)
Example mbmssessionstartresp__test_mbms_session_start_resp_unmarshal : msg_unmarshal md_mbmssessionstartresp Debug [72; 232; 0; 82; 0; 0; 0; 0; 0; 0;
  104; 0; 2; 0; 2; 0; 16; 0; 87; 0; 25; 0; 202; 35; 237; 56; 32; 217; 171; 141; 242; 42; 4; 74; 69; 0; 4; 0; 0; 0; 0; 0; 0; 0; 0; 0; 39; 143; 0; 1; 0;
  2; 87; 0; 25; 1; 202; 35; 237; 56; 32; 217; 171; 141; 242; 42; 4; 74; 69; 0; 4; 0; 0; 0; 0; 0; 0; 0; 0; 0; 39; 3; 0; 1; 0; 170] = Ok (mkMsg (mkHdr2
  232 false None 82 (Some 0) 104) [[IE_Cause (mkIe 2 2 0 (mkCause 16 false false false None))]; [IE_Fteid (mkIe 87 25 0 (mkFteid 10 602748960 (Some
  [217; 171; 141; 242]) (Some [42; 4; 74; 69; 0; 4; 0; 0; 0; 0; 0; 0; 0; 0; 0; 39])))]; [IE_MbmsDistributionAck (mkIe 143 1 0 2)]; [IE_Fteid (mkIe 87
  25 1 (mkFteid 10 602748960 (Some [217; 171; 141; 242]) (Some [42; 4; 74; 69; 0; 4; 0; 0; 0; 0; 0; 0; 0; 0; 0; 39])))]; [IE_Recovery (mkIe 3 1 0
  170)]; []]).
Proof. vm_compute. reflexivity. Qed.
Example mbmssessionstartresp__test_mbms_session_start_resp_unmarshal_back : (fun x => msg_marshal md_mbmssessionstartresp x []) ((mkMsg (mkHdr2 232
  false None 82 (Some 0) 104) [[IE_Cause (mkIe 2 2 0 (mkCause 16 false false false None))]; [IE_Fteid (mkIe 87 25 0 (mkFteid 10 602748960 (Some [217;
  171; 141; 242]) (Some [42; 4; 74; 69; 0; 4; 0; 0; 0; 0; 0; 0; 0; 0; 0; 39])))]; [IE_MbmsDistributionAck (mkIe 143 1 0 2)]; [IE_Fteid (mkIe 87 25 1
  (mkFteid 10 602748960 (Some [217; 171; 141; 242]) (Some [42; 4; 74; 69; 0; 4; 0; 0; 0; 0; 0; 0; 0; 0; 0; 39])))]; [IE_Recovery (mkIe 3 1 0 170)];
  []])) = [72; 232; 0; 82; 0; 0; 0; 0; 0; 0; 104; 0; 2; 0; 2; 0; 16; 0; 87; 0; 25; 0; 202; 35; 237; 56; 32; 217; 171; 141; 242; 42; 4; 74; 69; 0; 4;
  0; 0; 0; 0; 0; 0; 0; 0; 0; 39; 143; 0; 1; 0; 2; 87; 0; 25; 1; 202; 35; 237; 56; 32; 217; 171; 141; 242; 42; 4; 74; 69; 0; 4; 0; 0; 0; 0; 0; 0; 0; 0;
  0; 39; 3; 0; 1; 0; 170].
Proof. vm_compute. reflexivity. Qed.
(* gtpv2/messages/mbmssessionstopreq.rs, test_mbms_session_stop_req_unmarshal *)
Example mbmssessionstopreq__test_mbms_session_stop_req_unmarshal : msg_unmarshal md_mbmssessionstopreq Debug [72; 235; 0; 31; 0; 0; 0; 0; 0; 0; 104;
  0; 141; 0; 2; 0; 10; 15; 164; 0; 8; 0; 0; 0; 0; 0; 0; 0; 255; 255; 171; 0; 1; 0; 1] = Ok (mkMsg (mkHdr2 235 false None 31 (Some 0) 104)
  [[IE_MbmsFlowId (mkIe 141 2 0 2575)]; [IE_AbsoluteTimeMbmsDataTransfer (mkIe 164 8 0 65535)]; [IE_MbmsFlags (mkIe 171 1 0 (mkMbmsFlags true
  false))]; []]).
Proof. vm_compute. reflexivity. Qed.
Example mbmssessionstopreq__test_mbms_session_stop_req_unmarshal_back : (fun x => msg_marshal md_mbmssessionstopreq x []) ((mkMsg (mkHdr2 235 false
  None 31 (Some 0) 104) [[IE_MbmsFlowId (mkIe 141 2 0 2575)]; [IE_AbsoluteTimeMbmsDataTransfer (mkIe 164 8 0 65535)]; [IE_MbmsFlags (mkIe 171 1 0
  (mkMbmsFlags true false))]; []])) = [72; 235; 0; 31; 0; 0; 0; 0; 0; 0; 104; 0; 141; 0; 2; 0; 10; 15; 164; 0; 8; 0; 0; 0; 0; 0; 0; 0; 255; 255; 171;
  0; 1; 0; 1].
Proof. vm_compute. reflexivity. Qed.
(* gtpv2/messages/mbmssessionstopresp.rs, test_mbms_session_stop_resp_unmarshal *)
Example mbmssessionstopresp__test_mbms_session_stop_resp_unmarshal : msg_unmarshal md_mbmssessionstopresp Debug [72; 236; 0; 19; 0; 0; 0; 0; 0; 0;
  104; 0; 2; 0; 2; 0; 16; 0; 3; 0; 1; 0; 170] = Ok (mkMsg (mkHdr2 236 false None 19 (Some 0) 104) [[IE_Cause (mkIe 2 2 0 (mkCause 16 false false false
  None))]; [IE_Recovery (mkIe 3 1 0 170)]; []]).
Proof. vm_compute. reflexivity. Qed.
Example mbmssessionstopresp__test_mbms_session_stop_resp_unmarshal_back : (fun x => msg_marshal md_mbmssessionstopresp x []) ((mkMsg (mkHdr2 236 false
  None 19 (Some 0) 104) [[IE_Cause (mkIe 2 2 0 (mkCause 16 false false false None))]; [IE_Recovery (mkIe 3 1 0 170)]; []])) = [72; 236; 0; 19; 0; 0;
  0; 0; 0; 0; 104; 0; 2; 0; 2; 0; 16; 0; 3; 0; 1; 0; 170].
Proof. vm_compute. reflexivity. Qed.
(* gtpv2/messages/mbmssessionupdatereq.rs, test_mbms_session_update_req_unmarshal *)
Example mbmssessionupdatereq__test_mbms_session_update_req_unmarshal : msg_unmarshal md_mbmssessionupdatereq Debug [72; 233; 0; 144; 0; 0; 0; 0; 0; 0;
  104; 0; 139; 0; 5; 0; 1; 0; 0; 255; 255; 158; 0; 6; 0; 0; 1; 2; 3; 4; 5; 87; 0; 25; 0; 202; 35; 237; 56; 32; 217; 171; 141; 242; 42; 4; 74; 69; 0;
  4; 0; 0; 0; 0; 0; 0; 0; 0; 0; 39; 138; 0; 3; 0; 0; 200; 10; 80; 0; 22; 0; 100; 9; 0; 0; 0; 0; 0; 0; 0; 0; 0; 0; 0; 0; 0; 0; 0; 0; 0; 0; 0; 0; 140;
  0; 1; 0; 10; 141; 0; 2; 0; 10; 15; 153; 0; 1; 0; 255; 164; 0; 8; 0; 0; 0; 0; 0; 0; 0; 255; 255; 190; 0; 23; 0; 0; 3; 98; 242; 16; 1; 186; 64; 2; 98;
  242; 16; 1; 186; 64; 3; 98; 242; 16; 1; 186; 64; 1] = Ok (mkMsg (mkHdr2 233 false None 144 (Some 0) 104) [[IE_MbmsSa (mkIe 139 5 0 [0; 65535])];
  [IE_Tmgi (mkIe 158 6 0 [0; 1; 2; 3; 4; 5])]; [IE_Fteid (mkIe 87 25 0 (mkFteid 10 602748960 (Some [217; 171; 141; 242]) (Some [42; 4; 74; 69; 0; 4;
  0; 0; 0; 0; 0; 0; 0; 0; 0; 39])))]; [IE_MbmsSd (mkIe 138 3 0 (mkMbmsSd 400 10))]; [IE_BearerQos (mkIe 80 22 0 (mkBearerQos 0 9 1 9 0 0 0 0))];
  [IE_MbmsSessionId (mkIe 140 1 0 10)]; [IE_MbmsFlowId (mkIe 141 2 0 2575)]; [IE_MbmsTimeToDataTransfer (mkIe 153 1 0 255)];
  [IE_AbsoluteTimeMbmsDataTransfer (mkIe 164 8 0 65535)]; [IE_EcgiList (mkIe 190 23 0 (Some [mkEcgi (mkPlmn 262 1 false) 28983298; mkEcgi (mkPlmn 262
  1 false) 28983299; mkEcgi (mkPlmn 262 1 false) 28983297]))]; []]).
Proof. vm_compute. reflexivity. Qed.
Example mbmssessionupdatereq__test_mbms_session_update_req_unmarshal_back : (fun x => msg_marshal md_mbmssessionupdatereq x []) ((mkMsg (mkHdr2 233
  false None 144 (Some 0) 104) [[IE_MbmsSa (mkIe 139 5 0 [0; 65535])]; [IE_Tmgi (mkIe 158 6 0 [0; 1; 2; 3; 4; 5])]; [IE_Fteid (mkIe 87 25 0 (mkFteid
  10 602748960 (Some [217; 171; 141; 242]) (Some [42; 4; 74; 69; 0; 4; 0; 0; 0; 0; 0; 0; 0; 0; 0; 39])))]; [IE_MbmsSd (mkIe 138 3 0 (mkMbmsSd 400
  10))]; [IE_BearerQos (mkIe 80 22 0 (mkBearerQos 0 9 1 9 0 0 0 0))]; [IE_MbmsSessionId (mkIe 140 1 0 10)]; [IE_MbmsFlowId (mkIe 141 2 0 2575)];
  [IE_MbmsTimeToDataTransfer (mkIe 153 1 0 255)]; [IE_AbsoluteTimeMbmsDataTransfer (mkIe 164 8 0 65535)]; [IE_EcgiList (mkIe 190 23 0 (Some [mkEcgi
  (mkPlmn 262 1 false) 28983298; mkEcgi (mkPlmn 262 1 false) 28983299; mkEcgi (mkPlmn 262 1 false) 28983297]))]; []])) = [72; 233; 0; 144; 0; 0; 0; 0;
  0; 0; 104; 0; 139; 0; 5; 0; 1; 0; 0; 255; 255; 158; 0; 6; 0; 0; 1; 2; 3; 4; 5; 87; 0; 25; 0; 202; 35; 237; 56; 32; 217; 171; 141; 242; 42; 4; 74;
  69; 0; 4; 0; 0; 0; 0; 0; 0; 0; 0; 0; 39; 138; 0; 3; 0; 0; 200; 10; 80; 0; 22; 0; 100; 9; 0; 0; 0; 0; 0; 0; 0; 0; 0; 0; 0; 0; 0; 0; 0; 0; 0; 0; 0; 0;
  140; 0; 1; 0; 10; 141; 0; 2; 0; 10; 15; 153; 0; 1; 0; 255; 164; 0; 8; 0; 0; 0; 0; 0; 0; 0; 255; 255; 190; 0; 23; 0; 0; 3; 98; 242; 16; 1; 186; 64;
  2; 98; 242; 16; 1; 186; 64; 3; 98; 242; 16; 1; 186; 64; 1].
Proof. vm_compute. reflexivity. Qed.
(* gtpv2/messages/mbmssessionupdateresp.rs, test_mbms_session_update_resp_unmarshal *)
Example mbmssessionupdateresp__test_mbms_session_update_resp_unmarshal : msg_unmarshal md_mbmssessionupdateresp Debug [72; 234; 0; 53; 0; 0; 0; 0; 0;
  0; 104; 0; 2; 0; 2; 0; 16; 0; 143; 0; 1; 0; 2; 87; 0; 25; 0; 202; 35; 237; 56; 32; 217; 171; 141; 242; 42; 4; 74; 69; 0; 4; 0; 0; 0; 0; 0; 0; 0; 0;
  0; 39; 3; 0; 1; 0; 170] = Ok (mkMsg (mkHdr2 234 false None 53 (Some 0) 104) [[IE_Cause (mkIe 2 2 0 (mkCause 16 false false false None))];
  [IE_MbmsDistributionAck (mkIe 143 1 0 2)]; [IE_Fteid (mkIe 87 25 0 (mkFteid 10 602748960 (Some [217; 171; 141; 242]) (Some [42; 4; 74; 69; 0; 4; 0;
  0; 0; 0; 0; 0; 0; 0; 0; 39])))]; [IE_Recovery (mkIe 3 1 0 170)]; []]).
Proof. vm_compute. reflexivity. Qed.
Example mbmssessionupdateresp__test_mbms_session_update_resp_unmarshal_back : (fun x => msg_marshal md_mbmssessionupdateresp x []) ((mkMsg (mkHdr2 234
  false None 53 (Some 0) 104) [[IE_Cause (mkIe 2 2 0 (mkCause 16 false false false None))]; [IE_MbmsDistributionAck (mkIe 143 1 0 2)]; [IE_Fteid (mkIe
  87 25 0 (mkFteid 10 602748960 (Some [217; 171; 141; 242]) (Some [42; 4; 74; 69; 0; 4; 0; 0; 0; 0; 0; 0; 0; 0; 0; 39])))]; [IE_Recovery (mkIe 3 1 0
  170)]; []])) = [72; 234; 0; 53; 0; 0; 0; 0; 0; 0; 104; 0; 2; 0; 2; 0; 16; 0; 143; 0; 1; 0; 2; 87; 0; 25; 0; 202; 35; 237; 56; 32; 217; 171; 141;
  242; 42; 4; 74; 69; 0; 4; 0; 0; 0; 0; 0; 0; 0; 0; 0; 39; 3; 0; 1; 0; 170].
Proof. vm_compute. reflexivity. Qed.
(* gtpv2/messages/modifyaccessbearersreq.rs, test_modify_access_bearers_req_unmarshal *)
Example modifyaccessbearersreq__test_modify_access_bearers_req_unmarshal : msg_unmarshal md_modifyaccessbearersreq Debug [72; 211; 0; 193; 0; 0; 0; 0;
  0; 0; 104; 0; 77; 0; 10; 0; 2; 0; 0; 0; 0; 0; 0; 0; 0; 0; 87; 0; 25; 0; 202; 35; 237; 56; 32; 217; 171; 141; 242; 42; 4; 74; 69; 0; 4; 0; 0; 0; 0;
  0; 0; 0; 0; 0; 39; 92; 0; 1; 0; 5; 93; 0; 31; 0; 73; 0; 1; 0; 5; 80; 0; 22; 0; 100; 9; 0; 0; 0; 0; 0; 0; 0; 0; 0; 0; 0; 0; 0; 0; 0; 0; 0; 0; 0; 0;
  93; 0; 31; 1; 73; 0; 1; 0; 6; 80; 0; 22; 0; 100; 9; 0; 0; 0; 0; 0; 0; 0; 0; 0; 0; 0; 0; 0; 0; 0; 0; 0; 0; 0; 0; 3; 0; 1; 0; 170; 201; 0; 27; 0; 3;
  0; 5; 0; 0; 0; 255; 0; 0; 255; 255; 0; 0; 0; 0; 255; 255; 255; 0; 0; 0; 0; 0; 0; 0; 255; 255; 201; 0; 27; 0; 3; 0; 6; 0; 0; 0; 255; 0; 0; 255; 255;
  0; 0; 0; 0; 255; 255; 255; 0; 0; 0; 0; 0; 0; 0; 255; 255] = Ok (mkMsg (mkHdr2 211 false None 193 (Some 0) 104) [[IE_Indication (mkIe 77 10 0
  (mkIndication false false false false false false true false false false false false false false false false false false false false false false
  false false false false false false false false false false false false false false false false false false false false false false false false
  false false false false false false false false false false false false false false false false false false false false false false false false
  false false false false false))]; [IE_Fteid (mkIe 87 25 0 (mkFteid 10 602748960 (Some [217; 171; 141; 242]) (Some [42; 4; 74; 69; 0; 4; 0; 0; 0; 0;
  0; 0; 0; 0; 0; 39])))]; [IE_DelayValue (mkIe 92 1 0 5)]; [IE_BearerContext (mkIe 93 31 0 (mkBearerContext (mkIe 73 1 0 5) None None [] (Some (mkIe
  80 22 0 (mkBearerQos 0 9 1 9 0 0 0 0))) None None None None None None None None None)); IE_BearerContext (mkIe 93 31 1 (mkBearerContext (mkIe 73 1 0
  6) None None [] (Some (mkIe 80 22 0 (mkBearerQos 0 9 1 9 0 0 0 0))) None None None None None None None None None))]; [IE_Recovery (mkIe 3 1 0 170)];
  [IE_SecondaryRatUsageDataReport (mkIe 201 27 0 (mkRatReport true true 0 5 255 65535 4294967040 65535 None)); IE_SecondaryRatUsageDataReport (mkIe
  201 27 0 (mkRatReport true true 0 6 255 65535 4294967040 65535 None))]; []; []]).
Proof. vm_compute. reflexivity. Qed.
Example modifyaccessbearersreq__test_modify_access_bearers_req_unmarshal_back : (fun x => msg_marshal md_modifyaccessbearersreq x []) ((mkMsg (mkHdr2
  211 false None 193 (Some 0) 104) [[IE_Indication (mkIe 77 10 0 (mkIndication false false false false false false true false false false false false
  false false false false false false false false false false false false false false false false false false false false false false false false
  false false false false false false false false false false false false false false false false false false false false false false false false
  false false false false false false false false false false false false false false false))]; [IE_Fteid (mkIe 87 25 0 (mkFteid 10 602748960 (Some
  [217; 171; 141; 242]) (Some [42; 4; 74; 69; 0; 4; 0; 0; 0; 0; 0; 0; 0; 0; 0; 39])))]; [IE_DelayValue (mkIe 92 1 0 5)]; [IE_BearerContext (mkIe 93 31
  0 (mkBearerContext (mkIe 73 1 0 5) None None [] (Some (mkIe 80 22 0 (mkBearerQos 0 9 1 9 0 0 0 0))) None None None None None None None None None));
  IE_BearerContext (mkIe 93 31 1 (mkBearerContext (mkIe 73 1 0 6) None None [] (Some (mkIe 80 22 0 (mkBearerQos 0 9 1 9 0 0 0 0))) None None None None
  None None None None None))]; [IE_Recovery (mkIe 3 1 0 170)]; [IE_SecondaryRatUsageDataReport (mkIe 201 27 0 (mkRatReport true true 0 5 255 65535
  4294967040 65535 None)); IE_SecondaryRatUsageDataReport (mkIe 201 27 0 (mkRatReport true true 0 6 255 65535 4294967040 65535 None))]; []; []])) =
  [72; 211; 0; 193; 0; 0; 0; 0; 0; 0; 104; 0; 77; 0; 10; 0; 2; 0; 0; 0; 0; 0; 0; 0; 0; 0; 87; 0; 25; 0; 202; 35; 237; 56; 32; 217; 171; 141; 242; 42;
  4; 74; 69; 0; 4; 0; 0; 0; 0; 0; 0; 0; 0; 0; 39; 92; 0; 1; 0; 5; 93; 0; 31; 0; 73; 0; 1; 0; 5; 80; 0; 22; 0; 100; 9; 0; 0; 0; 0; 0; 0; 0; 0; 0; 0; 0;
  0; 0; 0; 0; 0; 0; 0; 0; 0; 93; 0; 31; 1; 73; 0; 1; 0; 6; 80; 0; 22; 0; 100; 9; 0; 0; 0; 0; 0; 0; 0; 0; 0; 0; 0; 0; 0; 0; 0; 0; 0; 0; 0; 0; 3; 0; 1;
  0; 170; 201; 0; 27; 0; 3; 0; 5; 0; 0; 0; 255; 0; 0; 255; 255; 0; 0; 0; 0; 255; 255; 255; 0; 0; 0; 0; 0; 0; 0; 255; 255; 201; 0; 27; 0; 3; 0; 6; 0;
  0; 0; 255; 0; 0; 255; 255; 0; 0; 0; 0; 255; 255; 255; 0; 0; 0; 0; 0; 0; 0; 255; 255].
Proof. vm_compute. reflexivity. Qed.
(* gtpv2/messages/modifyaccessbearersresp.rs, test_modify_access_bearers_resp_unmarshal *)
Example modifyaccessbearersresp__test_modify_access_bearers_resp_unmarshal : msg_unmarshal md_modifyaccessbearersresp Debug [72; 212; 0; 177; 0; 0; 0;
  0; 0; 0; 104; 0; 2; 0; 2; 0; 16; 0; 93; 0; 31; 0; 73; 0; 1; 0; 5; 80; 0; 22; 0; 100; 9; 0; 0; 0; 0; 0; 0; 0; 0; 0; 0; 0; 0; 0; 0; 0; 0; 0; 0; 0; 0;
  93; 0; 31; 1; 73; 0; 1; 0; 6; 80; 0; 22; 0; 100; 9; 0; 0; 0; 0; 0; 0; 0; 0; 0; 0; 0; 0; 0; 0; 0; 0; 0; 0; 0; 0; 3; 0; 1; 0; 170; 77; 0; 10; 0; 2; 0;
  0; 0; 0; 0; 0; 0; 0; 0; 181; 0; 31; 0; 183; 0; 4; 0; 255; 170; 238; 17; 182; 0; 1; 0; 96; 184; 0; 14; 0; 100; 4; 116; 101; 115; 116; 3; 110; 101;
  116; 3; 99; 111; 109; 180; 0; 35; 0; 183; 0; 4; 0; 255; 170; 238; 17; 182; 0; 1; 0; 96; 156; 0; 1; 0; 127; 71; 0; 13; 0; 4; 116; 101; 115; 116; 3;
  110; 101; 116; 3; 99; 111; 109] = Ok (mkMsg (mkHdr2 212 false None 177 (Some 0) 104) [[IE_Cause (mkIe 2 2 0 (mkCause 16 false false false None))];
  [IE_BearerContext (mkIe 93 31 0 (mkBearerContext (mkIe 73 1 0 5) None None [] (Some (mkIe 80 22 0 (mkBearerQos 0 9 1 9 0 0 0 0))) None None None
  None None None None None None)); IE_BearerContext (mkIe 93 31 1 (mkBearerContext (mkIe 73 1 0 6) None None [] (Some (mkIe 80 22 0 (mkBearerQos 0 9 1
  9 0 0 0 0))) None None None None None None None None None))]; [IE_Recovery (mkIe 3 1 0 170)]; [IE_Indication (mkIe 77 10 0 (mkIndication false false
  false false false false true false false false false false false false false false false false false false false false false false false false false
  false false false false false false false false false false false false false false false false false false false false false false false false
  false false false false false false false false false false false false false false false false false false false false false false false false))];
  [IE_LoadControlInfo (mkIe 181 31 0 (mkLoadControl (mkIe 183 4 0 4289392145) (mkIe 182 1 0 96) (Some [mkIe 184 14 0 (mkApnRelCap 100 [116; 101; 115;
  116; 46; 110; 101; 116; 46; 99; 111; 109])])))]; [IE_OverloadControlInfo (mkIe 180 35 0 (mkOverloadControlInfo (mkIe 183 4 0 4289392145) (mkIe 182 1
  0 96) (mkIe 156 1 0 (mkEpcTimer 3 31)) (Some [mkIe 71 13 0 [116; 101; 115; 116; 46; 110; 101; 116; 46; 99; 111; 109]])))]; []]).
Proof. vm_compute. reflexivity. Qed.
Example modifyaccessbearersresp__test_modify_access_bearers_resp_unmarshal_back : (fun x => msg_marshal md_modifyaccessbearersresp x []) ((mkMsg
  (mkHdr2 212 false None 177 (Some 0) 104) [[IE_Cause (mkIe 2 2 0 (mkCause 16 false false false None))]; [IE_BearerContext (mkIe 93 31 0
  (mkBearerContext (mkIe 73 1 0 5) None None [] (Some (mkIe 80 22 0 (mkBearerQos 0 9 1 9 0 0 0 0))) None None None None None None None None None));
  IE_BearerContext (mkIe 93 31 1 (mkBearerContext (mkIe 73 1 0 6) None None [] (Some (mkIe 80 22 0 (mkBearerQos 0 9 1 9 0 0 0 0))) None None None None
  None None None None None))]; [IE_Recovery (mkIe 3 1 0 170)]; [IE_Indication (mkIe 77 10 0 (mkIndication false false false false false false true
  false false false false false false false false false false false false false false false false false false false false false false false false
  false false false false false false false false false false false false false false false false false false false false false false false false
  false false false false false false false false false false false false false false false false false false false false))]; [IE_LoadControlInfo
  (mkIe 181 31 0 (mkLoadControl (mkIe 183 4 0 4289392145) (mkIe 182 1 0 96) (Some [mkIe 184 14 0 (mkApnRelCap 100 [116; 101; 115; 116; 46; 110; 101;
  116; 46; 99; 111; 109])])))]; [IE_OverloadControlInfo (mkIe 180 35 0 (mkOverloadControlInfo (mkIe 183 4 0 4289392145) (mkIe 182 1 0 96) (mkIe 156 1
  0 (mkEpcTimer 3 31)) (Some [mkIe 71 13 0 [116; 101; 115; 116; 46; 110; 101; 116; 46; 99; 111; 109]])))]; []])) = [72; 212; 0; 177; 0; 0; 0; 0; 0; 0;
  104; 0; 2; 0; 2; 0; 16; 0; 93; 0; 31; 0; 73; 0; 1; 0; 5; 80; 0; 22; 0; 100; 9; 0; 0; 0; 0; 0; 0; 0; 0; 0; 0; 0; 0; 0; 0; 0; 0; 0; 0; 0; 0; 93; 0;
  31; 1; 73; 0; 1; 0; 6; 80; 0; 22; 0; 100; 9; 0; 0; 0; 0; 0; 0; 0; 0; 0; 0; 0; 0; 0; 0; 0; 0; 0; 0; 0; 0; 3; 0; 1; 0; 170; 77; 0; 10; 0; 2; 0; 0; 0;
  0; 0; 0; 0; 0; 0; 181; 0; 31; 0; 183; 0; 4; 0; 255; 170; 238; 17; 182; 0; 1; 0; 96; 184; 0; 14; 0; 100; 4; 116; 101; 115; 116; 3; 110; 101; 116; 3;
  99; 111; 109; 180; 0; 35; 0; 183; 0; 4; 0; 255; 170; 238; 17; 182; 0; 1; 0; 96; 156; 0; 1; 0; 127; 71; 0; 13; 0; 4; 116; 101; 115; 116; 3; 110; 101;
  116; 3; 99; 111; 109].
Proof. vm_compute. reflexivity. Qed.
(* gtpv2/messages/modifybearercommand.rs, test_modify_bearer_command_unmarshal *)
Example modifybearercommand__test_modify_bearer_command_unmarshal : msg_unmarshal md_modifybearercommand Debug [72; 64; 0; 112; 0; 0; 0; 0; 0; 0; 104;
  0; 72; 0; 8; 0; 0; 0; 195; 80; 0; 2; 73; 240; 93; 0; 31; 0; 73; 0; 1; 0; 5; 80; 0; 22; 0; 100; 9; 0; 0; 0; 0; 0; 0; 0; 0; 0; 0; 0; 0; 0; 0; 0; 0; 0;
  0; 0; 0; 180; 0; 18; 0; 183; 0; 4; 0; 255; 170; 238; 17; 182; 0; 1; 0; 96; 156; 0; 1; 0; 127; 180; 0; 18; 1; 183; 0; 4; 0; 255; 170; 238; 34; 182;
  0; 1; 0; 96; 156; 0; 1; 0; 126; 87; 0; 9; 0; 134; 6; 209; 130; 76; 193; 254; 139; 45] = Ok (mkMsg (mkHdr2 64 false None 112 (Some 0) 104)
  [[IE_ApnAmbr (mkIe 72 8 0 (mkAmbr 50000 150000))]; [IE_BearerContext (mkIe 93 31 0 (mkBearerContext (mkIe 73 1 0 5) None None [] (Some (mkIe 80 22 0
  (mkBearerQos 0 9 1 9 0 0 0 0))) None None None None None None None None None))]; [IE_OverloadControlInfo (mkIe 180 18 0 (mkOverloadControlInfo (mkIe
  183 4 0 4289392145) (mkIe 182 1 0 96) (mkIe 156 1 0 (mkEpcTimer 3 31)) None)); IE_OverloadControlInfo (mkIe 180 18 1 (mkOverloadControlInfo (mkIe
  183 4 0 4289392162) (mkIe 182 1 0 96) (mkIe 156 1 0 (mkEpcTimer 3 30)) None))]; [IE_Fteid (mkIe 87 9 0 (mkFteid 6 114393676 (Some [193; 254; 139;
  45]) None))]; []]).
Proof. vm_compute. reflexivity. Qed.
Example modifybearercommand__test_modify_bearer_command_unmarshal_back : (fun x => msg_marshal md_modifybearercommand x []) ((mkMsg (mkHdr2 64 false
  None 112 (Some 0) 104) [[IE_ApnAmbr (mkIe 72 8 0 (mkAmbr 50000 150000))]; [IE_BearerContext (mkIe 93 31 0 (mkBearerContext (mkIe 73 1 0 5) None None
  [] (Some (mkIe 80 22 0 (mkBearerQos 0 9 1 9 0 0 0 0))) None None None None None None None None None))]; [IE_OverloadControlInfo (mkIe 180 18 0
  (mkOverloadControlInfo (mkIe 183 4 0 4289392145) (mkIe 182 1 0 96) (mkIe 156 1 0 (mkEpcTimer 3 31)) None)); IE_OverloadControlInfo (mkIe 180 18 1
  (mkOverloadControlInfo (mkIe 183 4 0 4289392162) (mkIe 182 1 0 96) (mkIe 156 1 0 (mkEpcTimer 3 30)) None))]; [IE_Fteid (mkIe 87 9 0 (mkFteid 6
  114393676 (Some [193; 254; 139; 45]) None))]; []])) = [72; 64; 0; 112; 0; 0; 0; 0; 0; 0; 104; 0; 72; 0; 8; 0; 0; 0; 195; 80; 0; 2; 73; 240; 93; 0;
  31; 0; 73; 0; 1; 0; 5; 80; 0; 22; 0; 100; 9; 0; 0; 0; 0; 0; 0; 0; 0; 0; 0; 0; 0; 0; 0; 0; 0; 0; 0; 0; 0; 180; 0; 18; 0; 183; 0; 4; 0; 255; 170; 238;
  17; 182; 0; 1; 0; 96; 156; 0; 1; 0; 127; 180; 0; 18; 1; 183; 0; 4; 0; 255; 170; 238; 34; 182; 0; 1; 0; 96; 156; 0; 1; 0; 126; 87; 0; 9; 0; 134; 6;
  209; 130; 76; 193; 254; 139; 45].
Proof. vm_compute. reflexivity. Qed.
(* gtpv2/messages/modifybearerfailureind.rs, test_modify_bearer_failure_unmarshal *)
Example modifybearerfailureind__test_modify_bearer_failure_unmarshal : msg_unmarshal md_modifybearerfailureind Debug [72; 65; 0; 77; 0; 0; 0; 0; 0; 0;
  104; 0; 2; 0; 2; 0; 14; 0; 3; 0; 1; 0; 4; 77; 0; 10; 0; 1; 0; 0; 0; 0; 0; 1; 0; 0; 0; 180; 0; 18; 0; 183; 0; 4; 0; 255; 170; 238; 17; 182; 0; 1; 0;
  96; 156; 0; 1; 0; 127; 180; 0; 18; 1; 183; 0; 4; 0; 255; 170; 238; 34; 182; 0; 1; 0; 96; 156; 0; 1; 0; 126] = Ok (mkMsg (mkHdr2 65 false None 77
  (Some 0) 104) [[IE_Cause (mkIe 2 2 0 (mkCause 14 false false false None))]; [IE_Recovery (mkIe 3 1 0 4)]; [IE_Indication (mkIe 77 10 0 (mkIndication
  false false false false false false false true false false false false false false false false false false false false false false false false false
  false false false false false false false false false false false false false false false false false false false false false false false false
  false false false false false false true false false false false false false false false false false false false false false false false false false
  false))]; [IE_OverloadControlInfo (mkIe 180 18 0 (mkOverloadControlInfo (mkIe 183 4 0 4289392145) (mkIe 182 1 0 96) (mkIe 156 1 0 (mkEpcTimer 3 31))
  None)); IE_OverloadControlInfo (mkIe 180 18 1 (mkOverloadControlInfo (mkIe 183 4 0 4289392162) (mkIe 182 1 0 96) (mkIe 156 1 0 (mkEpcTimer 3 30))
  None))]; []]).
Proof. vm_compute. reflexivity. Qed.
Example modifybearerfailureind__test_modify_bearer_failure_unmarshal_back : (fun x => msg_marshal md_modifybearerfailureind x []) ((mkMsg (mkHdr2 65
  false None 77 (Some 0) 104) [[IE_Cause (mkIe 2 2 0 (mkCause 14 false false false None))]; [IE_Recovery (mkIe 3 1 0 4)]; [IE_Indication (mkIe 77 10 0
  (mkIndication false false false false false false false true false false false false false false false false false false false false false false
  false false false false false false false false false false false false false false false false false false false false false false false false
  false false false false false false false false false true false false false false false false false false false false false false false false false
  false false false false))]; [IE_OverloadControlInfo (mkIe 180 18 0 (mkOverloadControlInfo (mkIe 183 4 0 4289392145) (mkIe 182 1 0 96) (mkIe 156 1 0
  (mkEpcTimer 3 31)) None)); IE_OverloadControlInfo (mkIe 180 18 1 (mkOverloadControlInfo (mkIe 183 4 0 4289392162) (mkIe 182 1 0 96) (mkIe 156 1 0
  (mkEpcTimer 3 30)) None))]; []])) = [72; 65; 0; 77; 0; 0; 0; 0; 0; 0; 104; 0; 2; 0; 2; 0; 14; 0; 3; 0; 1; 0; 4; 77; 0; 10; 0; 1; 0; 0; 0; 0; 0; 1;
  0; 0; 0; 180; 0; 18; 0; 183; 0; 4; 0; 255; 170; 238; 17; 182; 0; 1; 0; 96; 156; 0; 1; 0; 127; 180; 0; 18; 1; 183; 0; 4; 0; 255; 170; 238; 34; 182;
  0; 1; 0; 96; 156; 0; 1; 0; 126].
Proof. vm_compute. reflexivity. Qed.
(* gtpv2/messages/modifybearerreq.rs, test_modify_bearer_req_unmarshal *)
Example modifybearerreq__test_modify_bearer_req_unmarshal : msg_unmarshal md_modifybearerreq Debug [72; 34; 0; 149; 230; 77; 164; 239; 38; 0; 46; 0;
  75; 0; 8; 0; 104; 73; 41; 80; 1; 80; 148; 112; 82; 0; 1; 0; 6; 86; 0; 13; 0; 24; 50; 244; 2; 13; 89; 50; 244; 2; 0; 197; 88; 2; 83; 0; 3; 0; 50;
  244; 2; 87; 0; 25; 0; 198; 35; 237; 56; 32; 217; 171; 141; 242; 42; 4; 74; 69; 0; 4; 0; 0; 0; 0; 0; 0; 0; 0; 0; 39; 72; 0; 8; 0; 0; 0; 3; 232; 0; 0;
  3; 232; 3; 0; 1; 0; 22; 114; 0; 2; 0; 0; 0; 93; 0; 34; 0; 73; 0; 1; 0; 5; 87; 0; 25; 1; 196; 35; 237; 56; 37; 217; 171; 141; 243; 42; 4; 74; 69; 0;
  4; 0; 0; 0; 0; 0; 0; 0; 0; 0; 40; 255; 0; 6; 0; 7; 219; 7; 0; 1; 0] = Ok (mkMsg (mkHdr2 34 false None 149 (Some 3863848175) 2490414) [[IE_Mei (mkIe
  75 8 0 [56; 54; 57; 52; 57; 50; 48; 53; 49; 48; 48; 53; 52; 57; 48; 55])]; [IE_Uli (mkIe 86 13 0 [Loc_Tai (mkTai (mkPlmn 234 20 false) 3417);
  Loc_Ecgi (mkEcgi (mkPlmn 234 20 false) 12933122)])]; [IE_ServingNetwork (mkIe 83 3 0 (mkPlmn 234 20 false))]; [IE_RatType (mkIe 82 1 0 Rat_Eutran)];
  []; [IE_Fteid (mkIe 87 25 0 (mkFteid 6 602748960 (Some [217; 171; 141; 242]) (Some [42; 4; 74; 69; 0; 4; 0; 0; 0; 0; 0; 0; 0; 0; 0; 39])))];
  [IE_ApnAmbr (mkIe 72 8 0 (mkAmbr 1000 1000))]; []; [IE_BearerContext (mkIe 93 34 0 (mkBearerContext (mkIe 73 1 0 5) None None [mkIe 87 25 1 (mkFteid
  4 602748965 (Some [217; 171; 141; 243]) (Some [42; 4; 74; 69; 0; 4; 0; 0; 0; 0; 0; 0; 0; 0; 0; 40]))] None None None None None None None None None
  None))]; [IE_Recovery (mkIe 3 1 0 22)]; [IE_UeTimeZone (mkIe 114 2 0 (mkUeTimeZone 0 0))]; []; []; []; []; []; []; []; []; []; []; []; []; []; [];
  []; []; []; []; []; []; []; [IE_PrivateExtension (mkIe 255 6 0 (mkPrivateExt 2011 [7; 0; 1; 0]))]]).
Proof. vm_compute. reflexivity. Qed.
(* gtpv2/messages/pgwdownlinktriggeringacknowledge.rs, test_pgw_downlink_triggering_ack_unmarshal *)
Example pgwdownlinktriggeringacknowledge__test_pgw_downlink_triggering_ack_unmarshal : msg_unmarshal md_pgwdownlinktriggeringacknowledge Debug [72;
  104; 0; 44; 9; 9; 164; 86; 0; 0; 47; 0; 2; 0; 2; 0; 16; 0; 1; 0; 8; 0; 153; 65; 85; 1; 145; 22; 120; 243; 74; 0; 4; 0; 100; 20; 20; 10; 255; 0; 6;
  0; 0; 0; 1; 98; 156; 196] = Ok (mkMsg (mkHdr2 104 false None 44 (Some 151626838) 47) [[IE_Cause (mkIe 2 2 0 (mkCause 16 false false false None))];
  [IE_Imsi (mkIe 1 8 0 [57; 57; 49; 52; 53; 53; 49; 48; 49; 57; 54; 49; 56; 55; 51])]; [IE_IpAddress (mkIe 74 4 0 (IpV4 [100; 20; 20; 10]))];
  [IE_PrivateExtension (mkIe 255 6 0 (mkPrivateExt 0 [1; 98; 156; 196]))]]).
Proof. vm_compute. reflexivity. Qed.
Example pgwdownlinktriggeringacknowledge__test_pgw_downlink_triggering_ack_unmarshal_back : (fun x => msg_marshal md_pgwdownlinktriggeringacknowledge
  x []) ((mkMsg (mkHdr2 104 false None 44 (Some 151626838) 47) [[IE_Cause (mkIe 2 2 0 (mkCause 16 false false false None))]; [IE_Imsi (mkIe 1 8 0 [57;
  57; 49; 52; 53; 53; 49; 48; 49; 57; 54; 49; 56; 55; 51])]; [IE_IpAddress (mkIe 74 4 0 (IpV4 [100; 20; 20; 10]))]; [IE_PrivateExtension (mkIe 255 6 0
  (mkPrivateExt 0 [1; 98; 156; 196]))]])) = [72; 104; 0; 44; 9; 9; 164; 86; 0; 0; 47; 0; 2; 0; 2; 0; 16; 0; 1; 0; 8; 0; 153; 65; 85; 1; 145; 22; 120;
  243; 74; 0; 4; 0; 100; 20; 20; 10; 255; 0; 6; 0; 0; 0; 1; 98; 156; 196].
Proof. vm_compute. reflexivity. Qed.
(* gtpv2/messages/pgwdownlinktriggeringnotification.rs, test_pgw_downlink_triggering_notif_unmarshal *)
Example pgwdownlinktriggeringnotification__test_pgw_downlink_triggering_notif_unmarshal : msg_unmarshal md_pgwdownlinktriggeringnotification Debug
  [72; 103; 0; 67; 9; 9; 164; 86; 0; 0; 47; 0; 1; 0; 8; 0; 153; 65; 85; 1; 145; 22; 120; 243; 74; 0; 4; 0; 100; 20; 20; 10; 87; 0; 25; 0; 199; 35;
  237; 56; 32; 217; 171; 141; 242; 42; 4; 74; 69; 0; 4; 0; 0; 0; 0; 0; 0; 0; 0; 0; 39; 255; 0; 6; 0; 0; 0; 1; 98; 156; 196] = Ok (mkMsg (mkHdr2 103
  false None 67 (Some 151626838) 47) [[IE_Imsi (mkIe 1 8 0 [57; 57; 49; 52; 53; 53; 49; 48; 49; 57; 54; 49; 56; 55; 51])]; [IE_IpAddress (mkIe 74 4 0
  (IpV4 [100; 20; 20; 10]))]; [IE_Fteid (mkIe 87 25 0 (mkFteid 7 602748960 (Some [217; 171; 141; 242]) (Some [42; 4; 74; 69; 0; 4; 0; 0; 0; 0; 0; 0;
  0; 0; 0; 39])))]; [IE_PrivateExtension (mkIe 255 6 0 (mkPrivateExt 0 [1; 98; 156; 196]))]]).
Proof. vm_compute. reflexivity. Qed.
Example pgwdownlinktriggeringnotification__test_pgw_downlink_triggering_notif_unmarshal_back : (fun x => msg_marshal
  md_pgwdownlinktriggeringnotification x []) ((mkMsg (mkHdr2 103 false None 67 (Some 151626838) 47) [[IE_Imsi (mkIe 1 8 0 [57; 57; 49; 52; 53; 53; 49;
  48; 49; 57; 54; 49; 56; 55; 51])]; [IE_IpAddress (mkIe 74 4 0 (IpV4 [100; 20; 20; 10]))]; [IE_Fteid (mkIe 87 25 0 (mkFteid 7 602748960 (Some [217;
  171; 141; 242]) (Some [42; 4; 74; 69; 0; 4; 0; 0; 0; 0; 0; 0; 0; 0; 0; 39])))]; [IE_PrivateExtension (mkIe 255 6 0 (mkPrivateExt 0 [1; 98; 156;
  196]))]])) = [72; 103; 0; 67; 9; 9; 164; 86; 0; 0; 47; 0; 1; 0; 8; 0; 153; 65; 85; 1; 145; 22; 120; 243; 74; 0; 4; 0; 100; 20; 20; 10; 87; 0; 25; 0;
  199; 35; 237; 56; 32; 217; 171; 141; 242; 42; 4; 74; 69; 0; 4; 0; 0; 0; 0; 0; 0; 0; 0; 0; 39; 255; 0; 6; 0; 0; 0; 1; 98; 156; 196].
Proof. vm_compute. reflexivity. Qed.
(* gtpv2/messages/pgwrestartnotification.rs, test_pgw_restart_notif_unmarshal *)
Example pgwrestartnotification__test_pgw_restart_notif_unmarshal : msg_unmarshal md_pgwrestartnotification Debug [72; 180; 0; 52; 9; 9; 164; 86; 0; 0;
  47; 0; 74; 0; 4; 0; 100; 20; 20; 10; 74; 0; 16; 1; 0; 253; 0; 0; 0; 0; 0; 0; 0; 0; 0; 0; 0; 0; 0; 0; 2; 0; 2; 0; 16; 0; 255; 0; 6; 0; 0; 0; 1; 98;
  156; 196] = Ok (mkMsg (mkHdr2 180 false None 52 (Some 151626838) 47) [[IE_IpAddress (mkIe 74 4 0 (IpV4 [100; 20; 20; 10]))]; [IE_IpAddress (mkIe 74
  16 1 (IpV6 [0; 253; 0; 0; 0; 0; 0; 0; 0; 0; 0; 0; 0; 0; 0; 0]))]; [IE_Cause (mkIe 2 2 0 (mkCause 16 false false false None))]; [IE_PrivateExtension
  (mkIe 255 6 0 (mkPrivateExt 0 [1; 98; 156; 196]))]]).
Proof. vm_compute. reflexivity. Qed.
Example pgwrestartnotification__test_pgw_restart_notif_unmarshal_back : (fun x => msg_marshal md_pgwrestartnotification x []) ((mkMsg (mkHdr2 180
  false None 52 (Some 151626838) 47) [[IE_IpAddress (mkIe 74 4 0 (IpV4 [100; 20; 20; 10]))]; [IE_IpAddress (mkIe 74 16 1 (IpV6 [0; 253; 0; 0; 0; 0; 0;
  0; 0; 0; 0; 0; 0; 0; 0; 0]))]; [IE_Cause (mkIe 2 2 0 (mkCause 16 false false false None))]; [IE_PrivateExtension (mkIe 255 6 0 (mkPrivateExt 0 [1;
  98; 156; 196]))]])) = [72; 180; 0; 52; 9; 9; 164; 86; 0; 0; 47; 0; 74; 0; 4; 0; 100; 20; 20; 10; 74; 0; 16; 1; 0; 253; 0; 0; 0; 0; 0; 0; 0; 0; 0; 0;
  0; 0; 0; 0; 2; 0; 2; 0; 16; 0; 255; 0; 6; 0; 0; 0; 1; 98; 156; 196].
Proof. vm_compute. reflexivity. Qed.
(* gtpv2/messages/pgwrestartnotificationacknowledge.rs, test_pgw_restart_notif_ack_unmarshal *)
Example pgwrestartnotificationacknowledge__test_pgw_restart_notif_ack_unmarshal : msg_unmarshal md_pgwrestartnotificationacknowledge Debug [72; 180;
  0; 24; 9; 9; 164; 86; 0; 0; 47; 0; 2; 0; 2; 0; 16; 0; 255; 0; 6; 0; 0; 0; 1; 98; 156; 196] = Ok (mkMsg (mkHdr2 180 false None 24 (Some 151626838)
  47) [[IE_Cause (mkIe 2 2 0 (mkCause 16 false false false None))]; [IE_PrivateExtension (mkIe 255 6 0 (mkPrivateExt 0 [1; 98; 156; 196]))]]).
Proof. vm_compute. reflexivity. Qed.
Example pgwrestartnotificationacknowledge__test_pgw_restart_notif_ack_unmarshal_back : (fun x => msg_marshal md_pgwrestartnotificationacknowledge x
  []) ((mkMsg (mkHdr2 180 false None 24 (Some 151626838) 47) [[IE_Cause (mkIe 2 2 0 (mkCause 16 false false false None))]; [IE_PrivateExtension (mkIe
  255 6 0 (mkPrivateExt 0 [1; 98; 156; 196]))]])) = [72; 180; 0; 24; 9; 9; 164; 86; 0; 0; 47; 0; 2; 0; 2; 0; 16; 0; 255; 0; 6; 0; 0; 0; 1; 98; 156;
  196].
Proof. vm_compute. reflexivity. Qed.
(* gtpv2/messages/raninformationrelay.rs, test_ran_info_relay_unmarshal *)
Example raninformationrelay__test_ran_info_relay_unmarshal : msg_unmarshal md_raninformationrelay Debug [72; 152; 0; 40; 9; 9; 164; 86; 0; 0; 47; 0;
  119; 0; 3; 0; 2; 255; 170; 121; 0; 11; 0; 0; 98; 243; 16; 255; 255; 170; 255; 170; 16; 2; 255; 0; 6; 0; 0; 0; 1; 98; 156; 196] = Ok (mkMsg (mkHdr2
  152 false None 40 (Some 151626838) 47) [[IE_Fcause (mkIe 119 3 0 (mkFcause CauseType_Nas [255; 170]))]; [IE_TargetIdentification (mkIe 121 11 0
  (Tt_Rnc (mkRncId (mkRai (mkPlmn 263 1 false) 65535 170) 65450 (Some 4098))))]; [IE_PrivateExtension (mkIe 255 6 0 (mkPrivateExt 0 [1; 98; 156;
  196]))]]).
Proof. vm_compute. reflexivity. Qed.
Example raninformationrelay__test_ran_info_relay_unmarshal_back : (fun x => msg_marshal md_raninformationrelay x []) ((mkMsg (mkHdr2 152 false None 40
  (Some 151626838) 47) [[IE_Fcause (mkIe 119 3 0 (mkFcause CauseType_Nas [255; 170]))]; [IE_TargetIdentification (mkIe 121 11 0 (Tt_Rnc (mkRncId
  (mkRai (mkPlmn 263 1 false) 65535 170) 65450 (Some 4098))))]; [IE_PrivateExtension (mkIe 255 6 0 (mkPrivateExt 0 [1; 98; 156; 196]))]])) = [72; 152;
  0; 40; 9; 9; 164; 86; 0; 0; 47; 0; 119; 0; 3; 0; 2; 255; 170; 121; 0; 11; 0; 0; 98; 243; 16; 255; 255; 170; 255; 170; 16; 2; 255; 0; 6; 0; 0; 0; 1;
  98; 156; 196].
Proof. vm_compute. reflexivity. Qed.
(* gtpv2/messages/releaseaccessbearersreq.rs, test_release_access_bearers_req_unmarshal *)
Example releaseaccessbearersreq__test_release_access_bearers_req_unmarshal : msg_unmarshal md_releaseaccessbearersreq Debug [72; 170; 0; 78; 230; 77;
  164; 239; 38; 0; 46; 0; 73; 0; 1; 0; 5; 73; 0; 1; 0; 6; 135; 0; 1; 0; 0; 77; 0; 10; 0; 0; 0; 0; 64; 0; 0; 0; 0; 0; 0; 201; 0; 27; 0; 3; 0; 5; 0; 0;
  0; 255; 0; 0; 255; 255; 0; 0; 0; 0; 255; 255; 255; 0; 0; 0; 0; 0; 0; 0; 255; 255; 255; 0; 6; 0; 7; 219; 7; 0; 1; 0] = Ok (mkMsg (mkHdr2 170 false
  None 78 (Some 3863848175) 2490414) [[IE_Ebi (mkIe 73 1 0 5); IE_Ebi (mkIe 73 1 0 6)]; [IE_NodeType (mkIe 135 1 0 Node_Mme)]; [IE_Indication (mkIe 77
  10 0 (mkIndication false false false false false false false false false false false false false false false false false false false false false
  false false false false true false false false false false false false false false false false false false false false false false false false false
  false false false false false false false false false false false false false false false false false false false false false false false false
  false false false false false))]; [IE_SecondaryRatUsageDataReport (mkIe 201 27 0 (mkRatReport true true 0 5 255 65535 4294967040 65535 None))]; [];
  [IE_PrivateExtension (mkIe 255 6 0 (mkPrivateExt 2011 [7; 0; 1; 0]))]]).
Proof. vm_compute. reflexivity. Qed.
Example releaseaccessbearersreq__test_release_access_bearers_req_unmarshal_back : (fun x => msg_marshal md_releaseaccessbearersreq x []) ((mkMsg
  (mkHdr2 170 false None 78 (Some 3863848175) 2490414) [[IE_Ebi (mkIe 73 1 0 5); IE_Ebi (mkIe 73 1 0 6)]; [IE_NodeType (mkIe 135 1 0 Node_Mme)];
  [IE_Indication (mkIe 77 10 0 (mkIndication false false false false false false false false false false false false false false false false false
  false false false false false false false false true false false false false false false false false false false false false false false false false
  false false false false false false false false false false false false false false false false false false false false false false false false
  false false false false false false false false false))]; [IE_SecondaryRatUsageDataReport (mkIe 201 27 0 (mkRatReport true true 0 5 255 65535
  4294967040 65535 None))]; []; [IE_PrivateExtension (mkIe 255 6 0 (mkPrivateExt 2011 [7; 0; 1; 0]))]])) = [72; 170; 0; 78; 230; 77; 164; 239; 38; 0;
  46; 0; 73; 0; 1; 0; 5; 73; 0; 1; 0; 6; 135; 0; 1; 0; 0; 77; 0; 10; 0; 0; 0; 0; 64; 0; 0; 0; 0; 0; 0; 201; 0; 27; 0; 3; 0; 5; 0; 0; 0; 255; 0; 0;
  255; 255; 0; 0; 0; 0; 255; 255; 255; 0; 0; 0; 0; 0; 0; 0; 255; 255; 255; 0; 6; 0; 7; 219; 7; 0; 1; 0].
Proof. vm_compute. reflexivity. Qed.
(* gtpv2/messages/releaseaccessbearersresp.rs, test_release_access_bearers_resp_unmarshal *)
Example releaseaccessbearersresp__test_release_access_bearers_resp_unmarshal : msg_unmarshal md_releaseaccessbearersresp Debug [72; 171; 0; 112; 164;
  120; 149; 128; 75; 41; 30; 0; 2; 0; 2; 0; 16; 0; 3; 0; 1; 0; 8; 77; 0; 10; 0; 1; 0; 0; 0; 0; 0; 0; 0; 0; 0; 181; 0; 31; 0; 183; 0; 4; 0; 255; 170;
  238; 17; 182; 0; 1; 0; 96; 184; 0; 14; 0; 100; 4; 116; 101; 115; 116; 3; 110; 101; 116; 3; 99; 111; 109; 180; 0; 18; 0; 183; 0; 4; 0; 255; 170; 238;
  17; 182; 0; 1; 0; 96; 156; 0; 1; 0; 127; 180; 0; 18; 1; 183; 0; 4; 0; 255; 170; 238; 34; 182; 0; 1; 0; 96; 156; 0; 1; 0; 126] = Ok (mkMsg (mkHdr2
  171 false None 112 (Some 2759366016) 4925726) [[IE_Cause (mkIe 2 2 0 (mkCause 16 false false false None))]; [IE_Recovery (mkIe 3 1 0 8)];
  [IE_Indication (mkIe 77 10 0 (mkIndication false false false false false false false true false false false false false false false false false
  false false false false false false false false false false false false false false false false false false false false false false false false
  false false false false false false false false false false false false false false false false false false false false false false false false
  false false false false false false false false false false))]; [IE_LoadControlInfo (mkIe 181 31 0 (mkLoadControl (mkIe 183 4 0 4289392145) (mkIe
  182 1 0 96) (Some [mkIe 184 14 0 (mkApnRelCap 100 [116; 101; 115; 116; 46; 110; 101; 116; 46; 99; 111; 109])])))]; [IE_OverloadControlInfo (mkIe 180
  18 0 (mkOverloadControlInfo (mkIe 183 4 0 4289392145) (mkIe 182 1 0 96) (mkIe 156 1 0 (mkEpcTimer 3 31)) None)); IE_OverloadControlInfo (mkIe 180 18
  1 (mkOverloadControlInfo (mkIe 183 4 0 4289392162) (mkIe 182 1 0 96) (mkIe 156 1 0 (mkEpcTimer 3 30)) None))]; []]).
Proof. vm_compute. reflexivity. Qed.
Example releaseaccessbearersresp__test_release_access_bearers_resp_unmarshal_back : (fun x => msg_marshal md_releaseaccessbearersresp x []) ((mkMsg
  (mkHdr2 171 false None 112 (Some 2759366016) 4925726) [[IE_Cause (mkIe 2 2 0 (mkCause 16 false false false None))]; [IE_Recovery (mkIe 3 1 0 8)];
  [IE_Indication (mkIe 77 10 0 (mkIndication false false false false false false false true false false false false false false false false false
  false false false false false false false false false false false false false false false false false false false false false false false false
  false false false false false false false false false false false false false false false false false false false false false false false false
  false false false false false false false false false false))]; [IE_LoadControlInfo (mkIe 181 31 0 (mkLoadControl (mkIe 183 4 0 4289392145) (mkIe
  182 1 0 96) (Some [mkIe 184 14 0 (mkApnRelCap 100 [116; 101; 115; 116; 46; 110; 101; 116; 46; 99; 111; 109])])))]; [IE_OverloadControlInfo (mkIe 180
  18 0 (mkOverloadControlInfo (mkIe 183 4 0 4289392145) (mkIe 182 1 0 96) (mkIe 156 1 0 (mkEpcTimer 3 31)) None)); IE_OverloadControlInfo (mkIe 180 18
  1 (mkOverloadControlInfo (mkIe 183 4 0 4289392162) (mkIe 182 1 0 96) (mkIe 156 1 0 (mkEpcTimer 3 30)) None))]; []])) = [72; 171; 0; 112; 164; 120;
  149; 128; 75; 41; 30; 0; 2; 0; 2; 0; 16; 0; 3; 0; 1; 0; 8; 77; 0; 10; 0; 1; 0; 0; 0; 0; 0; 0; 0; 0; 0; 181; 0; 31; 0; 183; 0; 4; 0; 255; 170; 238;
  17; 182; 0; 1; 0; 96; 184; 0; 14; 0; 100; 4; 116; 101; 115; 116; 3; 110; 101; 116; 3; 99; 111; 109; 180; 0; 18; 0; 183; 0; 4; 0; 255; 170; 238; 17;
  182; 0; 1; 0; 96; 156; 0; 1; 0; 127; 180; 0; 18; 1; 183; 0; 4; 0; 255; 170; 238; 34; 182; 0; 1; 0; 96; 156; 0; 1; 0; 126].
Proof. vm_compute. reflexivity. Qed.
(* gtpv2/messages/relocationcancelreq.rs, test_reloc_cancel_req_unmarshal *)
Example relocationcancelreq__test_reloc_cancel_req_unmarshal : msg_unmarshal md_relocationcancelreq Debug [72; 139; 0; 63; 9; 9; 164; 86; 0; 0; 47; 0;
  1; 0; 8; 0; 9; 65; 80; 1; 145; 22; 120; 243; 75; 0; 8; 0; 104; 103; 132; 64; 16; 35; 3; 48; 77; 0; 10; 0; 0; 64; 0; 0; 0; 0; 0; 0; 0; 0; 119; 0; 3;
  0; 0; 255; 170; 255; 0; 6; 0; 0; 0; 1; 98; 156; 196] = Ok (mkMsg (mkHdr2 139 false None 63 (Some 151626838) 47) [[IE_Imsi (mkIe 1 8 0 [57; 48; 49;
  52; 48; 53; 49; 48; 49; 57; 54; 49; 56; 55; 51])]; [IE_Mei (mkIe 75 8 0 [56; 54; 55; 54; 52; 56; 48; 52; 48; 49; 51; 50; 51; 48; 48; 51])];
  [IE_Indication (mkIe 77 10 0 (mkIndication false false false false false false false false false true false false false false false false false
  false false false false false false false false false false false false false false false false false false false false false false false false
  false false false false false false false false false false false false false false false false false false false false false false false false
  false false false false false false false false false false))]; [IE_Fcause (mkIe 119 3 0 (mkFcause CauseType_RadioNetworkLayer [255; 170]))];
  [IE_PrivateExtension (mkIe 255 6 0 (mkPrivateExt 0 [1; 98; 156; 196]))]]).
Proof. vm_compute. reflexivity. Qed.
Example relocationcancelreq__test_reloc_cancel_req_unmarshal_back : (fun x => msg_marshal md_relocationcancelreq x []) ((mkMsg (mkHdr2 139 false None
  63 (Some 151626838) 47) [[IE_Imsi (mkIe 1 8 0 [57; 48; 49; 52; 48; 53; 49; 48; 49; 57; 54; 49; 56; 55; 51])]; [IE_Mei (mkIe 75 8 0 [56; 54; 55; 54;
  52; 56; 48; 52; 48; 49; 51; 50; 51; 48; 48; 51])]; [IE_Indication (mkIe 77 10 0 (mkIndication false false false false false false false false false
  true false false false false false false false false false false false false false false false false false false false false false false false false
  false false false false false false false false false false false false false false false false false false false false false false false false
  false false false false false false false false false false false false false false false false false))]; [IE_Fcause (mkIe 119 3 0 (mkFcause
  CauseType_RadioNetworkLayer [255; 170]))]; [IE_PrivateExtension (mkIe 255 6 0 (mkPrivateExt 0 [1; 98; 156; 196]))]])) = [72; 139; 0; 63; 9; 9; 164;
  86; 0; 0; 47; 0; 1; 0; 8; 0; 9; 65; 80; 1; 145; 22; 120; 243; 75; 0; 8; 0; 104; 103; 132; 64; 16; 35; 3; 48; 77; 0; 10; 0; 0; 64; 0; 0; 0; 0; 0; 0;
  0; 0; 119; 0; 3; 0; 0; 255; 170; 255; 0; 6; 0; 0; 0; 1; 98; 156; 196].
Proof. vm_compute. reflexivity. Qed.
(* gtpv2/messages/relocationcancelresp.rs, test_reloc_cancel_resp_unmarshal *)
Example relocationcancelresp__test_reloc_cancel_resp_unmarshal : msg_unmarshal md_relocationcancelresp Debug [72; 140; 0; 24; 164; 120; 149; 128; 75;
  41; 30; 0; 2; 0; 2; 0; 16; 0; 255; 0; 6; 0; 7; 219; 7; 0; 1; 0] = Ok (mkMsg (mkHdr2 140 false None 24 (Some 2759366016) 4925726) [[IE_Cause (mkIe 2
  2 0 (mkCause 16 false false false None))]; [IE_PrivateExtension (mkIe 255 6 0 (mkPrivateExt 2011 [7; 0; 1; 0]))]]).
Proof. vm_compute. reflexivity. Qed.
Example relocationcancelresp__test_reloc_cancel_resp_unmarshal_back : (fun x => msg_marshal md_relocationcancelresp x []) ((mkMsg (mkHdr2 140 false
  None 24 (Some 2759366016) 4925726) [[IE_Cause (mkIe 2 2 0 (mkCause 16 false false false None))]; [IE_PrivateExtension (mkIe 255 6 0 (mkPrivateExt
  2011 [7; 0; 1; 0]))]])) = [72; 140; 0; 24; 164; 120; 149; 128; 75; 41; 30; 0; 2; 0; 2; 0; 16; 0; 255; 0; 6; 0; 7; 219; 7; 0; 1; 0].
Proof. vm_compute. reflexivity. Qed.
(* gtpv2/messages/remoteuereportacknowledge.rs, test_remote_ue_report_ack_unmarshal *)
Example remoteuereportacknowledge__test_remote_ue_report_ack_unmarshal : msg_unmarshal md_remoteuereportacknowledge Debug [72; 41; 0; 24; 9; 9; 164;
  86; 0; 0; 47; 0; 2; 0; 2; 0; 16; 0; 255; 0; 6; 0; 0; 0; 1; 98; 156; 196] = Ok (mkMsg (mkHdr2 41 false None 24 (Some 151626838) 47) [[IE_Cause (mkIe
  2 2 0 (mkCause 16 false false false None))]; [IE_PrivateExtension (mkIe 255 6 0 (mkPrivateExt 0 [1; 98; 156; 196]))]]).
Proof. vm_compute. reflexivity. Qed.
Example remoteuereportacknowledge__test_remote_ue_report_ack_unmarshal_back : (fun x => msg_marshal md_remoteuereportacknowledge x []) ((mkMsg (mkHdr2
  41 false None 24 (Some 151626838) 47) [[IE_Cause (mkIe 2 2 0 (mkCause 16 false false false None))]; [IE_PrivateExtension (mkIe 255 6 0 (mkPrivateExt
  0 [1; 98; 156; 196]))]])) = [72; 41; 0; 24; 9; 9; 164; 86; 0; 0; 47; 0; 2; 0; 2; 0; 16; 0; 255; 0; 6; 0; 0; 0; 1; 98; 156; 196].
Proof. vm_compute. reflexivity. Qed.
(* gtpv2/messages/remoteuereportnotification.rs, test_remote_ue_report_notification_unmarshal *)
Example remoteuereportnotification__test_remote_ue_report_notification_unmarshal : msg_unmarshal md_remoteuereportnotification Debug [72; 40; 0; 153;
  0; 0; 0; 0; 0; 0; 104; 0; 191; 0; 41; 0; 192; 0; 28; 0; 3; 8; 9; 65; 80; 1; 145; 22; 120; 243; 8; 136; 34; 88; 1; 16; 82; 17; 242; 8; 104; 103; 132;
  64; 16; 35; 3; 48; 193; 0; 5; 0; 1; 10; 194; 186; 52; 191; 0; 41; 0; 192; 0; 28; 0; 3; 8; 9; 65; 80; 1; 145; 22; 120; 244; 8; 136; 34; 88; 1; 16;
  82; 17; 243; 8; 104; 103; 132; 64; 16; 35; 3; 64; 193; 0; 5; 0; 1; 10; 194; 186; 53; 191; 0; 41; 1; 192; 0; 28; 0; 3; 8; 9; 65; 80; 1; 145; 22; 120;
  245; 8; 136; 34; 88; 1; 16; 82; 17; 244; 8; 104; 103; 132; 64; 16; 35; 3; 80; 193; 0; 5; 0; 1; 10; 194; 186; 54; 255; 0; 6; 0; 7; 219; 7; 0; 1; 0] =
  Ok (mkMsg (mkHdr2 40 false None 153 (Some 0) 104) [[IE_RemoteUeContext (mkIe 191 41 0 (mkRemoteUeContext (mkIe 192 28 0 (mkRemoteUser [57; 48; 49;
  52; 48; 53; 49; 48; 49; 57; 54; 49; 56; 55; 51] (Some [56; 56; 50; 50; 56; 53; 49; 48; 48; 49; 50; 53; 49; 49; 50]) (Some [56; 54; 55; 54; 52; 56;
  48; 52; 48; 49; 51; 50; 51; 48; 48; 51]))) (Some (mkIe 193 5 0 (Rip_V4 [10; 194; 186; 52]))))); IE_RemoteUeContext (mkIe 191 41 0 (mkRemoteUeContext
  (mkIe 192 28 0 (mkRemoteUser [57; 48; 49; 52; 48; 53; 49; 48; 49; 57; 54; 49; 56; 55; 52] (Some [56; 56; 50; 50; 56; 53; 49; 48; 48; 49; 50; 53; 49;
  49; 51]) (Some [56; 54; 55; 54; 52; 56; 48; 52; 48; 49; 51; 50; 51; 48; 48; 52]))) (Some (mkIe 193 5 0 (Rip_V4 [10; 194; 186; 53])))))];
  [IE_RemoteUeContext (mkIe 191 41 1 (mkRemoteUeContext (mkIe 192 28 0 (mkRemoteUser [57; 48; 49; 52; 48; 53; 49; 48; 49; 57; 54; 49; 56; 55; 53]
  (Some [56; 56; 50; 50; 56; 53; 49; 48; 48; 49; 50; 53; 49; 49; 52]) (Some [56; 54; 55; 54; 52; 56; 48; 52; 48; 49; 51; 50; 51; 48; 48; 53]))) (Some
  (mkIe 193 5 0 (Rip_V4 [10; 194; 186; 54])))))]; [IE_PrivateExtension (mkIe 255 6 0 (mkPrivateExt 2011 [7; 0; 1; 0]))]]).
Proof. vm_compute. reflexivity. Qed.
Example remoteuereportnotification__test_remote_ue_report_notification_unmarshal_back : (fun x => msg_marshal md_remoteuereportnotification x [])
  ((mkMsg (mkHdr2 40 false None 153 (Some 0) 104) [[IE_RemoteUeContext (mkIe 191 41 0 (mkRemoteUeContext (mkIe 192 28 0 (mkRemoteUser [57; 48; 49; 52;
  48; 53; 49; 48; 49; 57; 54; 49; 56; 55; 51] (Some [56; 56; 50; 50; 56; 53; 49; 48; 48; 49; 50; 53; 49; 49; 50]) (Some [56; 54; 55; 54; 52; 56; 48;
  52; 48; 49; 51; 50; 51; 48; 48; 51]))) (Some (mkIe 193 5 0 (Rip_V4 [10; 194; 186; 52]))))); IE_RemoteUeContext (mkIe 191 41 0 (mkRemoteUeContext
  (mkIe 192 28 0 (mkRemoteUser [57; 48; 49; 52; 48; 53; 49; 48; 49; 57; 54; 49; 56; 55; 52] (Some [56; 56; 50; 50; 56; 53; 49; 48; 48; 49; 50; 53; 49;
  49; 51]) (Some [56; 54; 55; 54; 52; 56; 48; 52; 48; 49; 51; 50; 51; 48; 48; 52]))) (Some (mkIe 193 5 0 (Rip_V4 [10; 194; 186; 53])))))];
  [IE_RemoteUeContext (mkIe 191 41 1 (mkRemoteUeContext (mkIe 192 28 0 (mkRemoteUser [57; 48; 49; 52; 48; 53; 49; 48; 49; 57; 54; 49; 56; 55; 53]
  (Some [56; 56; 50; 50; 56; 53; 49; 48; 48; 49; 50; 53; 49; 49; 52]) (Some [56; 54; 55; 54; 52; 56; 48; 52; 48; 49; 51; 50; 51; 48; 48; 53]))) (Some
  (mkIe 193 5 0 (Rip_V4 [10; 194; 186; 54])))))]; [IE_PrivateExtension (mkIe 255 6 0 (mkPrivateExt 2011 [7; 0; 1; 0]))]])) = [72; 40; 0; 153; 0; 0; 0;
  0; 0; 0; 104; 0; 191; 0; 41; 0; 192; 0; 28; 0; 3; 8; 9; 65; 80; 1; 145; 22; 120; 243; 8; 136; 34; 88; 1; 16; 82; 17; 242; 8; 104; 103; 132; 64; 16;
  35; 3; 48; 193; 0; 5; 0; 1; 10; 194; 186; 52; 191; 0; 41; 0; 192; 0; 28; 0; 3; 8; 9; 65; 80; 1; 145; 22; 120; 244; 8; 136; 34; 88; 1; 16; 82; 17;
  243; 8; 104; 103; 132; 64; 16; 35; 3; 64; 193; 0; 5; 0; 1; 10; 194; 186; 53; 191; 0; 41; 1; 192; 0; 28; 0; 3; 8; 9; 65; 80; 1; 145; 22; 120; 245; 8;
  136; 34; 88; 1; 16; 82; 17; 244; 8; 104; 103; 132; 64; 16; 35; 3; 80; 193; 0; 5; 0; 1; 10; 194; 186; 54; 255; 0; 6; 0; 7; 219; 7; 0; 1; 0].
Proof. vm_compute. reflexivity. Qed.
(* gtpv2/messages/resumeacknowledge.rs, test_resume_ack_unmarshal *)
Example resumeacknowledge__test_resume_ack_unmarshal : msg_unmarshal md_resumeacknowledge Debug [72; 165; 0; 24; 164; 120; 149; 128; 75; 41; 30; 0; 2;
  0; 2; 0; 16; 0; 255; 0; 6; 0; 7; 219; 7; 0; 1; 0] = Ok (mkMsg (mkHdr2 165 false None 24 (Some 2759366016) 4925726) [[IE_Cause (mkIe 2 2 0 (mkCause
  16 false false false None))]; [IE_PrivateExtension (mkIe 255 6 0 (mkPrivateExt 2011 [7; 0; 1; 0]))]]).
Proof. vm_compute. reflexivity. Qed.
Example resumeacknowledge__test_resume_ack_unmarshal_back : (fun x => msg_marshal md_resumeacknowledge x []) ((mkMsg (mkHdr2 165 false None 24 (Some
  2759366016) 4925726) [[IE_Cause (mkIe 2 2 0 (mkCause 16 false false false None))]; [IE_PrivateExtension (mkIe 255 6 0 (mkPrivateExt 2011 [7; 0; 1;
  0]))]])) = [72; 165; 0; 24; 164; 120; 149; 128; 75; 41; 30; 0; 2; 0; 2; 0; 16; 0; 255; 0; 6; 0; 7; 219; 7; 0; 1; 0].
Proof. vm_compute. reflexivity. Qed.
(* gtpv2/messages/resumenotification.rs, test_resume_notification_unmarshal *)
Example resumenotification__test_resume_notification_unmarshal : msg_unmarshal md_resumenotification Debug [72; 164; 0; 38; 164; 120; 149; 128; 75;
  41; 30; 0; 1; 0; 8; 0; 9; 65; 80; 1; 145; 22; 120; 243; 73; 0; 1; 0; 5; 87; 0; 9; 0; 134; 6; 209; 130; 76; 193; 254; 139; 45] = Ok (mkMsg (mkHdr2
  164 false None 38 (Some 2759366016) 4925726) [[IE_Imsi (mkIe 1 8 0 [57; 48; 49; 52; 48; 53; 49; 48; 49; 57; 54; 49; 56; 55; 51])]; [IE_Ebi (mkIe 73
  1 0 5)]; []; [IE_Fteid (mkIe 87 9 0 (mkFteid 6 114393676 (Some [193; 254; 139; 45]) None))]; []]).
Proof. vm_compute. reflexivity. Qed.
Example resumenotification__test_resume_notification_unmarshal_back : (fun x => msg_marshal md_resumenotification x []) ((mkMsg (mkHdr2 164 false None
  38 (Some 2759366016) 4925726) [[IE_Imsi (mkIe 1 8 0 [57; 48; 49; 52; 48; 53; 49; 48; 49; 57; 54; 49; 56; 55; 51])]; [IE_Ebi (mkIe 73 1 0 5)]; [];
  [IE_Fteid (mkIe 87 9 0 (mkFteid 6 114393676 (Some [193; 254; 139; 45]) None))]; []])) = [72; 164; 0; 38; 164; 120; 149; 128; 75; 41; 30; 0; 1; 0; 8;
  0; 9; 65; 80; 1; 145; 22; 120; 243; 73; 0; 1; 0; 5; 87; 0; 9; 0; 134; 6; 209; 130; 76; 193; 254; 139; 45].
Proof. vm_compute. reflexivity. Qed.
(* gtpv2/messages/stoppagingindication.rs, test_stop_paging_indication_unmarshal *)
Example stoppagingindication__test_stop_paging_indication_unmarshal : msg_unmarshal md_stoppagingindication Debug [72; 164; 0; 30; 164; 120; 149; 128;
  75; 41; 30; 0; 1; 0; 8; 0; 9; 65; 80; 1; 145; 22; 120; 243; 255; 0; 6; 0; 7; 219; 7; 0; 1; 0] = Ok (mkMsg (mkHdr2 164 false None 30 (Some
  2759366016) 4925726) [[IE_Imsi (mkIe 1 8 0 [57; 48; 49; 52; 48; 53; 49; 48; 49; 57; 54; 49; 56; 55; 51])]; [IE_PrivateExtension (mkIe 255 6 0
  (mkPrivateExt 2011 [7; 0; 1; 0]))]]).
Proof. vm_compute. reflexivity. Qed.
Example stoppagingindication__test_stop_paging_indication_unmarshal_back : (fun x => msg_marshal md_stoppagingindication x []) ((mkMsg (mkHdr2 164
  false None 30 (Some 2759366016) 4925726) [[IE_Imsi (mkIe 1 8 0 [57; 48; 49; 52; 48; 53; 49; 48; 49; 57; 54; 49; 56; 55; 51])]; [IE_PrivateExtension
  (mkIe 255 6 0 (mkPrivateExt 2011 [7; 0; 1; 0]))]])) = [72; 164; 0; 30; 164; 120; 149; 128; 75; 41; 30; 0; 1; 0; 8; 0; 9; 65; 80; 1; 145; 22; 120;
  243; 255; 0; 6; 0; 7; 219; 7; 0; 1; 0].
Proof. vm_compute. reflexivity. Qed.
(* gtpv2/messages/suspendacknowledge.rs, test_suspend_ack_unmarshal *)
Example suspendacknowledge__test_suspend_ack_unmarshal : msg_unmarshal md_suspendacknowledge Debug [72; 163; 0; 24; 164; 120; 149; 128; 75; 41; 30; 0;
  2; 0; 2; 0; 16; 0; 255; 0; 6; 0; 7; 219; 7; 0; 1; 0] = Ok (mkMsg (mkHdr2 163 false None 24 (Some 2759366016) 4925726) [[IE_Cause (mkIe 2 2 0
  (mkCause 16 false false false None))]; [IE_PrivateExtension (mkIe 255 6 0 (mkPrivateExt 2011 [7; 0; 1; 0]))]]).
Proof. vm_compute. reflexivity. Qed.
Example suspendacknowledge__test_suspend_ack_unmarshal_back : (fun x => msg_marshal md_suspendacknowledge x []) ((mkMsg (mkHdr2 163 false None 24
  (Some 2759366016) 4925726) [[IE_Cause (mkIe 2 2 0 (mkCause 16 false false false None))]; [IE_PrivateExtension (mkIe 255 6 0 (mkPrivateExt 2011 [7;
  0; 1; 0]))]])) = [72; 163; 0; 24; 164; 120; 149; 128; 75; 41; 30; 0; 2; 0; 2; 0; 16; 0; 255; 0; 6; 0; 7; 219; 7; 0; 1; 0].
Proof. vm_compute. reflexivity. Qed.
(* gtpv2/messages/suspendnotification.rs, test_suspend_notification_unmarshal *)
Example suspendnotification__test_suspend_notification_unmarshal : msg_unmarshal md_suspendnotification Debug [72; 162; 0; 45; 164; 120; 149; 128; 75;
  41; 30; 0; 73; 0; 1; 0; 5; 74; 0; 4; 0; 62; 107; 88; 94; 126; 0; 2; 0; 13; 16; 113; 0; 1; 0; 8; 87; 0; 9; 0; 134; 6; 209; 130; 76; 193; 254; 139;
  45] = Ok (mkMsg (mkHdr2 162 false None 45 (Some 2759366016) 4925726) [[]; []; [IE_Ebi (mkIe 73 1 0 5)]; []; []; [IE_IpAddress (mkIe 74 4 0 (IpV4
  [62; 107; 88; 94]))]; [IE_PortNumber (mkIe 126 2 0 3344)]; [IE_HopCounter (mkIe 113 1 0 8)]; [IE_Fteid (mkIe 87 9 0 (mkFteid 6 114393676 (Some [193;
  254; 139; 45]) None))]; []]).
Proof. vm_compute. reflexivity. Qed.
Example suspendnotification__test_suspend_notification_unmarshal_back : (fun x => msg_marshal md_suspendnotification x []) ((mkMsg (mkHdr2 162 false
  None 45 (Some 2759366016) 4925726) [[]; []; [IE_Ebi (mkIe 73 1 0 5)]; []; []; [IE_IpAddress (mkIe 74 4 0 (IpV4 [62; 107; 88; 94]))]; [IE_PortNumber
  (mkIe 126 2 0 3344)]; [IE_HopCounter (mkIe 113 1 0 8)]; [IE_Fteid (mkIe 87 9 0 (mkFteid 6 114393676 (Some [193; 254; 139; 45]) None))]; []])) = [72;
  162; 0; 45; 164; 120; 149; 128; 75; 41; 30; 0; 73; 0; 1; 0; 5; 74; 0; 4; 0; 62; 107; 88; 94; 126; 0; 2; 0; 13; 16; 113; 0; 1; 0; 8; 87; 0; 9; 0;
  134; 6; 209; 130; 76; 193; 254; 139; 45].
Proof. vm_compute. reflexivity. Qed.
(* gtpv2/messages/tracesessionactivation.rs, test_trace_session_activation_unmarshal *)
Example tracesessionactivation__test_trace_session_activation_unmarshal : msg_unmarshal md_tracesessionactivation Debug [72; 71; 0; 70; 230; 77; 164;
  239; 38; 0; 46; 0; 1; 0; 8; 0; 9; 65; 80; 1; 145; 22; 120; 243; 96; 0; 34; 0; 153; 249; 16; 255; 255; 250; 0; 0; 0; 0; 0; 0; 0; 0; 0; 170; 170; 9;
  0; 0; 0; 0; 0; 0; 0; 0; 0; 0; 0; 0; 139; 7; 133; 184; 75; 0; 8; 0; 104; 73; 41; 80; 1; 80; 148; 112] = Ok (mkMsg (mkHdr2 71 false None 70 (Some
  3863848175) 2490414) [[IE_Imsi (mkIe 1 8 0 [57; 48; 49; 52; 48; 53; 49; 48; 49; 57; 54; 49; 56; 55; 51])]; [IE_TraceInformation (mkIe 96 34 0
  (mkTraceInfo (mkPlmn 999 1 false) 16777210 [0; 0; 0; 0; 0; 0; 0; 0; 0] 43690 9 [0; 0; 0; 0; 0; 0; 0; 0; 0; 0; 0; 0] [139; 7; 133; 184]))]; [IE_Mei
  (mkIe 75 8 0 [56; 54; 57; 52; 57; 50; 48; 53; 49; 48; 48; 53; 52; 57; 48; 55])]]).
Proof. vm_compute. reflexivity. Qed.
Example tracesessionactivation__test_trace_session_activation_unmarshal_back : (fun x => msg_marshal md_tracesessionactivation x []) ((mkMsg (mkHdr2
  71 false None 70 (Some 3863848175) 2490414) [[IE_Imsi (mkIe 1 8 0 [57; 48; 49; 52; 48; 53; 49; 48; 49; 57; 54; 49; 56; 55; 51])];
  [IE_TraceInformation (mkIe 96 34 0 (mkTraceInfo (mkPlmn 999 1 false) 16777210 [0; 0; 0; 0; 0; 0; 0; 0; 0] 43690 9 [0; 0; 0; 0; 0; 0; 0; 0; 0; 0; 0;
  0] [139; 7; 133; 184]))]; [IE_Mei (mkIe 75 8 0 [56; 54; 57; 52; 57; 50; 48; 53; 49; 48; 48; 53; 52; 57; 48; 55])]])) = [72; 71; 0; 70; 230; 77; 164;
  239; 38; 0; 46; 0; 1; 0; 8; 0; 9; 65; 80; 1; 145; 22; 120; 243; 96; 0; 34; 0; 153; 249; 16; 255; 255; 250; 0; 0; 0; 0; 0; 0; 0; 0; 0; 170; 170; 9;
  0; 0; 0; 0; 0; 0; 0; 0; 0; 0; 0; 0; 139; 7; 133; 184; 75; 0; 8; 0; 104; 73; 41; 80; 1; 80; 148; 112].
Proof. vm_compute. reflexivity. Qed.
(* gtpv2/messages/tracesessiondeactivation.rs, test_trace_session_deactivation_unmarshal *)
Example tracesessiondeactivation__test_trace_session_deactivation_unmarshal : msg_unmarshal md_tracesessiondeactivation Debug [72; 72; 0; 46; 230; 77;
  164; 239; 38; 0; 46; 0; 96; 0; 34; 0; 153; 249; 16; 255; 255; 250; 0; 0; 0; 0; 0; 0; 0; 0; 0; 170; 170; 9; 0; 0; 0; 0; 0; 0; 0; 0; 0; 0; 0; 0; 139;
  7; 133; 184] = Ok (mkMsg (mkHdr2 72 false None 46 (Some 3863848175) 2490414) [[IE_TraceInformation (mkIe 96 34 0 (mkTraceInfo (mkPlmn 999 1 false)
  16777210 [0; 0; 0; 0; 0; 0; 0; 0; 0] 43690 9 [0; 0; 0; 0; 0; 0; 0; 0; 0; 0; 0; 0] [139; 7; 133; 184]))]]).
Proof. vm_compute. reflexivity. Qed.
Example tracesessiondeactivation__test_trace_session_deactivation_unmarshal_back : (fun x => msg_marshal md_tracesessiondeactivation x []) ((mkMsg
  (mkHdr2 72 false None 46 (Some 3863848175) 2490414) [[IE_TraceInformation (mkIe 96 34 0 (mkTraceInfo (mkPlmn 999 1 false) 16777210 [0; 0; 0; 0; 0;
  0; 0; 0; 0] 43690 9 [0; 0; 0; 0; 0; 0; 0; 0; 0; 0; 0; 0] [139; 7; 133; 184]))]])) = [72; 72; 0; 46; 230; 77; 164; 239; 38; 0; 46; 0; 96; 0; 34; 0;
  153; 249; 16; 255; 255; 250; 0; 0; 0; 0; 0; 0; 0; 0; 0; 170; 170; 9; 0; 0; 0; 0; 0; 0; 0; 0; 0; 0; 0; 0; 139; 7; 133; 184].
Proof. vm_compute. reflexivity. Qed.
(* gtpv2/messages/ueactivityacknowledge.rs, test_ue_activity_ack_unmarshal *)
Example ueactivityacknowledge__test_ue_activity_ack_unmarshal : msg_unmarshal md_ueactivityacknowledge Debug [72; 156; 0; 24; 164; 120; 149; 128; 75;
  41; 30; 0; 2; 0; 2; 0; 16; 0; 255; 0; 6; 0; 7; 219; 7; 0; 1; 0] = Ok (mkMsg (mkHdr2 156 false None 24 (Some 2759366016) 4925726) [[IE_Cause (mkIe 2
  2 0 (mkCause 16 false false false None))]; [IE_PrivateExtension (mkIe 255 6 0 (mkPrivateExt 2011 [7; 0; 1; 0]))]]).
Proof. vm_compute. reflexivity. Qed.
Example ueactivityacknowledge__test_ue_activity_ack_unmarshal_back : (fun x => msg_marshal md_ueactivityacknowledge x []) ((mkMsg (mkHdr2 156 false
  None 24 (Some 2759366016) 4925726) [[IE_Cause (mkIe 2 2 0 (mkCause 16 false false false None))]; [IE_PrivateExtension (mkIe 255 6 0 (mkPrivateExt
  2011 [7; 0; 1; 0]))]])) = [72; 156; 0; 24; 164; 120; 149; 128; 75; 41; 30; 0; 2; 0; 2; 0; 16; 0; 255; 0; 6; 0; 7; 219; 7; 0; 1; 0].
Proof. vm_compute. reflexivity. Qed.
(* gtpv2/messages/ueactivitynotification.rs, test_ue_activity_notification_unmarshal *)
Example ueactivitynotification__test_ue_activity_notification_unmarshal : msg_unmarshal md_ueactivitynotification Debug [72; 155; 0; 18; 164; 120;
  149; 128; 75; 41; 30; 0; 255; 0; 6; 0; 7; 219; 7; 0; 1; 0] = Ok (mkMsg (mkHdr2 155 false None 18 (Some 2759366016) 4925726) [[IE_PrivateExtension
  (mkIe 255 6 0 (mkPrivateExt 2011 [7; 0; 1; 0]))]]).
Proof. vm_compute. reflexivity. Qed.
Example ueactivitynotification__test_ue_activity_notification_unmarshal_back : (fun x => msg_marshal md_ueactivitynotification x []) ((mkMsg (mkHdr2
  155 false None 18 (Some 2759366016) 4925726) [[IE_PrivateExtension (mkIe 255 6 0 (mkPrivateExt 2011 [7; 0; 1; 0]))]])) = [72; 155; 0; 18; 164; 120;
  149; 128; 75; 41; 30; 0; 255; 0; 6; 0; 7; 219; 7; 0; 1; 0].
Proof. vm_compute. reflexivity. Qed.
(* gtpv2/messages/ueregistrationqueryreq.rs, test_ue_reg_query_req_unmarshal *)
Example ueregistrationqueryreq__test_ue_reg_query_req_unmarshal : msg_unmarshal md_ueregistrationqueryreq Debug [72; 158; 0; 28; 9; 9; 164; 86; 0; 0;
  47; 0; 1; 0; 6; 0; 9; 65; 80; 1; 1; 55; 255; 0; 6; 0; 0; 0; 1; 98; 156; 196] = Ok (mkMsg (mkHdr2 158 false None 28 (Some 151626838) 47) [[IE_Imsi
  (mkIe 1 6 0 [57; 48; 49; 52; 48; 53; 49; 48; 49; 48; 55; 51])]; [IE_PrivateExtension (mkIe 255 6 0 (mkPrivateExt 0 [1; 98; 156; 196]))]]).
Proof. vm_compute. reflexivity. Qed.
Example ueregistrationqueryreq__test_ue_reg_query_req_unmarshal_back : (fun x => msg_marshal md_ueregistrationqueryreq x []) ((mkMsg (mkHdr2 158 false
  None 28 (Some 151626838) 47) [[IE_Imsi (mkIe 1 6 0 [57; 48; 49; 52; 48; 53; 49; 48; 49; 48; 55; 51])]; [IE_PrivateExtension (mkIe 255 6 0
  (mkPrivateExt 0 [1; 98; 156; 196]))]])) = [72; 158; 0; 28; 9; 9; 164; 86; 0; 0; 47; 0; 1; 0; 6; 0; 9; 65; 80; 1; 1; 55; 255; 0; 6; 0; 0; 0; 1; 98;
  156; 196].
Proof. vm_compute. reflexivity. Qed.
(* gtpv2/messages/ueregistrationqueryresp.rs, test_ue_reg_query_resp_unmarshal *)
Example ueregistrationqueryresp__test_ue_reg_query_resp_unmarshal : msg_unmarshal md_ueregistrationqueryresp Debug [72; 159; 0; 41; 9; 9; 164; 86; 0;
  0; 47; 0; 2; 0; 2; 0; 16; 0; 1; 0; 6; 0; 9; 65; 80; 1; 1; 55; 120; 0; 3; 0; 153; 249; 16; 255; 0; 6; 0; 0; 0; 1; 98; 156; 196] = Ok (mkMsg (mkHdr2
  159 false None 41 (Some 151626838) 47) [[IE_Cause (mkIe 2 2 0 (mkCause 16 false false false None))]; [IE_Imsi (mkIe 1 6 0 [57; 48; 49; 52; 48; 53;
  49; 48; 49; 48; 55; 51])]; [IE_PlmnId (mkIe 120 3 0 (mkPlmn 999 1 false))]; [IE_PrivateExtension (mkIe 255 6 0 (mkPrivateExt 0 [1; 98; 156;
  196]))]]).
Proof. vm_compute. reflexivity. Qed.
Example ueregistrationqueryresp__test_ue_reg_query_resp_unmarshal_back : (fun x => msg_marshal md_ueregistrationqueryresp x []) ((mkMsg (mkHdr2 159
  false None 41 (Some 151626838) 47) [[IE_Cause (mkIe 2 2 0 (mkCause 16 false false false None))]; [IE_Imsi (mkIe 1 6 0 [57; 48; 49; 52; 48; 53; 49;
  48; 49; 48; 55; 51])]; [IE_PlmnId (mkIe 120 3 0 (mkPlmn 999 1 false))]; [IE_PrivateExtension (mkIe 255 6 0 (mkPrivateExt 0 [1; 98; 156; 196]))]])) =
  [72; 159; 0; 41; 9; 9; 164; 86; 0; 0; 47; 0; 2; 0; 2; 0; 16; 0; 1; 0; 6; 0; 9; 65; 80; 1; 1; 55; 120; 0; 3; 0; 153; 249; 16; 255; 0; 6; 0; 0; 0; 1;
  98; 156; 196].
Proof. vm_compute. reflexivity. Qed.
(* gtpv2/messages/updatebearerreq.rs, test_update_bearer_req_unmarshal *)
Example updatebearerreq__test_update_bearer_req_unmarshal : msg_unmarshal md_updatebearerreq Debug [72; 97; 0; 159; 9; 9; 164; 86; 0; 0; 47; 0; 93; 0;
  52; 0; 73; 0; 1; 0; 0; 87; 0; 9; 2; 133; 59; 149; 152; 90; 62; 153; 137; 85; 80; 0; 22; 0; 44; 9; 0; 0; 0; 0; 0; 0; 0; 0; 0; 0; 0; 0; 0; 0; 0; 0; 0;
  0; 0; 0; 94; 0; 4; 0; 1; 98; 156; 196; 100; 0; 1; 0; 250; 78; 0; 19; 0; 128; 128; 33; 16; 2; 0; 0; 16; 129; 6; 8; 8; 8; 8; 6; 10; 64; 208; 97; 72;
  0; 8; 0; 0; 0; 195; 80; 0; 2; 73; 240; 132; 0; 7; 0; 1; 139; 7; 133; 184; 255; 255; 180; 0; 18; 0; 183; 0; 4; 0; 255; 170; 238; 17; 182; 0; 1; 0;
  96; 156; 0; 1; 0; 127; 180; 0; 18; 1; 183; 0; 4; 0; 255; 170; 238; 34; 182; 0; 1; 0; 96; 156; 0; 1; 0; 126] = Ok (mkMsg (mkHdr2 97 false None 159
  (Some 151626838) 47) [[IE_BearerContext (mkIe 93 52 0 (mkBearerContext (mkIe 73 1 0 0) None None [mkIe 87 9 2 (mkFteid 5 999659610 (Some [62; 153;
  137; 85]) None)] (Some (mkIe 80 22 0 (mkBearerQos 0 11 0 9 0 0 0 0))) (Some (mkIe 94 4 0 23239876)) None None None None None None None None))];
  [IE_Pti (mkIe 100 1 0 250)]; [IE_Pco (mkIe 78 19 0 [128; 128; 33; 16; 2; 0; 0; 16; 129; 6; 8; 8; 8; 8; 6; 10; 64; 208; 97])]; [IE_ApnAmbr (mkIe 72 8
  0 (mkAmbr 50000 150000))]; []; []; []; []; [IE_Fqcsid (mkIe 132 7 0 (mkFqcsid (NodeV4 [139; 7; 133; 184]) [65535]))]; []; []; [];
  [IE_OverloadControlInfo (mkIe 180 18 0 (mkOverloadControlInfo (mkIe 183 4 0 4289392145) (mkIe 182 1 0 96) (mkIe 156 1 0 (mkEpcTimer 3 31)) None));
  IE_OverloadControlInfo (mkIe 180 18 1 (mkOverloadControlInfo (mkIe 183 4 0 4289392162) (mkIe 182 1 0 96) (mkIe 156 1 0 (mkEpcTimer 3 30)) None))];
  []; []; []; []]).
Proof. vm_compute. reflexivity. Qed.
Example updatebearerreq__test_update_bearer_req_unmarshal_back : (fun x => msg_marshal md_updatebearerreq x []) ((mkMsg (mkHdr2 97 false None 159
  (Some 151626838) 47) [[IE_BearerContext (mkIe 93 52 0 (mkBearerContext (mkIe 73 1 0 0) None None [mkIe 87 9 2 (mkFteid 5 999659610 (Some [62; 153;
  137; 85]) None)] (Some (mkIe 80 22 0 (mkBearerQos 0 11 0 9 0 0 0 0))) (Some (mkIe 94 4 0 23239876)) None None None None None None None None))];
  [IE_Pti (mkIe 100 1 0 250)]; [IE_Pco (mkIe 78 19 0 [128; 128; 33; 16; 2; 0; 0; 16; 129; 6; 8; 8; 8; 8; 6; 10; 64; 208; 97])]; [IE_ApnAmbr (mkIe 72 8
  0 (mkAmbr 50000 150000))]; []; []; []; []; [IE_Fqcsid (mkIe 132 7 0 (mkFqcsid (NodeV4 [139; 7; 133; 184]) [65535]))]; []; []; [];
  [IE_OverloadControlInfo (mkIe 180 18 0 (mkOverloadControlInfo (mkIe 183 4 0 4289392145) (mkIe 182 1 0 96) (mkIe 156 1 0 (mkEpcTimer 3 31)) None));
  IE_OverloadControlInfo (mkIe 180 18 1 (mkOverloadControlInfo (mkIe 183 4 0 4289392162) (mkIe 182 1 0 96) (mkIe 156 1 0 (mkEpcTimer 3 30)) None))];
  []; []; []; []])) = [72; 97; 0; 159; 9; 9; 164; 86; 0; 0; 47; 0; 93; 0; 52; 0; 73; 0; 1; 0; 0; 87; 0; 9; 2; 133; 59; 149; 152; 90; 62; 153; 137; 85;
  80; 0; 22; 0; 44; 9; 0; 0; 0; 0; 0; 0; 0; 0; 0; 0; 0; 0; 0; 0; 0; 0; 0; 0; 0; 0; 94; 0; 4; 0; 1; 98; 156; 196; 100; 0; 1; 0; 250; 78; 0; 19; 0; 128;
  128; 33; 16; 2; 0; 0; 16; 129; 6; 8; 8; 8; 8; 6; 10; 64; 208; 97; 72; 0; 8; 0; 0; 0; 195; 80; 0; 2; 73; 240; 132; 0; 7; 0; 1; 139; 7; 133; 184; 255;
  255; 180; 0; 18; 0; 183; 0; 4; 0; 255; 170; 238; 17; 182; 0; 1; 0; 96; 156; 0; 1; 0; 127; 180; 0; 18; 1; 183; 0; 4; 0; 255; 170; 238; 34; 182; 0; 1;
  0; 96; 156; 0; 1; 0; 126].
Proof. vm_compute. reflexivity. Qed.
(* gtpv2/messages/updatebearerresp.rs, test_update_bearer_resp_unmarshal *)
Example updatebearerresp__test_update_bearer_resp_unmarshal : msg_unmarshal md_updatebearerresp Debug [72; 98; 0; 105; 9; 9; 164; 86; 0; 0; 47; 0; 2;
  0; 2; 0; 16; 0; 93; 0; 58; 0; 2; 0; 2; 0; 16; 0; 73; 0; 1; 0; 5; 87; 0; 9; 2; 133; 59; 149; 152; 90; 62; 153; 137; 85; 80; 0; 22; 0; 44; 9; 0; 0; 0;
  0; 0; 0; 0; 0; 0; 0; 0; 0; 0; 0; 0; 0; 0; 0; 0; 0; 94; 0; 4; 0; 1; 98; 156; 196; 78; 0; 20; 0; 128; 128; 33; 16; 2; 0; 0; 16; 129; 6; 8; 8; 8; 8;
  131; 6; 10; 64; 208; 97; 3; 0; 1; 0; 17] = Ok (mkMsg (mkHdr2 98 false None 105 (Some 151626838) 47) [[IE_Cause (mkIe 2 2 0 (mkCause 16 false false
  false None))]; [IE_BearerContext (mkIe 93 58 0 (mkBearerContext (mkIe 73 1 0 5) (Some (mkIe 2 2 0 (mkCause 16 false false false None))) None [mkIe
  87 9 2 (mkFteid 5 999659610 (Some [62; 153; 137; 85]) None)] (Some (mkIe 80 22 0 (mkBearerQos 0 11 0 9 0 0 0 0))) (Some (mkIe 94 4 0 23239876)) None
  None None None None None None None))]; [IE_Pco (mkIe 78 20 0 [128; 128; 33; 16; 2; 0; 0; 16; 129; 6; 8; 8; 8; 8; 131; 6; 10; 64; 208; 97])];
  [IE_Recovery (mkIe 3 1 0 17)]; []; []; []; []; []; []; []; []; []; []; []; []; []; []; []; []; []; []]).
Proof. vm_compute. reflexivity. Qed.
Example updatebearerresp__test_update_bearer_resp_unmarshal_back : (fun x => msg_marshal md_updatebearerresp x []) ((mkMsg (mkHdr2 98 false None 105
  (Some 151626838) 47) [[IE_Cause (mkIe 2 2 0 (mkCause 16 false false false None))]; [IE_BearerContext (mkIe 93 58 0 (mkBearerContext (mkIe 73 1 0 5)
  (Some (mkIe 2 2 0 (mkCause 16 false false false None))) None [mkIe 87 9 2 (mkFteid 5 999659610 (Some [62; 153; 137; 85]) None)] (Some (mkIe 80 22 0
  (mkBearerQos 0 11 0 9 0 0 0 0))) (Some (mkIe 94 4 0 23239876)) None None None None None None None None))]; [IE_Pco (mkIe 78 20 0 [128; 128; 33; 16;
  2; 0; 0; 16; 129; 6; 8; 8; 8; 8; 131; 6; 10; 64; 208; 97])]; [IE_Recovery (mkIe 3 1 0 17)]; []; []; []; []; []; []; []; []; []; []; []; []; []; [];
  []; []; []; []])) = [72; 98; 0; 105; 9; 9; 164; 86; 0; 0; 47; 0; 2; 0; 2; 0; 16; 0; 93; 0; 58; 0; 2; 0; 2; 0; 16; 0; 73; 0; 1; 0; 5; 87; 0; 9; 2;
  133; 59; 149; 152; 90; 62; 153; 137; 85; 80; 0; 22; 0; 44; 9; 0; 0; 0; 0; 0; 0; 0; 0; 0; 0; 0; 0; 0; 0; 0; 0; 0; 0; 0; 0; 94; 0; 4; 0; 1; 98; 156;
  196; 78; 0; 20; 0; 128; 128; 33; 16; 2; 0; 0; 16; 129; 6; 8; 8; 8; 8; 131; 6; 10; 64; 208; 97; 3; 0; 1; 0; 17].
Proof. vm_compute. reflexivity. Qed.
(* gtpv2/messages/updatepdnconnectionsetreq.rs, test_update_pdn_connection_set_req_unmarshal *)
Example updatepdnconnectionsetreq__test_update_pdn_connection_set_req_unmarshal : msg_unmarshal md_updatepdnconnectionsetreq Debug [72; 200; 0; 29; 0;
  0; 0; 0; 38; 0; 46; 0; 132; 0; 7; 1; 1; 139; 7; 133; 184; 255; 255; 255; 0; 6; 0; 7; 219; 7; 0; 1; 0] = Ok (mkMsg (mkHdr2 200 false None 29 (Some 0)
  2490414) [[]; [IE_Fqcsid (mkIe 132 7 1 (mkFqcsid (NodeV4 [139; 7; 133; 184]) [65535]))]; [IE_PrivateExtension (mkIe 255 6 0 (mkPrivateExt 2011 [7;
  0; 1; 0]))]]).
Proof. vm_compute. reflexivity. Qed.
Example updatepdnconnectionsetreq__test_update_pdn_connection_set_req_unmarshal_back : (fun x => msg_marshal md_updatepdnconnectionsetreq x [])
  ((mkMsg (mkHdr2 200 false None 29 (Some 0) 2490414) [[]; [IE_Fqcsid (mkIe 132 7 1 (mkFqcsid (NodeV4 [139; 7; 133; 184]) [65535]))];
  [IE_PrivateExtension (mkIe 255 6 0 (mkPrivateExt 2011 [7; 0; 1; 0]))]])) = [72; 200; 0; 29; 0; 0; 0; 0; 38; 0; 46; 0; 132; 0; 7; 1; 1; 139; 7; 133;
  184; 255; 255; 255; 0; 6; 0; 7; 219; 7; 0; 1; 0].
Proof. vm_compute. reflexivity. Qed.
(* gtpv2/messages/updatepdnconnectionsetresp.rs, test_update_pdn_connection_set_resp_unmarshal *)
Example updatepdnconnectionsetresp__test_update_pdn_connection_set_resp_unmarshal : msg_unmarshal md_updatepdnconnectionsetresp Debug [72; 201; 0; 40;
  9; 9; 164; 86; 0; 0; 47; 0; 2; 0; 2; 0; 16; 0; 132; 0; 7; 0; 1; 139; 7; 133; 184; 255; 255; 3; 0; 1; 0; 100; 255; 0; 6; 0; 0; 0; 1; 98; 156; 196] =
  Ok (mkMsg (mkHdr2 201 false None 40 (Some 151626838) 47) [[IE_Cause (mkIe 2 2 0 (mkCause 16 false false false None))]; [IE_Fqcsid (mkIe 132 7 0
  (mkFqcsid (NodeV4 [139; 7; 133; 184]) [65535]))]; [IE_Recovery (mkIe 3 1 0 100)]; [IE_PrivateExtension (mkIe 255 6 0 (mkPrivateExt 0 [1; 98; 156;
  196]))]]).
Proof. vm_compute. reflexivity. Qed.
Example updatepdnconnectionsetresp__test_update_pdn_connection_set_resp_unmarshal_back : (fun x => msg_marshal md_updatepdnconnectionsetresp x [])
  ((mkMsg (mkHdr2 201 false None 40 (Some 151626838) 47) [[IE_Cause (mkIe 2 2 0 (mkCause 16 false false false None))]; [IE_Fqcsid (mkIe 132 7 0
  (mkFqcsid (NodeV4 [139; 7; 133; 184]) [65535]))]; [IE_Recovery (mkIe 3 1 0 100)]; [IE_PrivateExtension (mkIe 255 6 0 (mkPrivateExt 0 [1; 98; 156;
  196]))]])) = [72; 201; 0; 40; 9; 9; 164; 86; 0; 0; 47; 0; 2; 0; 2; 0; 16; 0; 132; 0; 7; 0; 1; 139; 7; 133; 184; 255; 255; 3; 0; 1; 0; 100; 255; 0;
  6; 0; 0; 0; 1; 98; 156; 196].
Proof. vm_compute. reflexivity. Qed.
(* gtpv2/messages/versionnotsupported.rs, test_version_not_supported_unmarshal *)
Example versionnotsupported__test_version_not_supported_unmarshal : msg_unmarshal md_versionnotsupported Debug [64; 3; 0; 4; 45; 204; 56; 0] = Ok
  (mkMsg (mkHdr2 3 false None 4 None 3001400) []).
Proof. vm_compute. reflexivity. Qed.
Example versionnotsupported__test_version_not_supported_unmarshal_back : (fun x => msg_marshal md_versionnotsupported x []) ((mkMsg (mkHdr2 3 false
  None 4 None 3001400) [])) = [64; 3; 0; 4; 45; 204; 56; 0].
Proof. vm_compute. reflexivity. Qed.
(* gtpv2/messages/deletesessionreq.rs, test_delete_session_req_marshal *)
Example deletesessionreq__test_delete_session_req_marshal : msg_unmarshal md_deletesessionreq Debug [72; 36; 0; 87; 154; 51; 222; 175; 71; 130; 28; 0;
  73; 0; 1; 0; 5; 86; 0; 13; 0; 24; 19; 0; 20; 39; 0; 19; 0; 20; 11; 166; 184; 134; 87; 0; 25; 0; 198; 130; 21; 98; 28; 166; 137; 249; 215; 38; 0; 3;
  0; 32; 32; 30; 255; 0; 0; 0; 0; 0; 0; 0; 7; 170; 0; 4; 0; 229; 206; 119; 243; 172; 0; 2; 0; 16; 26; 255; 0; 10; 0; 0; 74; 1; 0; 5; 5; 1; 2; 0; 26] =
  Ok (mkMsg (mkHdr2 36 false None 87 (Some 2587090607) 4686364) [[]; [IE_Ebi (mkIe 73 1 0 5)]; [IE_Uli (mkIe 86 13 0 [Loc_Tai (mkTai (mkPlmn 310 410
  true) 9984); Loc_Ecgi (mkEcgi (mkPlmn 310 410 true) 195475590)])]; []; []; []; [IE_Fteid (mkIe 87 25 0 (mkFteid 6 2182439452 (Some [166; 137; 249;
  215]) (Some [38; 0; 3; 0; 32; 32; 30; 255; 0; 0; 0; 0; 0; 0; 0; 7])))]; []; [IE_UliTimestamp (mkIe 170 4 0 3855513587)]; [IE_RanNasCause (mkIe 172 2
  0 (Rn_S1ap (S1_Radio 26)))]; []; []; []; []; []; []; []; []; []; []; []; [IE_PrivateExtension (mkIe 255 10 0 (mkPrivateExt 74 [1; 0; 5; 5; 1; 2; 0;
  26]))]]).
Proof. vm_compute. reflexivity. Qed.
Example deletesessionreq__test_delete_session_req_marshal_back : (fun x => msg_marshal md_deletesessionreq x []) ((mkMsg (mkHdr2 36 false None 87
  (Some 2587090607) 4686364) [[]; [IE_Ebi (mkIe 73 1 0 5)]; [IE_Uli (mkIe 86 13 0 [Loc_Tai (mkTai (mkPlmn 310 410 true) 9984); Loc_Ecgi (mkEcgi
  (mkPlmn 310 410 true) 195475590)])]; []; []; []; [IE_Fteid (mkIe 87 25 0 (mkFteid 6 2182439452 (Some [166; 137; 249; 215]) (Some [38; 0; 3; 0; 32;
  32; 30; 255; 0; 0; 0; 0; 0; 0; 0; 7])))]; []; [IE_UliTimestamp (mkIe 170 4 0 3855513587)]; [IE_RanNasCause (mkIe 172 2 0 (Rn_S1ap (S1_Radio 26)))];
  []; []; []; []; []; []; []; []; []; []; []; [IE_PrivateExtension (mkIe 255 10 0 (mkPrivateExt 74 [1; 0; 5; 5; 1; 2; 0; 26]))]])) = [72; 36; 0; 87;
  154; 51; 222; 175; 71; 130; 28; 0; 73; 0; 1; 0; 5; 86; 0; 13; 0; 24; 19; 0; 20; 39; 0; 19; 0; 20; 11; 166; 184; 134; 87; 0; 25; 0; 198; 130; 21; 98;
  28; 166; 137; 249; 215; 38; 0; 3; 0; 32; 32; 30; 255; 0; 0; 0; 0; 0; 0; 0; 7; 170; 0; 4; 0; 229; 206; 119; 243; 172; 0; 2; 0; 16; 26; 255; 0; 10; 0;
  0; 74; 1; 0; 5; 5; 1; 2; 0; 26].
Proof. vm_compute. reflexivity. Qed.
(* gtpv2/messages/ies/hdrcomprconfig.rs, hdr_compr_config_ie_marshal_test *)
Example hdrcomprconfig__hdr_compr_config_ie_marshal_test : HeaderCompressionConfiguration_unmarshal Debug [196; 0; 4; 0; 1; 0; 0; 0] = Ok (mkIe 196 4
  0 (mkHdrCompr [0; 2] 0)).
Proof. vm_compute. reflexivity. Qed.
Example hdrcomprconfig__hdr_compr_config_ie_marshal_test_back : HeaderCompressionConfiguration_marshal ((mkIe 196 4 0 (mkHdrCompr [0; 2] 0))) = [196;
  0; 4; 0; 1; 0; 0; 0].
Proof. vm_compute. reflexivity. Qed.
(* gtpv2/messages/ies/nodefeatures.rs, node_features_ie_marshal_test *)
Example nodefeatures__node_features_ie_marshal_test : NodeFeatures_unmarshal Debug [152; 0; 1; 0; 255] = Ok (mkIe 152 1 0 (mkNodeFeatures true true
  true true true true true true)).
Proof. vm_compute. reflexivity. Qed.
Example nodefeatures__node_features_ie_marshal_test_back : NodeFeatures_marshal ((mkIe 152 1 0 (mkNodeFeatures true true true true true true true
  true))) = [152; 0; 1; 0; 255].
Proof. vm_compute. reflexivity. Qed.
(* gtpv2/messages/ies/praa.rs, praa_ie_marshal_test *)
Example praa__praa_ie_marshal_test : PresenceReportingAreaAction_unmarshal Debug [177; 0; 62; 0; 1; 255; 255; 255; 17; 1; 1; 1; 1; 1; 98; 242; 16; 11;
  217; 98; 242; 16; 15; 255; 255; 98; 242; 16; 15; 255; 255; 98; 242; 16; 1; 186; 64; 2; 98; 242; 16; 255; 255; 170; 255; 98; 242; 16; 255; 255; 221;
  221; 98; 242; 16; 255; 255; 170; 170; 1; 98; 242; 16; 15; 255; 255] = Ok (mkIe 177 62 0 (mkPraa false 1 16777215 [mkTai (mkPlmn 262 1 false) 3033]
  [mkRai (mkPlmn 262 1 false) 65535 170] [mkMacroEnb (mkPlmn 262 1 false) 1048575] [mkMacroEnb (mkPlmn 262 1 false) 1048575] [mkEcgi (mkPlmn 262 1
  false) 28983298] [mkSai (mkPlmn 262 1 false) 65535 56797] [mkCgi (mkPlmn 262 1 false) 65535 43690] [mkExtMacroEnb (mkPlmn 262 1 false) false
  1048575])).
Proof. vm_compute. reflexivity. Qed.
Example praa__praa_ie_marshal_test_back : PresenceReportingAreaAction_marshal ((mkIe 177 62 0 (mkPraa false 1 16777215 [mkTai (mkPlmn 262 1 false)
  3033] [mkRai (mkPlmn 262 1 false) 65535 170] [mkMacroEnb (mkPlmn 262 1 false) 1048575] [mkMacroEnb (mkPlmn 262 1 false) 1048575] [mkEcgi (mkPlmn 262
  1 false) 28983298] [mkSai (mkPlmn 262 1 false) 65535 56797] [mkCgi (mkPlmn 262 1 false) 65535 43690] [mkExtMacroEnb (mkPlmn 262 1 false) false
  1048575]))) = [177; 0; 62; 0; 1; 255; 255; 255; 17; 1; 1; 1; 1; 1; 98; 242; 16; 11; 217; 98; 242; 16; 15; 255; 255; 98; 242; 16; 15; 255; 255; 98;
  242; 16; 1; 186; 64; 2; 98; 242; 16; 255; 255; 170; 255; 98; 242; 16; 255; 255; 221; 221; 98; 242; 16; 255; 255; 170; 170; 1; 98; 242; 16; 15; 255;
  255].
Proof. vm_compute. reflexivity. Qed.
(* gtpv2/messages/modifybearerreq.rs, test_modify_bearer_req_marshal *)
Example modifybearerreq__test_modify_bearer_req_marshal : msg_unmarshal md_modifybearerreq Debug [72; 34; 0; 117; 139; 41; 38; 253; 0; 0; 195; 0; 75;
  0; 8; 0; 104; 53; 67; 64; 128; 150; 115; 50; 86; 0; 13; 0; 24; 2; 246; 16; 12; 63; 2; 246; 16; 2; 192; 230; 6; 83; 0; 3; 0; 2; 246; 16; 82; 0; 1; 0;
  6; 87; 0; 9; 0; 134; 21; 233; 231; 204; 213; 181; 60; 112; 72; 0; 8; 0; 0; 0; 3; 232; 0; 0; 3; 232; 93; 0; 18; 0; 73; 0; 1; 0; 5; 87; 0; 9; 1; 132;
  21; 233; 231; 204; 213; 181; 60; 112; 3; 0; 1; 0; 21; 114; 0; 2; 0; 1; 0; 255; 0; 6; 0; 7; 219; 7; 0; 1; 0] = Ok (mkMsg (mkHdr2 34 false None 117
  (Some 2334729981) 195) [[IE_Mei (mkIe 75 8 0 [56; 54; 53; 51; 51; 52; 48; 52; 48; 56; 54; 57; 51; 55; 50; 51])]; [IE_Uli (mkIe 86 13 0 [Loc_Tai
  (mkTai (mkPlmn 206 1 false) 3135); Loc_Ecgi (mkEcgi (mkPlmn 206 1 false) 46196230)])]; [IE_ServingNetwork (mkIe 83 3 0 (mkPlmn 206 1 false))];
  [IE_RatType (mkIe 82 1 0 Rat_Eutran)]; []; [IE_Fteid (mkIe 87 9 0 (mkFteid 6 367650764 (Some [213; 181; 60; 112]) None))]; [IE_ApnAmbr (mkIe 72 8 0
  (mkAmbr 1000 1000))]; []; [IE_BearerContext (mkIe 93 18 0 (mkBearerContext (mkIe 73 1 0 5) None None [mkIe 87 9 1 (mkFteid 4 367650764 (Some [213;
  181; 60; 112]) None)] None None None None None None None None None None))]; [IE_Recovery (mkIe 3 1 0 21)]; [IE_UeTimeZone (mkIe 114 2 0
  (mkUeTimeZone 1 0))]; []; []; []; []; []; []; []; []; []; []; []; []; []; []; []; []; []; []; []; []; []; [IE_PrivateExtension (mkIe 255 6 0
  (mkPrivateExt 2011 [7; 0; 1; 0]))]]).
Proof. vm_compute. reflexivity. Qed.
Example modifybearerreq__test_modify_bearer_req_marshal_back : (fun x => msg_marshal md_modifybearerreq x []) ((mkMsg (mkHdr2 34 false None 117 (Some
  2334729981) 195) [[IE_Mei (mkIe 75 8 0 [56; 54; 53; 51; 51; 52; 48; 52; 48; 56; 54; 57; 51; 55; 50; 51])]; [IE_Uli (mkIe 86 13 0 [Loc_Tai (mkTai
  (mkPlmn 206 1 false) 3135); Loc_Ecgi (mkEcgi (mkPlmn 206 1 false) 46196230)])]; [IE_ServingNetwork (mkIe 83 3 0 (mkPlmn 206 1 false))]; [IE_RatType
  (mkIe 82 1 0 Rat_Eutran)]; []; [IE_Fteid (mkIe 87 9 0 (mkFteid 6 367650764 (Some [213; 181; 60; 112]) None))]; [IE_ApnAmbr (mkIe 72 8 0 (mkAmbr 1000
  1000))]; []; [IE_BearerContext (mkIe 93 18 0 (mkBearerContext (mkIe 73 1 0 5) None None [mkIe 87 9 1 (mkFteid 4 367650764 (Some [213; 181; 60; 112])
  None)] None None None None None None None None None None))]; [IE_Recovery (mkIe 3 1 0 21)]; [IE_UeTimeZone (mkIe 114 2 0 (mkUeTimeZone 1 0))]; [];
  []; []; []; []; []; []; []; []; []; []; []; []; []; []; []; []; []; []; []; []; [IE_PrivateExtension (mkIe 255 6 0 (mkPrivateExt 2011 [7; 0; 1;
  0]))]])) = [72; 34; 0; 117; 139; 41; 38; 253; 0; 0; 195; 0; 75; 0; 8; 0; 104; 53; 67; 64; 128; 150; 115; 50; 86; 0; 13; 0; 24; 2; 246; 16; 12; 63;
  2; 246; 16; 2; 192; 230; 6; 83; 0; 3; 0; 2; 246; 16; 82; 0; 1; 0; 6; 87; 0; 9; 0; 134; 21; 233; 231; 204; 213; 181; 60; 112; 72; 0; 8; 0; 0; 0; 3;
  232; 0; 0; 3; 232; 93; 0; 18; 0; 73; 0; 1; 0; 5; 87; 0; 9; 1; 132; 21; 233; 231; 204; 213; 181; 60; 112; 3; 0; 1; 0; 21; 114; 0; 2; 0; 1; 0; 255; 0;
  6; 0; 7; 219; 7; 0; 1; 0].
Proof. vm_compute. reflexivity. Qed.
(* gtpv2/messages/modifybearerresp.rs, test_modify_bearer_resp_marshal *)
Example modifybearerresp__test_modify_bearer_resp_marshal : msg_unmarshal md_modifybearerresp Debug [72; 35; 0; 64; 164; 120; 149; 128; 75; 41; 30; 0;
  2; 0; 2; 0; 16; 0; 76; 0; 8; 0; 136; 34; 88; 1; 2; 147; 86; 240; 73; 0; 1; 0; 5; 127; 0; 1; 0; 0; 93; 0; 19; 0; 2; 0; 2; 0; 16; 0; 73; 0; 1; 0; 5;
  94; 0; 4; 0; 1; 118; 79; 187; 3; 0; 1; 0; 8] = Ok (mkMsg (mkHdr2 35 false None 64 (Some 2759366016) 4925726) [[IE_Cause (mkIe 2 2 0 (mkCause 16
  false false false None))]; [IE_Msisdn (mkIe 76 8 0 [56; 56; 50; 50; 56; 53; 49; 48; 50; 48; 51; 57; 54; 53; 48])]; [IE_Ebi (mkIe 73 1 0 5)];
  [IE_ApnRestriction (mkIe 127 1 0 Restriction_NoApnRestriction)]; []; [IE_BearerContext (mkIe 93 19 0 (mkBearerContext (mkIe 73 1 0 5) (Some (mkIe 2
  2 0 (mkCause 16 false false false None))) None [] None (Some (mkIe 94 4 0 24530875)) None None None None None None None None))]; []; []; []; []; [];
  []; []; [IE_Recovery (mkIe 3 1 0 8)]; []; []; []; []; []; []; []; []; []]).
Proof. vm_compute. reflexivity. Qed.
Example modifybearerresp__test_modify_bearer_resp_marshal_back : (fun x => msg_marshal md_modifybearerresp x []) ((mkMsg (mkHdr2 35 false None 64
  (Some 2759366016) 4925726) [[IE_Cause (mkIe 2 2 0 (mkCause 16 false false false None))]; [IE_Msisdn (mkIe 76 8 0 [56; 56; 50; 50; 56; 53; 49; 48;
  50; 48; 51; 57; 54; 53; 48])]; [IE_Ebi (mkIe 73 1 0 5)]; [IE_ApnRestriction (mkIe 127 1 0 Restriction_NoApnRestriction)]; []; [IE_BearerContext
  (mkIe 93 19 0 (mkBearerContext (mkIe 73 1 0 5) (Some (mkIe 2 2 0 (mkCause 16 false false false None))) None [] None (Some (mkIe 94 4 0 24530875))
  None None None None None None None None))]; []; []; []; []; []; []; []; [IE_Recovery (mkIe 3 1 0 8)]; []; []; []; []; []; []; []; []; []])) = [72;
  35; 0; 64; 164; 120; 149; 128; 75; 41; 30; 0; 2; 0; 2; 0; 16; 0; 76; 0; 8; 0; 136; 34; 88; 1; 2; 147; 86; 240; 73; 0; 1; 0; 5; 127; 0; 1; 0; 0; 93;
  0; 19; 0; 2; 0; 2; 0; 16; 0; 73; 0; 1; 0; 5; 94; 0; 4; 0; 1; 118; 79; 187; 3; 0; 1; 0; 8].
Proof. vm_compute. reflexivity. Qed.
