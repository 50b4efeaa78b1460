(* The test vectors of the unit tests in /repo/src/gtpv1/gtpc, run through the model.  These are tests of the
   transcription, not properties: every [Example] takes the octets of one test and says that the model's
   decoder returns the value (or the error) that the test expects, and, where the test (or its marshal
   twin) asks for it, that the model's encoder gives those octets back. *)
From Verif Require Import Base V1U V1CHdr V1CIe V1CKind V1CTables V1CMsg.
Local Open Scope N_scope.

(* gtpv1/gtpc/extensionheaders/mbmssupportindication.rs, mbmssupport_ind_exthdr_unmarshal_test *)
Example mbmssupportindication__mbmssupport_ind_exthdr_unmarshal_test : cext_unmarshal Debug [1; 1; 255; 255] = Ok (CX_MBMSSupportIndication (mkNumExt
  1 1 65535)).
Proof. vm_compute. reflexivity. Qed.
Example mbmssupportindication__mbmssupport_ind_exthdr_unmarshal_test_back : cext_marshal ((CX_MBMSSupportIndication (mkNumExt 1 1 65535))) = [1; 1;
  255; 255].
Proof. vm_compute. reflexivity. Qed.
(* gtpv1/gtpc/extensionheaders/msicrsi.rs, msicrsi_exthdr_unmarshal_test *)
Example msicrsi__msicrsi_exthdr_unmarshal_test : cext_unmarshal Debug [2; 1; 255; 255] = Ok (CX_MSInfoChangeReporting (mkNumExt 2 1 65535)).
Proof. vm_compute. reflexivity. Qed.
Example msicrsi__msicrsi_exthdr_unmarshal_test_back : cext_marshal ((CX_MSInfoChangeReporting (mkNumExt 2 1 65535))) = [2; 1; 255; 255].
Proof. vm_compute. reflexivity. Qed.
(* gtpv1/gtpc/extensionheaders/pdcppdunumber.rs, pdcp_exthdr_unmarshal_test *)
Example pdcppdunumber__pdcp_exthdr_unmarshal_test : cext_unmarshal Debug [192; 1; 16; 0] = Ok (CX_PDCPPDUNumber (mkNumExt 192 1 4096)).
Proof. vm_compute. reflexivity. Qed.
Example pdcppdunumber__pdcp_exthdr_unmarshal_test_back : cext_marshal ((CX_PDCPPDUNumber (mkNumExt 192 1 4096))) = [192; 1; 16; 0].
Proof. vm_compute. reflexivity. Qed.
(* gtpv1/gtpc/extensionheaders/suspendrequest.rs, suspend_req_exthdr_unmarshal_test *)
Example suspendrequest__suspend_req_exthdr_unmarshal_test : cext_unmarshal Debug [193; 1; 255; 255] = Ok (CX_SuspendRequest (mkNumExt 193 1 65535)).
Proof. vm_compute. reflexivity. Qed.
Example suspendrequest__suspend_req_exthdr_unmarshal_test_back : cext_marshal ((CX_SuspendRequest (mkNumExt 193 1 65535))) = [193; 1; 255; 255].
Proof. vm_compute. reflexivity. Qed.
(* gtpv1/gtpc/extensionheaders/suspendresponse.rs, suspend_resp_exthdr_unmarshal_test *)
Example suspendresponse__suspend_resp_exthdr_unmarshal_test : cext_unmarshal Debug [194; 1; 255; 255] = Ok (CX_SuspendResponse (mkNumExt 194 1
  65535)).
Proof. vm_compute. reflexivity. Qed.
Example suspendresponse__suspend_resp_exthdr_unmarshal_test_back : cext_marshal ((CX_SuspendResponse (mkNumExt 194 1 65535))) = [194; 1; 255; 255].
Proof. vm_compute. reflexivity. Qed.
(* gtpv1/gtpc/extensionheaders/unknown.rs, unknown_exthdr_unmarshal_test *)
Example unknown__unknown_exthdr_unmarshal_test : cext_unmarshal Debug [250; 1; 255; 255] = Ok (CX_Unknown (mkBlobExt 250 1 [255; 255])).
Proof. vm_compute. reflexivity. Qed.
Example unknown__unknown_exthdr_unmarshal_test_back : cext_marshal ((CX_Unknown (mkBlobExt 250 1 [255; 255]))) = [250; 1; 255; 255].
Proof. vm_compute. reflexivity. Qed.
(* gtpv1/gtpc/header.rs, test_gtpv1_hdr_bare_unmarshal *)
Example header__test_gtpv1_hdr_bare_unmarshal : chdr_unmarshal Debug [48; 255; 0; 52; 22; 98; 103; 25] = Ok (mkCHdr 255 52 375547673 None None None).
Proof. vm_compute. reflexivity. Qed.
Example header__test_gtpv1_hdr_bare_unmarshal_back : chdr_marshal ((mkCHdr 255 52 375547673 None None None)) = [48; 255; 0; 52; 22; 98; 103; 25].
Proof. vm_compute. reflexivity. Qed.
(* gtpv1/gtpc/header.rs, test_gtpv1_hdr_with_sqn_unmarshal *)
Example header__test_gtpv1_hdr_with_sqn_unmarshal : chdr_unmarshal Debug [50; 2; 0; 6; 0; 0; 0; 0; 246; 78; 0; 0] = Ok (mkCHdr 2 6 0 (Some 63054) None
  None).
Proof. vm_compute. reflexivity. Qed.
Example header__test_gtpv1_hdr_with_sqn_unmarshal_back : chdr_marshal ((mkCHdr 2 6 0 (Some 63054) None None)) = [50; 2; 0; 6; 0; 0; 0; 0; 246; 78; 0;
  0].
Proof. vm_compute. reflexivity. Qed.
(* gtpv1/gtpc/header.rs, test_gtpv1_hdr_with_sqn_and_one_ext_header_unmarshal *)
Example header__test_gtpv1_hdr_with_sqn_and_one_ext_header_unmarshal : chdr_unmarshal Debug [54; 2; 0; 8; 0; 0; 0; 0; 246; 78; 0; 1; 1; 255; 255; 0] =
  Ok (mkCHdr 2 8 0 (Some 63054) None (Some [CX_MBMSSupportIndication (mkNumExt 1 1 65535)])).
Proof. vm_compute. reflexivity. Qed.
Example header__test_gtpv1_hdr_with_sqn_and_one_ext_header_unmarshal_back : chdr_marshal ((mkCHdr 2 8 0 (Some 63054) None (Some
  [CX_MBMSSupportIndication (mkNumExt 1 1 65535)]))) = [54; 2; 0; 8; 0; 0; 0; 0; 246; 78; 0; 1; 1; 255; 255; 0].
Proof. vm_compute. reflexivity. Qed.
(* gtpv1/gtpc/header.rs, test_gtpv1_hdr_with_sqn_and_two_ext_header_unmarshal *)
Example header__test_gtpv1_hdr_with_sqn_and_two_ext_header_unmarshal : chdr_unmarshal Debug [54; 2; 0; 12; 0; 0; 0; 0; 246; 78; 0; 1; 1; 255; 255;
  192; 1; 16; 0; 0] = Ok (mkCHdr 2 12 0 (Some 63054) None (Some [CX_MBMSSupportIndication (mkNumExt 1 1 65535); CX_PDCPPDUNumber (mkNumExt 192 1
  4096)])).
Proof. vm_compute. reflexivity. Qed.
Example header__test_gtpv1_hdr_with_sqn_and_two_ext_header_unmarshal_back : chdr_marshal ((mkCHdr 2 12 0 (Some 63054) None (Some
  [CX_MBMSSupportIndication (mkNumExt 1 1 65535); CX_PDCPPDUNumber (mkNumExt 192 1 4096)]))) = [54; 2; 0; 12; 0; 0; 0; 0; 246; 78; 0; 1; 1; 255; 255;
  192; 1; 16; 0; 0].
Proof. vm_compute. reflexivity. Qed.
(* gtpv1/gtpc/header.rs, test_gtpv1_hdr_with_sqn_npdu_and_two_ext_header_unmarshal *)
Example header__test_gtpv1_hdr_with_sqn_npdu_and_two_ext_header_unmarshal : chdr_unmarshal Debug [55; 2; 0; 12; 0; 0; 0; 0; 246; 78; 255; 1; 1; 255;
  255; 192; 1; 16; 0; 0] = Ok (mkCHdr 2 12 0 (Some 63054) (Some 255) (Some [CX_MBMSSupportIndication (mkNumExt 1 1 65535); CX_PDCPPDUNumber (mkNumExt
  192 1 4096)])).
Proof. vm_compute. reflexivity. Qed.
Example header__test_gtpv1_hdr_with_sqn_npdu_and_two_ext_header_unmarshal_back : chdr_marshal ((mkCHdr 2 12 0 (Some 63054) (Some 255) (Some
  [CX_MBMSSupportIndication (mkNumExt 1 1 65535); CX_PDCPPDUNumber (mkNumExt 192 1 4096)]))) = [55; 2; 0; 12; 0; 0; 0; 0; 246; 78; 255; 1; 1; 255;
  255; 192; 1; 16; 0; 0].
Proof. vm_compute. reflexivity. Qed.
(* gtpv1/gtpc/messages/createpdpctxreq.rs, create_pdp_ctx_unmarshal_test *)
Example createpdpctxreq__create_pdp_ctx_unmarshal_test : msg1_unmarshal CreatePDPContextRequest_T Debug [50; 16; 0; 167; 0; 0; 0; 0; 90; 252; 255; 0;
  2; 9; 65; 80; 1; 113; 68; 69; 246; 3; 19; 0; 98; 255; 254; 255; 14; 14; 15; 252; 16; 0; 4; 114; 213; 17; 215; 8; 97; 2; 20; 5; 128; 0; 2; 241; 33;
  131; 0; 13; 3; 105; 111; 116; 4; 49; 110; 99; 101; 3; 110; 101; 116; 132; 0; 32; 128; 128; 33; 16; 1; 0; 0; 16; 129; 6; 0; 0; 0; 0; 131; 6; 0; 0; 0;
  0; 0; 13; 0; 0; 10; 0; 0; 5; 0; 0; 17; 0; 133; 0; 4; 172; 57; 43; 204; 133; 0; 4; 172; 57; 43; 205; 134; 0; 9; 145; 136; 34; 88; 1; 113; 68; 69;
  246; 135; 0; 15; 3; 27; 99; 31; 115; 150; 115; 115; 116; 255; 255; 255; 0; 0; 0; 151; 0; 1; 2; 152; 0; 8; 0; 19; 0; 98; 83; 23; 4; 39; 153; 0; 2; 0;
  0; 154; 0; 8; 104; 153; 21; 48; 145; 100; 16; 16] = Ok (mkMsg1 (mkCHdr 16 167 0 (Some 23292) None None) [Some (I1_Imsi (mkTv 2 [57; 48; 49; 52; 48;
  53; 49; 48; 49; 55; 52; 52; 53; 52; 54])); Some (I1_Rai (mkTv 3 (mkRai (310, 260, true) 65534 255))); Some (I1_Recovery (mkTv 14 14)); Some
  (I1_SelectionMode (mkTv 15 0)); Some (I1_Teid (mkTv 16 291541)); Some (I1_Teid (mkTv 17 3607650562)); Some (I1_Nsapi (mkTv 20 5)); None; None; None;
  None; Some (I1_Eua (mkTlv 128 2 (mkEua 1 33 None None))); Some (I1_Apn (mkTlv 131 13 [105; 111; 116; 46; 49; 110; 99; 101; 46; 110; 101; 116]));
  Some (I1_Pco (mkTlv 132 32 [128; 128; 33; 16; 1; 0; 0; 16; 129; 6; 0; 0; 0; 0; 131; 6; 0; 0; 0; 0; 0; 13; 0; 0; 10; 0; 0; 5; 0; 0; 17; 0])); Some
  (I1_Gsn (mkTlv 133 4 (V4 172 57 43 204))); Some (I1_Gsn (mkTlv 133 4 (V4 172 57 43 205))); Some (I1_Msisdn (mkTlv 134 9 (mkMsisdn 1 1 1 [56; 56; 50;
  50; 56; 53; 49; 48; 49; 55; 52; 52; 53; 52; 54]))); Some (I1_Qos (mkTlv 135 15 (mkQos 3 [27; 99; 31; 115; 150; 115; 115; 116; 255; 255; 255; 0; 0;
  0]))); None; None; None; None; None; Some (I1_RatType (mkTlv 151 1 Geran)); Some (I1_Uli (mkTlv 152 8 (mkUli (310, 260, true) 21271 (Ci 1063))));
  Some (I1_Tz (mkTlv 153 2 (mkTz 0 0))); Some (I1_Imei (mkTlv 154 8 [56; 54; 57; 57; 53; 49; 48; 51; 49; 57; 52; 54; 48; 49; 48; 49])); None; None;
  None; None; None; None; None; None; None; None; None; None]).
Proof. vm_compute. reflexivity. Qed.
(* gtpv1/gtpc/messages/createpdpctxreq.rs, create_pdp_ctx_unmarshal_with_linked_nsapi_test *)
Example createpdpctxreq__create_pdp_ctx_unmarshal_with_linked_nsapi_test : msg1_unmarshal CreatePDPContextRequest_T Debug [50; 16; 0; 169; 0; 0; 0; 0;
  90; 252; 255; 0; 2; 9; 65; 80; 1; 113; 68; 69; 246; 3; 19; 0; 98; 255; 254; 255; 14; 14; 15; 252; 16; 0; 4; 114; 213; 17; 215; 8; 97; 2; 20; 5; 20;
  1; 128; 0; 2; 241; 33; 131; 0; 13; 3; 105; 111; 116; 4; 49; 110; 99; 101; 3; 110; 101; 116; 132; 0; 32; 128; 128; 33; 16; 1; 0; 0; 16; 129; 6; 0; 0;
  0; 0; 131; 6; 0; 0; 0; 0; 0; 13; 0; 0; 10; 0; 0; 5; 0; 0; 17; 0; 133; 0; 4; 172; 57; 43; 204; 133; 0; 4; 172; 57; 43; 204; 134; 0; 9; 145; 136; 34;
  88; 1; 113; 68; 69; 246; 135; 0; 15; 3; 27; 99; 31; 115; 150; 115; 115; 116; 255; 255; 255; 0; 0; 0; 151; 0; 1; 2; 152; 0; 8; 0; 19; 0; 98; 83; 23;
  4; 39; 153; 0; 2; 0; 0; 154; 0; 8; 104; 153; 21; 48; 145; 100; 16; 16] = Ok (mkMsg1 (mkCHdr 16 169 0 (Some 23292) None None) [Some (I1_Imsi (mkTv 2
  [57; 48; 49; 52; 48; 53; 49; 48; 49; 55; 52; 52; 53; 52; 54])); Some (I1_Rai (mkTv 3 (mkRai (310, 260, true) 65534 255))); Some (I1_Recovery (mkTv
  14 14)); Some (I1_SelectionMode (mkTv 15 0)); Some (I1_Teid (mkTv 16 291541)); Some (I1_Teid (mkTv 17 3607650562)); Some (I1_Nsapi (mkTv 20 5));
  Some (I1_Nsapi (mkTv 20 1)); None; None; None; Some (I1_Eua (mkTlv 128 2 (mkEua 1 33 None None))); Some (I1_Apn (mkTlv 131 13 [105; 111; 116; 46;
  49; 110; 99; 101; 46; 110; 101; 116])); Some (I1_Pco (mkTlv 132 32 [128; 128; 33; 16; 1; 0; 0; 16; 129; 6; 0; 0; 0; 0; 131; 6; 0; 0; 0; 0; 0; 13; 0;
  0; 10; 0; 0; 5; 0; 0; 17; 0])); Some (I1_Gsn (mkTlv 133 4 (V4 172 57 43 204))); Some (I1_Gsn (mkTlv 133 4 (V4 172 57 43 204))); Some (I1_Msisdn
  (mkTlv 134 9 (mkMsisdn 1 1 1 [56; 56; 50; 50; 56; 53; 49; 48; 49; 55; 52; 52; 53; 52; 54]))); Some (I1_Qos (mkTlv 135 15 (mkQos 3 [27; 99; 31; 115;
  150; 115; 115; 116; 255; 255; 255; 0; 0; 0]))); None; None; None; None; None; Some (I1_RatType (mkTlv 151 1 Geran)); Some (I1_Uli (mkTlv 152 8
  (mkUli (310, 260, true) 21271 (Ci 1063)))); Some (I1_Tz (mkTlv 153 2 (mkTz 0 0))); Some (I1_Imei (mkTlv 154 8 [56; 54; 57; 57; 53; 49; 48; 51; 49;
  57; 52; 54; 48; 49; 48; 49])); None; None; None; None; None; None; None; None; None; None; None; None]).
Proof. vm_compute. reflexivity. Qed.
(* gtpv1/gtpc/messages/createpdpctxreq.rs, create_pdp_ctx_wrong_ie_order_unmarshal_test *)
Example createpdpctxreq__create_pdp_ctx_wrong_ie_order_unmarshal_test : msg1_unmarshal CreatePDPContextRequest_T Debug [50; 16; 0; 167; 0; 0; 0; 0;
  90; 252; 255; 0; 2; 9; 65; 80; 1; 113; 68; 69; 246; 14; 14; 3; 19; 0; 98; 255; 254; 255; 15; 252; 16; 0; 4; 114; 213; 17; 215; 8; 97; 2; 20; 5; 128;
  0; 2; 241; 33; 131; 0; 13; 3; 105; 111; 116; 4; 49; 110; 99; 101; 3; 110; 101; 116; 132; 0; 32; 128; 128; 33; 16; 1; 0; 0; 16; 129; 6; 0; 0; 0; 0;
  131; 6; 0; 0; 0; 0; 0; 13; 0; 0; 10; 0; 0; 5; 0; 0; 17; 0; 133; 0; 4; 172; 57; 43; 205; 133; 0; 4; 172; 57; 43; 204; 134; 0; 9; 145; 136; 34; 88; 1;
  113; 68; 69; 246; 135; 0; 15; 3; 27; 99; 31; 115; 150; 115; 115; 116; 255; 255; 255; 0; 0; 0; 151; 0; 1; 2; 152; 0; 8; 0; 19; 0; 98; 83; 23; 4; 39;
  153; 0; 2; 0; 0; 154; 0; 8; 104; 153; 21; 48; 145; 100; 16; 16] = Err MessageInvalidMessageFormat.
Proof. vm_compute. reflexivity. Qed.
(* gtpv1/gtpc/messages/createpdpctxreq.rs, create_pdp_ctx_missing_mandatory_ie_unmarshal_test *)
Example createpdpctxreq__create_pdp_ctx_missing_mandatory_ie_unmarshal_test : msg1_unmarshal CreatePDPContextRequest_T Debug [50; 16; 0; 162; 0; 0; 0;
  0; 90; 252; 255; 0; 2; 9; 65; 80; 1; 113; 68; 69; 246; 3; 19; 0; 98; 255; 254; 255; 14; 14; 15; 252; 17; 215; 8; 97; 2; 20; 5; 128; 0; 2; 241; 33;
  131; 0; 13; 3; 105; 111; 116; 4; 49; 110; 99; 101; 3; 110; 101; 116; 132; 0; 32; 128; 128; 33; 16; 1; 0; 0; 16; 129; 6; 0; 0; 0; 0; 131; 6; 0; 0; 0;
  0; 0; 13; 0; 0; 10; 0; 0; 5; 0; 0; 17; 0; 133; 0; 4; 172; 57; 43; 205; 133; 0; 4; 172; 57; 43; 204; 134; 0; 9; 145; 136; 34; 88; 1; 113; 68; 69;
  246; 135; 0; 15; 3; 27; 99; 31; 115; 150; 115; 115; 116; 255; 255; 255; 0; 0; 0; 151; 0; 1; 2; 152; 0; 8; 0; 19; 0; 98; 83; 23; 4; 39; 153; 0; 2; 0;
  0; 154; 0; 8; 104; 153; 21; 48; 145; 100; 16; 16] = Err MessageMandatoryIEMissing.
Proof. vm_compute. reflexivity. Qed.
(* gtpv1/gtpc/messages/createpdpctxresp.rs, create_pdp_ctx_resp_unmarshal_test *)
Example createpdpctxresp__create_pdp_ctx_resp_unmarshal_test : msg1_unmarshal CreatePDPContextResponse_T Debug [50; 17; 0; 86; 112; 11; 12; 96; 116;
  23; 0; 0; 1; 128; 8; 254; 14; 6; 16; 243; 195; 231; 249; 17; 31; 75; 242; 244; 127; 5; 235; 107; 179; 128; 0; 6; 241; 33; 10; 219; 59; 48; 132; 0;
  20; 128; 128; 33; 16; 2; 0; 0; 16; 129; 6; 8; 8; 8; 8; 131; 6; 8; 8; 4; 4; 133; 0; 4; 62; 153; 137; 65; 133; 0; 4; 62; 153; 137; 75; 135; 0; 12; 3;
  27; 147; 31; 115; 150; 151; 151; 68; 251; 16; 64] = Ok (mkMsg1 (mkCHdr 17 86 1879772256 (Some 29719) None None) [Some (I1_Cause (mkTv 1 128)); Some
  (I1_Reordering (mkTv 8 false)); Some (I1_Recovery (mkTv 14 6)); Some (I1_Teid (mkTv 16 4089702393)); Some (I1_Teid (mkTv 17 525071092)); None; Some
  (I1_ChargingId (mkTv 127 99314611)); Some (I1_Eua (mkTlv 128 6 (mkEua 1 33 (Some [10; 219; 59; 48]) None))); Some (I1_Pco (mkTlv 132 20 [128; 128;
  33; 16; 2; 0; 0; 16; 129; 6; 8; 8; 8; 8; 131; 6; 8; 8; 4; 4])); Some (I1_Gsn (mkTlv 133 4 (V4 62 153 137 65))); Some (I1_Gsn (mkTlv 133 4 (V4 62 153
  137 75))); None; None; Some (I1_Qos (mkTlv 135 12 (mkQos 3 [27; 147; 31; 115; 150; 151; 151; 68; 251; 16; 64]))); None; None; None; None; None;
  None; None; None; None; None; None; None; None]).
Proof. vm_compute. reflexivity. Qed.
Example createpdpctxresp__create_pdp_ctx_resp_unmarshal_test_back : (fun x => msg1_marshal x []) ((mkMsg1 (mkCHdr 17 86 1879772256 (Some 29719) None
  None) [Some (I1_Cause (mkTv 1 128)); Some (I1_Reordering (mkTv 8 false)); Some (I1_Recovery (mkTv 14 6)); Some (I1_Teid (mkTv 16 4089702393)); Some
  (I1_Teid (mkTv 17 525071092)); None; Some (I1_ChargingId (mkTv 127 99314611)); Some (I1_Eua (mkTlv 128 6 (mkEua 1 33 (Some [10; 219; 59; 48])
  None))); Some (I1_Pco (mkTlv 132 20 [128; 128; 33; 16; 2; 0; 0; 16; 129; 6; 8; 8; 8; 8; 131; 6; 8; 8; 4; 4])); Some (I1_Gsn (mkTlv 133 4 (V4 62 153
  137 65))); Some (I1_Gsn (mkTlv 133 4 (V4 62 153 137 75))); None; None; Some (I1_Qos (mkTlv 135 12 (mkQos 3 [27; 147; 31; 115; 150; 151; 151; 68;
  251; 16; 64]))); None; None; None; None; None; None; None; None; None; None; None; None; None])) = [50; 17; 0; 86; 112; 11; 12; 96; 116; 23; 0; 0;
  1; 128; 8; 254; 14; 6; 16; 243; 195; 231; 249; 17; 31; 75; 242; 244; 127; 5; 235; 107; 179; 128; 0; 6; 241; 33; 10; 219; 59; 48; 132; 0; 20; 128;
  128; 33; 16; 2; 0; 0; 16; 129; 6; 8; 8; 8; 8; 131; 6; 8; 8; 4; 4; 133; 0; 4; 62; 153; 137; 65; 133; 0; 4; 62; 153; 137; 75; 135; 0; 12; 3; 27; 147;
  31; 115; 150; 151; 151; 68; 251; 16; 64].
Proof. vm_compute. reflexivity. Qed.
(* gtpv1/gtpc/messages/createpdpctxresp.rs, create_pdp_ctx_resp_unmarshal_with_repetitive_fields_ggsn_addr_charging_gw *)
Example createpdpctxresp__create_pdp_ctx_resp_unmarshal_with_repetitive_fields_ggsn_addr_charging_gw : msg1_unmarshal CreatePDPContextResponse_T Debug
  [50; 17; 0; 114; 112; 11; 12; 96; 116; 23; 0; 0; 1; 128; 8; 254; 14; 6; 16; 243; 195; 231; 249; 17; 31; 75; 242; 244; 127; 5; 235; 107; 179; 128; 0;
  6; 241; 33; 10; 219; 59; 48; 132; 0; 20; 128; 128; 33; 16; 2; 0; 0; 16; 129; 6; 8; 8; 8; 8; 131; 6; 8; 8; 4; 4; 133; 0; 4; 62; 153; 137; 65; 133; 0;
  4; 62; 153; 137; 75; 133; 0; 4; 62; 153; 137; 76; 133; 0; 4; 62; 153; 137; 77; 135; 0; 12; 3; 27; 147; 31; 115; 150; 151; 151; 68; 251; 16; 64; 251;
  0; 4; 62; 153; 137; 78; 251; 0; 4; 62; 153; 137; 79] = Ok (mkMsg1 (mkCHdr 17 114 1879772256 (Some 29719) None None) [Some (I1_Cause (mkTv 1 128));
  Some (I1_Reordering (mkTv 8 false)); Some (I1_Recovery (mkTv 14 6)); Some (I1_Teid (mkTv 16 4089702393)); Some (I1_Teid (mkTv 17 525071092)); None;
  Some (I1_ChargingId (mkTv 127 99314611)); Some (I1_Eua (mkTlv 128 6 (mkEua 1 33 (Some [10; 219; 59; 48]) None))); Some (I1_Pco (mkTlv 132 20 [128;
  128; 33; 16; 2; 0; 0; 16; 129; 6; 8; 8; 8; 8; 131; 6; 8; 8; 4; 4])); Some (I1_Gsn (mkTlv 133 4 (V4 62 153 137 65))); Some (I1_Gsn (mkTlv 133 4 (V4
  62 153 137 75))); Some (I1_Gsn (mkTlv 133 4 (V4 62 153 137 76))); Some (I1_Gsn (mkTlv 133 4 (V4 62 153 137 77))); Some (I1_Qos (mkTlv 135 12 (mkQos
  3 [27; 147; 31; 115; 150; 151; 151; 68; 251; 16; 64]))); Some (I1_ChargingGw (mkTlv 251 4 (V4 62 153 137 78))); Some (I1_ChargingGw (mkTlv 251 4 (V4
  62 153 137 79))); None; None; None; None; None; None; None; None; None; None; None]).
Proof. vm_compute. reflexivity. Qed.
Example createpdpctxresp__create_pdp_ctx_resp_unmarshal_with_repetitive_fields_ggsn_addr_charging_gw_back : (fun x => msg1_marshal x []) ((mkMsg1
  (mkCHdr 17 114 1879772256 (Some 29719) None None) [Some (I1_Cause (mkTv 1 128)); Some (I1_Reordering (mkTv 8 false)); Some (I1_Recovery (mkTv 14
  6)); Some (I1_Teid (mkTv 16 4089702393)); Some (I1_Teid (mkTv 17 525071092)); None; Some (I1_ChargingId (mkTv 127 99314611)); Some (I1_Eua (mkTlv
  128 6 (mkEua 1 33 (Some [10; 219; 59; 48]) None))); Some (I1_Pco (mkTlv 132 20 [128; 128; 33; 16; 2; 0; 0; 16; 129; 6; 8; 8; 8; 8; 131; 6; 8; 8; 4;
  4])); Some (I1_Gsn (mkTlv 133 4 (V4 62 153 137 65))); Some (I1_Gsn (mkTlv 133 4 (V4 62 153 137 75))); Some (I1_Gsn (mkTlv 133 4 (V4 62 153 137
  76))); Some (I1_Gsn (mkTlv 133 4 (V4 62 153 137 77))); Some (I1_Qos (mkTlv 135 12 (mkQos 3 [27; 147; 31; 115; 150; 151; 151; 68; 251; 16; 64])));
  Some (I1_ChargingGw (mkTlv 251 4 (V4 62 153 137 78))); Some (I1_ChargingGw (mkTlv 251 4 (V4 62 153 137 79))); None; None; None; None; None; None;
  None; None; None; None; None])) = [50; 17; 0; 114; 112; 11; 12; 96; 116; 23; 0; 0; 1; 128; 8; 254; 14; 6; 16; 243; 195; 231; 249; 17; 31; 75; 242;
  244; 127; 5; 235; 107; 179; 128; 0; 6; 241; 33; 10; 219; 59; 48; 132; 0; 20; 128; 128; 33; 16; 2; 0; 0; 16; 129; 6; 8; 8; 8; 8; 131; 6; 8; 8; 4; 4;
  133; 0; 4; 62; 153; 137; 65; 133; 0; 4; 62; 153; 137; 75; 133; 0; 4; 62; 153; 137; 76; 133; 0; 4; 62; 153; 137; 77; 135; 0; 12; 3; 27; 147; 31; 115;
  150; 151; 151; 68; 251; 16; 64; 251; 0; 4; 62; 153; 137; 78; 251; 0; 4; 62; 153; 137; 79].
Proof. vm_compute. reflexivity. Qed.
(* gtpv1/gtpc/messages/createpdpctxresp.rs, create_pdp_ctx_resp_wrong_ie_order_unmarshal_test *)
Example createpdpctxresp__create_pdp_ctx_resp_wrong_ie_order_unmarshal_test : msg1_unmarshal CreatePDPContextResponse_T Debug [50; 17; 0; 86; 112; 11;
  12; 96; 116; 23; 0; 0; 8; 254; 1; 128; 14; 6; 16; 243; 195; 231; 249; 17; 31; 75; 242; 244; 127; 5; 235; 107; 179; 128; 0; 6; 241; 33; 10; 219; 59;
  48; 132; 0; 20; 128; 128; 33; 16; 2; 0; 0; 16; 129; 6; 8; 8; 8; 8; 131; 6; 8; 8; 4; 4; 133; 0; 4; 62; 153; 137; 65; 133; 0; 4; 62; 153; 137; 75;
  135; 0; 12; 3; 27; 147; 31; 115; 150; 151; 151; 68; 251; 16; 64] = Err MessageInvalidMessageFormat.
Proof. vm_compute. reflexivity. Qed.
(* gtpv1/gtpc/messages/createpdpctxresp.rs, create_pdp_ctx_resp_missing_mandatory_ie_unmarshal_test *)
Example createpdpctxresp__create_pdp_ctx_resp_missing_mandatory_ie_unmarshal_test : msg1_unmarshal CreatePDPContextResponse_T Debug [50; 17; 0; 84;
  112; 11; 12; 96; 116; 23; 0; 0; 8; 254; 14; 6; 16; 243; 195; 231; 249; 17; 31; 75; 242; 244; 127; 5; 235; 107; 179; 128; 0; 6; 241; 33; 10; 219; 59;
  48; 132; 0; 20; 128; 128; 33; 16; 2; 0; 0; 16; 129; 6; 8; 8; 8; 8; 131; 6; 8; 8; 4; 4; 133; 0; 4; 62; 153; 137; 65; 133; 0; 4; 62; 153; 137; 75;
  135; 0; 12; 3; 27; 147; 31; 115; 150; 151; 151; 68; 251; 16; 64] = Err MessageMandatoryIEMissing.
Proof. vm_compute. reflexivity. Qed.
(* gtpv1/gtpc/messages/deletepdpctxreq.rs, delete_pdp_ctx_req_unmarshal_test *)
Example deletepdpctxreq__delete_pdp_ctx_req_unmarshal_test : msg1_unmarshal DeletePDPContextRequest_T Debug [50; 20; 0; 8; 133; 146; 198; 74; 7; 231;
  0; 0; 19; 255; 20; 6] = Ok (mkMsg1 (mkCHdr 20 8 2240988746 (Some 2023) None None) [None; Some (I1_Teardown (mkTv 19 true)); Some (I1_Nsapi (mkTv 20
  6)); None; None; None; None; None; None]).
Proof. vm_compute. reflexivity. Qed.
Example deletepdpctxreq__delete_pdp_ctx_req_unmarshal_test_back : (fun x => msg1_marshal x []) ((mkMsg1 (mkCHdr 20 8 2240988746 (Some 2023) None None)
  [None; Some (I1_Teardown (mkTv 19 true)); Some (I1_Nsapi (mkTv 20 6)); None; None; None; None; None; None])) = [50; 20; 0; 8; 133; 146; 198; 74; 7;
  231; 0; 0; 19; 255; 20; 6].
Proof. vm_compute. reflexivity. Qed.
(* gtpv1/gtpc/messages/deletepdpctxreq.rs, delete_pdp_ctx_req_wrong_ie_order_unmarshal_test *)
Example deletepdpctxreq__delete_pdp_ctx_req_wrong_ie_order_unmarshal_test : msg1_unmarshal DeletePDPContextRequest_T Debug [50; 20; 0; 8; 133; 146;
  198; 74; 7; 231; 0; 0; 20; 6; 19; 255] = Err MessageInvalidMessageFormat.
Proof. vm_compute. reflexivity. Qed.
(* gtpv1/gtpc/messages/deletepdpctxreq.rs, delete_pdp_ctx_req_missing_mandatory_ie_unmarshal_test *)
Example deletepdpctxreq__delete_pdp_ctx_req_missing_mandatory_ie_unmarshal_test : msg1_unmarshal DeletePDPContextRequest_T Debug [50; 20; 0; 6; 133;
  146; 198; 74; 7; 231; 0; 0; 19; 255] = Err MessageMandatoryIEMissing.
Proof. vm_compute. reflexivity. Qed.
(* gtpv1/gtpc/messages/deletepdpctxresp.rs, delete_pdp_ctx_resp_unmarshal_test *)
Example deletepdpctxresp__delete_pdp_ctx_resp_unmarshal_test : msg1_unmarshal DeletePDPContextResponse_T Debug [50; 21; 0; 6; 12; 191; 10; 80; 7; 231;
  0; 0; 1; 128] = Ok (mkMsg1 (mkCHdr 21 6 213846608 (Some 2023) None None) [Some (I1_Cause (mkTv 1 128)); None; None; None; None; None]).
Proof. vm_compute. reflexivity. Qed.
Example deletepdpctxresp__delete_pdp_ctx_resp_unmarshal_test_back : (fun x => msg1_marshal x []) ((mkMsg1 (mkCHdr 21 6 213846608 (Some 2023) None
  None) [Some (I1_Cause (mkTv 1 128)); None; None; None; None; None])) = [50; 21; 0; 6; 12; 191; 10; 80; 7; 231; 0; 0; 1; 128].
Proof. vm_compute. reflexivity. Qed.
(* gtpv1/gtpc/messages/deletepdpctxresp.rs, delete_pdp_ctx_resp_wrong_ie_order_unmarshal_test *)
Example deletepdpctxresp__delete_pdp_ctx_resp_wrong_ie_order_unmarshal_test : msg1_unmarshal DeletePDPContextResponse_T Debug [50; 21; 0; 13; 12; 191;
  10; 80; 7; 231; 0; 0; 214; 0; 4; 238; 107; 40; 0; 1; 128] = Err MessageInvalidMessageFormat.
Proof. vm_compute. reflexivity. Qed.
(* gtpv1/gtpc/messages/deletepdpctxresp.rs, delete_pdp_ctx_resp_missing_mandatory_ie_unmarshal_test *)
Example deletepdpctxresp__delete_pdp_ctx_resp_missing_mandatory_ie_unmarshal_test : msg1_unmarshal DeletePDPContextResponse_T Debug [50; 21; 0; 11;
  12; 191; 10; 80; 7; 231; 0; 0; 214; 0; 4; 238; 107; 40; 0] = Err MessageMandatoryIEMissing.
Proof. vm_compute. reflexivity. Qed.
(* gtpv1/gtpc/messages/echoreq.rs, test_echo_req_unmarshal *)
Example echoreq__test_echo_req_unmarshal : CEchoReq_unmarshal Debug [50; 1; 0; 4; 0; 0; 0; 0; 73; 202; 0; 0] = Ok (mkCEchoReq (mkCHdr 1 4 0 (Some
  18890) None None) None).
Proof. vm_compute. reflexivity. Qed.
Example echoreq__test_echo_req_unmarshal_back : (fun x => CEchoReq_marshal x []) ((mkCEchoReq (mkCHdr 1 4 0 (Some 18890) None None) None)) = [50; 1;
  0; 4; 0; 0; 0; 0; 73; 202; 0; 0].
Proof. vm_compute. reflexivity. Qed.
(* gtpv1/gtpc/messages/echoreq.rs, test_echo_req_with_private_ext_unmarshal *)
Example echoreq__test_echo_req_with_private_ext_unmarshal : CEchoReq_unmarshal Debug [50; 1; 0; 12; 0; 0; 0; 0; 73; 202; 0; 0; 255; 0; 5; 0; 8; 1; 2;
  3] = Ok (mkCEchoReq (mkCHdr 1 12 0 (Some 18890) None None) (Some (mkTlv 255 5 (mkPeV 8 [1; 2; 3])))).
Proof. vm_compute. reflexivity. Qed.
Example echoreq__test_echo_req_with_private_ext_unmarshal_back : (fun x => CEchoReq_marshal x []) ((mkCEchoReq (mkCHdr 1 12 0 (Some 18890) None None)
  (Some (mkTlv 255 5 (mkPeV 8 [1; 2; 3]))))) = [50; 1; 0; 12; 0; 0; 0; 0; 73; 202; 0; 0; 255; 0; 5; 0; 8; 1; 2; 3].
Proof. vm_compute. reflexivity. Qed.
(* gtpv1/gtpc/messages/echoreq.rs, test_echo_req_with_incorrect_private_ext_unmarshal *)
Example echoreq__test_echo_req_with_incorrect_private_ext_unmarshal : CEchoReq_unmarshal Debug [50; 1; 0; 12; 0; 0; 0; 0; 73; 202; 0; 0; 255; 0; 5; 0;
  8; 1; 2] = Ok (mkCEchoReq (mkCHdr 1 12 0 (Some 18890) None None) None).
Proof. vm_compute. reflexivity. Qed.
(* gtpv1/gtpc/messages/echoresp.rs, test_echo_resp_unmarshal *)
Example echoresp__test_echo_resp_unmarshal : CEchoResp_unmarshal Debug [50; 2; 0; 6; 0; 0; 0; 0; 246; 75; 0; 0; 14; 0] = Ok (mkCEchoResp (mkCHdr 2 6 0
  (Some 63051) None None) (mkTv 14 0) None).
Proof. vm_compute. reflexivity. Qed.
Example echoresp__test_echo_resp_unmarshal_back : (fun x => CEchoResp_marshal x []) ((mkCEchoResp (mkCHdr 2 6 0 (Some 63051) None None) (mkTv 14 0)
  None)) = [50; 2; 0; 6; 0; 0; 0; 0; 246; 75; 0; 0; 14; 0].
Proof. vm_compute. reflexivity. Qed.
(* gtpv1/gtpc/messages/echoresp.rs, test_echo_resp_without_mandatory_ie_unmarshal *)
Example echoresp__test_echo_resp_without_mandatory_ie_unmarshal : CEchoResp_unmarshal Debug [50; 2; 0; 6; 0; 0; 0; 0; 246; 75; 0; 0] = Err
  MessageMandatoryIEMissing.
Proof. vm_compute. reflexivity. Qed.
(* gtpv1/gtpc/messages/echoresp.rs, test_echo_resp_with_incorrect_mandatory_ie_unmarshal *)
Example echoresp__test_echo_resp_with_incorrect_mandatory_ie_unmarshal : CEchoResp_unmarshal Debug [50; 2; 0; 6; 0; 0; 0; 0; 246; 75; 0; 0; 15; 38] =
  Err MessageMandatoryIEMissing.
Proof. vm_compute. reflexivity. Qed.
(* gtpv1/gtpc/messages/echoresp.rs, test_echo_resp_with_private_ext_unmarshal *)
Example echoresp__test_echo_resp_with_private_ext_unmarshal : CEchoResp_unmarshal Debug [50; 2; 0; 14; 0; 0; 0; 0; 246; 75; 0; 0; 14; 0; 255; 0; 5; 0;
  8; 1; 2; 3] = Ok (mkCEchoResp (mkCHdr 2 14 0 (Some 63051) None None) (mkTv 14 0) (Some (mkTlv 255 5 (mkPeV 8 [1; 2; 3])))).
Proof. vm_compute. reflexivity. Qed.
Example echoresp__test_echo_resp_with_private_ext_unmarshal_back : (fun x => CEchoResp_marshal x []) ((mkCEchoResp (mkCHdr 2 14 0 (Some 63051) None
  None) (mkTv 14 0) (Some (mkTlv 255 5 (mkPeV 8 [1; 2; 3]))))) = [50; 2; 0; 14; 0; 0; 0; 0; 246; 75; 0; 0; 14; 0; 255; 0; 5; 0; 8; 1; 2; 3].
Proof. vm_compute. reflexivity. Qed.
(* gtpv1/gtpc/messages/echoresp.rs, test_echo_resp_with_with_incorrect_mandatory_ie_and_private_ext_unmarshal *)
Example echoresp__test_echo_resp_with_with_incorrect_mandatory_ie_and_private_ext_unmarshal : CEchoResp_unmarshal Debug [50; 2; 0; 14; 0; 0; 0; 0;
  246; 75; 0; 0; 15; 38; 255; 0; 5; 0; 8; 1; 2; 3] = Err MessageMandatoryIEMissing.
Proof. vm_compute. reflexivity. Qed.
(* gtpv1/gtpc/messages/echoresp.rs, test_echo_resp_with_with_missing_mandatory_ie_and_private_ext_unmarshal *)
Example echoresp__test_echo_resp_with_with_missing_mandatory_ie_and_private_ext_unmarshal : CEchoResp_unmarshal Debug [50; 2; 0; 12; 0; 0; 0; 0; 246;
  75; 0; 0; 255; 0; 5; 0; 8; 1; 2; 3] = Err MessageMandatoryIEMissing.
Proof. vm_compute. reflexivity. Qed.
(* gtpv1/gtpc/messages/echoresp.rs, test_echo_resp_with_incorrect_private_ext_unmarshal *)
Example echoresp__test_echo_resp_with_incorrect_private_ext_unmarshal : CEchoResp_unmarshal Debug [50; 2; 0; 14; 0; 0; 0; 0; 246; 75; 0; 0; 14; 38;
  255; 0; 5; 0; 8; 1; 2] = Ok (mkCEchoResp (mkCHdr 2 14 0 (Some 63051) None None) (mkTv 14 38) None).
Proof. vm_compute. reflexivity. Qed.
(* gtpv1/gtpc/messages/ies/additionaltraceinfo.rs, additionaltraceinfo_ie_unmarshal_test *)
Example additionaltraceinfo__additionaltraceinfo_ie_unmarshal_test : ie1_unmarshal K1_Ati Debug [162; 0; 9; 0; 255; 255; 0; 255; 1; 1; 1; 1] = Ok
  (I1_Ati (mkTlv 162 9 (mkAti 65535 255 1 1 1 1))).
Proof. vm_compute. reflexivity. Qed.
Example additionaltraceinfo__additionaltraceinfo_ie_unmarshal_test_back : ie1_marshal ((I1_Ati (mkTlv 162 9 (mkAti 65535 255 1 1 1 1)))) = [162; 0; 9;
  0; 255; 255; 0; 255; 1; 1; 1; 1].
Proof. vm_compute. reflexivity. Qed.
(* gtpv1/gtpc/messages/ies/apn.rs, apn_ie_unmarshal_test *)
Example apn__apn_ie_unmarshal_test : ie1_unmarshal K1_Apn Debug [131; 0; 13; 4; 116; 101; 115; 116; 3; 110; 101; 116; 3; 99; 111; 109] = Ok (I1_Apn
  (mkTlv 131 13 [116; 101; 115; 116; 46; 110; 101; 116; 46; 99; 111; 109])).
Proof. vm_compute. reflexivity. Qed.
Example apn__apn_ie_unmarshal_test_back : ie1_marshal ((I1_Apn (mkTlv 131 13 [116; 101; 115; 116; 46; 110; 101; 116; 46; 99; 111; 109]))) = [131; 0;
  13; 4; 116; 101; 115; 116; 3; 110; 101; 116; 3; 99; 111; 109].
Proof. vm_compute. reflexivity. Qed.
(* gtpv1/gtpc/messages/ies/apnambr.rs, apnambr_ie_unmarshal_test *)
Example apnambr__apnambr_ie_unmarshal_test : ie1_unmarshal K1_Ambr Debug [198; 0; 8; 0; 0; 7; 208; 0; 0; 31; 64] = Ok (I1_Ambr (mkTlv 198 8 (mkAmbr
  2000 8000))).
Proof. vm_compute. reflexivity. Qed.
Example apnambr__apnambr_ie_unmarshal_test_back : ie1_marshal ((I1_Ambr (mkTlv 198 8 (mkAmbr 2000 8000)))) = [198; 0; 8; 0; 0; 7; 208; 0; 0; 31; 64].
Proof. vm_compute. reflexivity. Qed.
(* gtpv1/gtpc/messages/ies/apnrestriction.rs, apnrestriciton_ie_unmarshal_test *)
Example apnrestriction__apnrestriciton_ie_unmarshal_test : ie1_unmarshal K1_ApnRestriction Debug [149; 0; 1; 0] = Ok (I1_ApnRestriction (mkTlv 149 1
  NoApnRestriction)).
Proof. vm_compute. reflexivity. Qed.
Example apnrestriction__apnrestriciton_ie_unmarshal_test_back : ie1_marshal ((I1_ApnRestriction (mkTlv 149 1 NoApnRestriction))) = [149; 0; 1; 0].
Proof. vm_compute. reflexivity. Qed.
(* gtpv1/gtpc/messages/ies/bearercontrolmode.rs, bearer_ctrl_mode_ie_unmarshal_test *)
Example bearercontrolmode__bearer_ctrl_mode_ie_unmarshal_test : ie1_unmarshal K1_BearerControlMode Debug [184; 0; 1; 0] = Ok (I1_BearerControlMode
  (mkTlv 184 1 0)).
Proof. vm_compute. reflexivity. Qed.
Example bearercontrolmode__bearer_ctrl_mode_ie_unmarshal_test_back : ie1_marshal ((I1_BearerControlMode (mkTlv 184 1 0))) = [184; 0; 1; 0].
Proof. vm_compute. reflexivity. Qed.
(* gtpv1/gtpc/messages/ies/camelcic.rs, camelcic_ie_unmarshal_test *)
Example camelcic__camelcic_ie_unmarshal_test : ie1_unmarshal K1_Camel Debug [155; 0; 4; 0; 0; 0; 0] = Ok (I1_Camel (mkTlv 155 4 [0; 0; 0; 0])).
Proof. vm_compute. reflexivity. Qed.
Example camelcic__camelcic_ie_unmarshal_test_back : ie1_marshal ((I1_Camel (mkTlv 155 4 [0; 0; 0; 0]))) = [155; 0; 4; 0; 0; 0; 0].
Proof. vm_compute. reflexivity. Qed.
(* gtpv1/gtpc/messages/ies/cause.rs, cause_ie_unmarshal_test *)
Example cause__cause_ie_unmarshal_test : ie1_unmarshal K1_Cause Debug [1; 128] = Ok (I1_Cause (mkTv 1 128)).
Proof. vm_compute. reflexivity. Qed.
Example cause__cause_ie_unmarshal_test_back : ie1_marshal ((I1_Cause (mkTv 1 128))) = [1; 128].
Proof. vm_compute. reflexivity. Qed.
(* gtpv1/gtpc/messages/ies/chargingcharateristics.rs, charging_characteristics_ie_unmarshal_test *)
Example chargingcharateristics__charging_characteristics_ie_unmarshal_test : ie1_unmarshal K1_ChargingChar Debug [26; 8; 0] = Ok (I1_ChargingChar
  (mkTv 26 8)).
Proof. vm_compute. reflexivity. Qed.
Example chargingcharateristics__charging_characteristics_ie_unmarshal_test_back : ie1_marshal ((I1_ChargingChar (mkTv 26 8))) = [26; 8; 0].
Proof. vm_compute. reflexivity. Qed.
(* gtpv1/gtpc/messages/ies/charginggwaddress.rs, charging_gw_address_ie_ipv4_unmarshal_test *)
Example charginggwaddress__charging_gw_address_ie_ipv4_unmarshal_test : ie1_unmarshal K1_ChargingGw Debug [251; 0; 4; 0; 0; 0; 0] = Ok (I1_ChargingGw
  (mkTlv 251 4 (V4 0 0 0 0))).
Proof. vm_compute. reflexivity. Qed.
Example charginggwaddress__charging_gw_address_ie_ipv4_unmarshal_test_back : ie1_marshal ((I1_ChargingGw (mkTlv 251 4 (V4 0 0 0 0)))) = [251; 0; 4; 0;
  0; 0; 0].
Proof. vm_compute. reflexivity. Qed.
(* gtpv1/gtpc/messages/ies/charginggwaddress.rs, charging_gw_address_ie_ipv6_unmarshal_test *)
Example charginggwaddress__charging_gw_address_ie_ipv6_unmarshal_test : ie1_unmarshal K1_ChargingGw Debug [251; 0; 16; 0; 0; 0; 0; 0; 0; 0; 0; 0; 0;
  0; 0; 0; 0; 0; 0] = Ok (I1_ChargingGw (mkTlv 251 16 (V6 [0; 0; 0; 0; 0; 0; 0; 0; 0; 0; 0; 0; 0; 0; 0; 0]))).
Proof. vm_compute. reflexivity. Qed.
Example charginggwaddress__charging_gw_address_ie_ipv6_unmarshal_test_back : ie1_marshal ((I1_ChargingGw (mkTlv 251 16 (V6 [0; 0; 0; 0; 0; 0; 0; 0; 0;
  0; 0; 0; 0; 0; 0; 0])))) = [251; 0; 16; 0; 0; 0; 0; 0; 0; 0; 0; 0; 0; 0; 0; 0; 0; 0; 0].
Proof. vm_compute. reflexivity. Qed.
(* gtpv1/gtpc/messages/ies/chargingid.rs, charging_id_ie_unmarshal_test *)
Example chargingid__charging_id_ie_unmarshal_test : ie1_unmarshal K1_ChargingId Debug [127; 0; 0; 0; 255] = Ok (I1_ChargingId (mkTv 127 255)).
Proof. vm_compute. reflexivity. Qed.
Example chargingid__charging_id_ie_unmarshal_test_back : ie1_marshal ((I1_ChargingId (mkTv 127 255))) = [127; 0; 0; 0; 255].
Proof. vm_compute. reflexivity. Qed.
(* gtpv1/gtpc/messages/ies/cnose.rs, cnose_ie_unmarshal_test *)
Example cnose__cnose_ie_unmarshal_test : ie1_unmarshal K1_Cnose Debug [216; 0; 1; 1] = Ok (I1_Cnose (mkTlv 216 1 ServingNetworkSelectedbyNetwork)).
Proof. vm_compute. reflexivity. Qed.
Example cnose__cnose_ie_unmarshal_test_back : ie1_marshal ((I1_Cnose (mkTlv 216 1 ServingNetworkSelectedbyNetwork))) = [216; 0; 1; 1].
Proof. vm_compute. reflexivity. Qed.
(* gtpv1/gtpc/messages/ies/commonflags.rs, commonflags_ie_unmarshal_test *)
Example commonflags__commonflags_ie_unmarshal_test : ie1_unmarshal K1_CommonFlags Debug [148; 0; 1; 96] = Ok (I1_CommonFlags (mkTlv 148 1 [false;
  true; true; false; false; false; false; false])).
Proof. vm_compute. reflexivity. Qed.
Example commonflags__commonflags_ie_unmarshal_test_back : ie1_marshal ((I1_CommonFlags (mkTlv 148 1 [false; true; true; false; false; false; false;
  false]))) = [148; 0; 1; 96].
Proof. vm_compute. reflexivity. Qed.
(* gtpv1/gtpc/messages/ies/correlationid.rs, correlationid_ie_unmarshal_test *)
Example correlationid__correlationid_ie_unmarshal_test : ie1_unmarshal K1_CorrelationId Debug [183; 0; 1; 255] = Ok (I1_CorrelationId (mkTlv 183 1
  255)).
Proof. vm_compute. reflexivity. Qed.
Example correlationid__correlationid_ie_unmarshal_test_back : ie1_marshal ((I1_CorrelationId (mkTlv 183 1 255))) = [183; 0; 1; 255].
Proof. vm_compute. reflexivity. Qed.
(* gtpv1/gtpc/messages/ies/csginforeporting.rs, csg_info_reporting_ie_unmarshal_test *)
Example csginforeporting__csg_info_reporting_ie_unmarshal_test : ie1_unmarshal K1_CsgInfo Debug [195; 0; 1; 7] = Ok (I1_CsgInfo (mkTlv 195 1 7)).
Proof. vm_compute. reflexivity. Qed.
Example csginforeporting__csg_info_reporting_ie_unmarshal_test_back : ie1_marshal ((I1_CsgInfo (mkTlv 195 1 7))) = [195; 0; 1; 7].
Proof. vm_compute. reflexivity. Qed.
(* gtpv1/gtpc/messages/ies/directtunnelflags.rs, dtf_ie_unmarshal_test *)
Example directtunnelflags__dtf_ie_unmarshal_test : ie1_unmarshal K1_DirectTunnel Debug [182; 0; 1; 3] = Ok (I1_DirectTunnel (mkTlv 182 1 [false; true;
  true])).
Proof. vm_compute. reflexivity. Qed.
Example directtunnelflags__dtf_ie_unmarshal_test_back : ie1_marshal ((I1_DirectTunnel (mkTlv 182 1 [false; true; true]))) = [182; 0; 1; 3].
Proof. vm_compute. reflexivity. Qed.
(* gtpv1/gtpc/messages/ies/enduseraddress.rs, end_user_address_ipv4_with_ip_ie_unmarshal_test *)
Example enduseraddress__end_user_address_ipv4_with_ip_ie_unmarshal_test : ie1_unmarshal K1_Eua Debug [128; 0; 6; 241; 33; 100; 117; 130; 53] = Ok
  (I1_Eua (mkTlv 128 6 (mkEua 1 33 (Some [100; 117; 130; 53]) None))).
Proof. vm_compute. reflexivity. Qed.
Example enduseraddress__end_user_address_ipv4_with_ip_ie_unmarshal_test_back : ie1_marshal ((I1_Eua (mkTlv 128 6 (mkEua 1 33 (Some [100; 117; 130;
  53]) None)))) = [128; 0; 6; 241; 33; 100; 117; 130; 53].
Proof. vm_compute. reflexivity. Qed.
(* gtpv1/gtpc/messages/ies/enduseraddress.rs, end_user_address_ipv4_without_ip_ie_unmarshal_test *)
Example enduseraddress__end_user_address_ipv4_without_ip_ie_unmarshal_test : ie1_unmarshal K1_Eua Debug [128; 0; 2; 241; 33] = Ok (I1_Eua (mkTlv 128 2
  (mkEua 1 33 None None))).
Proof. vm_compute. reflexivity. Qed.
Example enduseraddress__end_user_address_ipv4_without_ip_ie_unmarshal_test_back : ie1_marshal ((I1_Eua (mkTlv 128 2 (mkEua 1 33 None None)))) = [128;
  0; 2; 241; 33].
Proof. vm_compute. reflexivity. Qed.
(* gtpv1/gtpc/messages/ies/enduseraddress.rs, end_user_address_ipv6_with_ip_ie_unmarshal_test *)
Example enduseraddress__end_user_address_ipv6_with_ip_ie_unmarshal_test : ie1_unmarshal K1_Eua Debug [128; 0; 18; 241; 87; 0; 0; 0; 0; 0; 0; 0; 0; 0;
  0; 0; 0; 255; 255; 255; 255] = Ok (I1_Eua (mkTlv 128 18 (mkEua 1 87 None (Some [0; 0; 0; 0; 0; 0; 0; 0; 0; 0; 0; 0; 255; 255; 255; 255])))).
Proof. vm_compute. reflexivity. Qed.
Example enduseraddress__end_user_address_ipv6_with_ip_ie_unmarshal_test_back : ie1_marshal ((I1_Eua (mkTlv 128 18 (mkEua 1 87 None (Some [0; 0; 0; 0;
  0; 0; 0; 0; 0; 0; 0; 0; 255; 255; 255; 255]))))) = [128; 0; 18; 241; 87; 0; 0; 0; 0; 0; 0; 0; 0; 0; 0; 0; 0; 255; 255; 255; 255].
Proof. vm_compute. reflexivity. Qed.
(* gtpv1/gtpc/messages/ies/enduseraddress.rs, end_user_address_ipv6_without_ip_ie_unmarshal_test *)
Example enduseraddress__end_user_address_ipv6_without_ip_ie_unmarshal_test : ie1_unmarshal K1_Eua Debug [128; 0; 2; 241; 87] = Ok (I1_Eua (mkTlv 128 2
  (mkEua 1 87 None None))).
Proof. vm_compute. reflexivity. Qed.
Example enduseraddress__end_user_address_ipv6_without_ip_ie_unmarshal_test_back : ie1_marshal ((I1_Eua (mkTlv 128 2 (mkEua 1 87 None None)))) = [128;
  0; 2; 241; 87].
Proof. vm_compute. reflexivity. Qed.
(* gtpv1/gtpc/messages/ies/enduseraddress.rs, end_user_address_ipv46_with_ip_ie_unmarshal_test *)
Example enduseraddress__end_user_address_ipv46_with_ip_ie_unmarshal_test : ie1_unmarshal K1_Eua Debug [128; 0; 22; 241; 141; 100; 117; 130; 53; 0; 0;
  0; 0; 0; 0; 0; 0; 0; 0; 0; 0; 255; 255; 255; 255] = Ok (I1_Eua (mkTlv 128 22 (mkEua 1 141 (Some [100; 117; 130; 53]) (Some [0; 0; 0; 0; 0; 0; 0; 0;
  0; 0; 0; 0; 255; 255; 255; 255])))).
Proof. vm_compute. reflexivity. Qed.
Example enduseraddress__end_user_address_ipv46_with_ip_ie_unmarshal_test_back : ie1_marshal ((I1_Eua (mkTlv 128 22 (mkEua 1 141 (Some [100; 117; 130;
  53]) (Some [0; 0; 0; 0; 0; 0; 0; 0; 0; 0; 0; 0; 255; 255; 255; 255]))))) = [128; 0; 22; 241; 141; 100; 117; 130; 53; 0; 0; 0; 0; 0; 0; 0; 0; 0; 0;
  0; 0; 255; 255; 255; 255].
Proof. vm_compute. reflexivity. Qed.
(* gtpv1/gtpc/messages/ies/enduseraddress.rs, end_user_address_ipv46_without_ip_ie_unmarshal_test *)
Example enduseraddress__end_user_address_ipv46_without_ip_ie_unmarshal_test : ie1_unmarshal K1_Eua Debug [128; 0; 2; 241; 141] = Ok (I1_Eua (mkTlv 128
  2 (mkEua 1 141 None None))).
Proof. vm_compute. reflexivity. Qed.
Example enduseraddress__end_user_address_ipv46_without_ip_ie_unmarshal_test_back : ie1_marshal ((I1_Eua (mkTlv 128 2 (mkEua 1 141 None None)))) =
  [128; 0; 2; 241; 141].
Proof. vm_compute. reflexivity. Qed.
(* gtpv1/gtpc/messages/ies/enduseraddress.rs, end_user_address_etsi_ppp_ie_unmarshal_test *)
Example enduseraddress__end_user_address_etsi_ppp_ie_unmarshal_test : ie1_unmarshal K1_Eua Debug [128; 0; 2; 240; 1] = Ok (I1_Eua (mkTlv 128 2 (mkEua
  0 1 None None))).
Proof. vm_compute. reflexivity. Qed.
Example enduseraddress__end_user_address_etsi_ppp_ie_unmarshal_test_back : ie1_marshal ((I1_Eua (mkTlv 128 2 (mkEua 0 1 None None)))) = [128; 0; 2;
  240; 1].
Proof. vm_compute. reflexivity. Qed.
(* gtpv1/gtpc/messages/ies/enduseraddress.rs, end_user_address_etsi_nonip_ie_unmarshal_test *)
Example enduseraddress__end_user_address_etsi_nonip_ie_unmarshal_test : ie1_unmarshal K1_Eua Debug [128; 0; 2; 240; 2] = Ok (I1_Eua (mkTlv 128 2
  (mkEua 0 2 None None))).
Proof. vm_compute. reflexivity. Qed.
Example enduseraddress__end_user_address_etsi_nonip_ie_unmarshal_test_back : ie1_marshal ((I1_Eua (mkTlv 128 2 (mkEua 0 2 None None)))) = [128; 0; 2;
  240; 2].
Proof. vm_compute. reflexivity. Qed.
(* gtpv1/gtpc/messages/ies/evolvedallocretentioni.rs, evolvedallocretentioni_ie_unmarshal_test *)
Example evolvedallocretentioni__evolvedallocretentioni_ie_unmarshal_test : ie1_unmarshal K1_Earp Debug [191; 0; 1; 100] = Ok (I1_Earp (mkTlv 191 1
  (mkEarp 0 9 1))).
Proof. vm_compute. reflexivity. Qed.
Example evolvedallocretentioni__evolvedallocretentioni_ie_unmarshal_test_back : ie1_marshal ((I1_Earp (mkTlv 191 1 (mkEarp 0 9 1)))) = [191; 0; 1;
  100].
Proof. vm_compute. reflexivity. Qed.
(* gtpv1/gtpc/messages/ies/extendedcommonflags.rs, extcommonflags_ie_unmarshal_test *)
Example extendedcommonflags__extcommonflags_ie_unmarshal_test : ie1_unmarshal K1_ExtCommonFlags Debug [193; 0; 1; 97] = Ok (I1_ExtCommonFlags (mkTlv
  193 1 [false; true; true; false; false; false; false; true])).
Proof. vm_compute. reflexivity. Qed.
Example extendedcommonflags__extcommonflags_ie_unmarshal_test_back : ie1_marshal ((I1_ExtCommonFlags (mkTlv 193 1 [false; true; true; false; false;
  false; false; true]))) = [193; 0; 1; 97].
Proof. vm_compute. reflexivity. Qed.
(* gtpv1/gtpc/messages/ies/extendedcommonflagsii.rs, extcommonflagsii_ie_unmarshal_test *)
Example extendedcommonflagsii__extcommonflagsii_ie_unmarshal_test : ie1_unmarshal K1_ExtCommonFlagsII Debug [218; 0; 1; 3] = Ok (I1_ExtCommonFlagsII
  (mkTlv 218 1 [false; true; true])).
Proof. vm_compute. reflexivity. Qed.
Example extendedcommonflagsii__extcommonflagsii_ie_unmarshal_test_back : ie1_marshal ((I1_ExtCommonFlagsII (mkTlv 218 1 [false; true; true]))) = [218;
  0; 1; 3].
Proof. vm_compute. reflexivity. Qed.
(* gtpv1/gtpc/messages/ies/extensionheadertypelist.rs, extension_header_type_list_ie_unmarshal_test *)
Example extensionheadertypelist__extension_header_type_list_ie_unmarshal_test : CEhtl_unmarshal Debug [141; 5; 0; 1; 2; 3; 4] = Ok (mkTlv 141 5 [0; 1;
  2; 3; 4]).
Proof. vm_compute. reflexivity. Qed.
Example extensionheadertypelist__extension_header_type_list_ie_unmarshal_test_back : CEhtl_marshal ((mkTlv 141 5 [0; 1; 2; 3; 4])) = [141; 5; 0; 1; 2;
  3; 4].
Proof. vm_compute. reflexivity. Qed.
(* gtpv1/gtpc/messages/ies/ggsnbackofftime.rs, ggsn_backoff_ie_unmarshal_test *)
Example ggsnbackofftime__ggsn_backoff_ie_unmarshal_test : ie1_unmarshal K1_Backoff Debug [202; 0; 1; 127] = Ok (I1_Backoff (mkTlv 202 1 (mkBackoff 3
  31))).
Proof. vm_compute. reflexivity. Qed.
Example ggsnbackofftime__ggsn_backoff_ie_unmarshal_test_back : ie1_marshal ((I1_Backoff (mkTlv 202 1 (mkBackoff 3 31)))) = [202; 0; 1; 127].
Proof. vm_compute. reflexivity. Qed.
(* gtpv1/gtpc/messages/ies/gsnaddress.rs, gsn_address_ie_ipv4_unmarshal_test *)
Example gsnaddress__gsn_address_ie_ipv4_unmarshal_test : ie1_unmarshal K1_Gsn Debug [133; 0; 4; 0; 0; 0; 0] = Ok (I1_Gsn (mkTlv 133 4 (V4 0 0 0 0))).
Proof. vm_compute. reflexivity. Qed.
Example gsnaddress__gsn_address_ie_ipv4_unmarshal_test_back : ie1_marshal ((I1_Gsn (mkTlv 133 4 (V4 0 0 0 0)))) = [133; 0; 4; 0; 0; 0; 0].
Proof. vm_compute. reflexivity. Qed.
(* gtpv1/gtpc/messages/ies/gsnaddress.rs, gsn_address_ie_ipv6_unmarshal_test *)
Example gsnaddress__gsn_address_ie_ipv6_unmarshal_test : ie1_unmarshal K1_Gsn Debug [133; 0; 16; 0; 0; 0; 0; 0; 0; 0; 0; 0; 0; 0; 0; 0; 0; 0; 0] = Ok
  (I1_Gsn (mkTlv 133 16 (V6 [0; 0; 0; 0; 0; 0; 0; 0; 0; 0; 0; 0; 0; 0; 0; 0]))).
Proof. vm_compute. reflexivity. Qed.
Example gsnaddress__gsn_address_ie_ipv6_unmarshal_test_back : ie1_marshal ((I1_Gsn (mkTlv 133 16 (V6 [0; 0; 0; 0; 0; 0; 0; 0; 0; 0; 0; 0; 0; 0; 0;
  0])))) = [133; 0; 16; 0; 0; 0; 0; 0; 0; 0; 0; 0; 0; 0; 0; 0; 0; 0; 0].
Proof. vm_compute. reflexivity. Qed.
(* gtpv1/gtpc/messages/ies/imei.rs, imei_ie_unmarshal_test *)
Example imei__imei_ie_unmarshal_test : ie1_unmarshal K1_Imei Debug [154; 0; 8; 83; 119; 105; 1; 22; 115; 6; 240] = Ok (I1_Imei (mkTlv 154 8 [51; 53;
  55; 55; 57; 54; 49; 48; 54; 49; 51; 55; 54; 48; 48])).
Proof. vm_compute. reflexivity. Qed.
Example imei__imei_ie_unmarshal_test_back : ie1_marshal ((I1_Imei (mkTlv 154 8 [51; 53; 55; 55; 57; 54; 49; 48; 54; 49; 51; 55; 54; 48; 48]))) = [154;
  0; 8; 83; 119; 105; 1; 22; 115; 6; 240].
Proof. vm_compute. reflexivity. Qed.
(* gtpv1/gtpc/messages/ies/imsi.rs, imsi_ie_marshal_test *)
Example imsi__imsi_ie_marshal_test : ie1_unmarshal K1_Imsi Debug [2; 9; 65; 80; 1; 49; 114; 148; 246] = Ok (I1_Imsi (mkTv 2 [57; 48; 49; 52; 48; 53;
  49; 48; 49; 51; 50; 55; 52; 57; 54])).
Proof. vm_compute. reflexivity. Qed.
Example imsi__imsi_ie_marshal_test_back : ie1_marshal ((I1_Imsi (mkTv 2 [57; 48; 49; 52; 48; 53; 49; 48; 49; 51; 50; 55; 52; 57; 54]))) = [2; 9; 65;
  80; 1; 49; 114; 148; 246].
Proof. vm_compute. reflexivity. Qed.
(* gtpv1/gtpc/messages/ies/msinfochange.rs, ms_info_change_ie_unmarshal_test *)
Example msinfochange__ms_info_change_ie_unmarshal_test : ie1_unmarshal K1_MsInfoChange Debug [181; 0; 1; 1] = Ok (I1_MsInfoChange (mkTlv 181 1 1)).
Proof. vm_compute. reflexivity. Qed.
Example msinfochange__ms_info_change_ie_unmarshal_test_back : ie1_marshal ((I1_MsInfoChange (mkTlv 181 1 1))) = [181; 0; 1; 1].
Proof. vm_compute. reflexivity. Qed.
(* gtpv1/gtpc/messages/ies/msisdn.rs, msisdn_ie_marshal_test *)
Example msisdn__msisdn_ie_marshal_test : ie1_unmarshal K1_Msisdn Debug [134; 0; 9; 145; 153; 136; 88; 1; 81; 136; 22; 245] = Ok (I1_Msisdn (mkTlv 134
  9 (mkMsisdn 1 1 1 [57; 57; 56; 56; 56; 53; 49; 48; 49; 53; 56; 56; 54; 49; 53]))).
Proof. vm_compute. reflexivity. Qed.
Example msisdn__msisdn_ie_marshal_test_back : ie1_marshal ((I1_Msisdn (mkTlv 134 9 (mkMsisdn 1 1 1 [57; 57; 56; 56; 56; 53; 49; 48; 49; 53; 56; 56;
  54; 49; 53])))) = [134; 0; 9; 145; 153; 136; 88; 1; 81; 136; 22; 245].
Proof. vm_compute. reflexivity. Qed.
(* gtpv1/gtpc/messages/ies/mstimezone.rs, mstimezone_ie_unmarshal_test *)
Example mstimezone__mstimezone_ie_unmarshal_test : ie1_unmarshal K1_Tz Debug [153; 0; 2; 132; 0] = Ok (I1_Tz (mkTlv 153 2 (mkTz (-4) 0))).
Proof. vm_compute. reflexivity. Qed.
Example mstimezone__mstimezone_ie_unmarshal_test_back : ie1_marshal ((I1_Tz (mkTlv 153 2 (mkTz (-4) 0)))) = [153; 0; 2; 132; 0].
Proof. vm_compute. reflexivity. Qed.
(* gtpv1/gtpc/messages/ies/mueut.rs, mueut_ie_unmarshal_test *)
Example mueut__mueut_ie_unmarshal_test : ie1_unmarshal K1_Mueut Debug [223; 0; 2; 0; 15] = Ok (I1_Mueut (mkTlv 223 2 15)).
Proof. vm_compute. reflexivity. Qed.
Example mueut__mueut_ie_unmarshal_test_back : ie1_marshal ((I1_Mueut (mkTlv 223 2 15))) = [223; 0; 2; 0; 15].
Proof. vm_compute. reflexivity. Qed.
(* gtpv1/gtpc/messages/ies/nsapi.rs, nsapi_ie_unmarshal_test *)
Example nsapi__nsapi_ie_unmarshal_test : ie1_unmarshal K1_Nsapi Debug [20; 5] = Ok (I1_Nsapi (mkTv 20 5)).
Proof. vm_compute. reflexivity. Qed.
Example nsapi__nsapi_ie_unmarshal_test_back : ie1_marshal ((I1_Nsapi (mkTv 20 5))) = [20; 5].
Proof. vm_compute. reflexivity. Qed.
(* gtpv1/gtpc/messages/ies/omcid.rs, omcid_ie_unmarshal_test *)
Example omcid__omcid_ie_unmarshal_test : ie1_unmarshal K1_OmcId Debug [143; 0; 2; 128; 128] = Ok (I1_OmcId (mkTlv 143 2 [128; 128])).
Proof. vm_compute. reflexivity. Qed.
Example omcid__omcid_ie_unmarshal_test_back : ie1_marshal ((I1_OmcId (mkTlv 143 2 [128; 128]))) = [143; 0; 2; 128; 128].
Proof. vm_compute. reflexivity. Qed.
(* gtpv1/gtpc/messages/ies/pco.rs, pco_ie_unmarshal_test *)
Example pco__pco_ie_unmarshal_test : ie1_unmarshal K1_Pco Debug [132; 0; 20; 128; 128; 33; 16; 1; 1; 0; 16; 129; 6; 0; 0; 0; 0; 131; 6; 0; 0; 0; 0] =
  Ok (I1_Pco (mkTlv 132 20 [128; 128; 33; 16; 1; 1; 0; 16; 129; 6; 0; 0; 0; 0; 131; 6; 0; 0; 0; 0])).
Proof. vm_compute. reflexivity. Qed.
Example pco__pco_ie_unmarshal_test_back : ie1_marshal ((I1_Pco (mkTlv 132 20 [128; 128; 33; 16; 1; 1; 0; 16; 129; 6; 0; 0; 0; 0; 131; 6; 0; 0; 0;
  0]))) = [132; 0; 20; 128; 128; 33; 16; 1; 1; 0; 16; 129; 6; 0; 0; 0; 0; 131; 6; 0; 0; 0; 0].
Proof. vm_compute. reflexivity. Qed.
(* gtpv1/gtpc/messages/ies/privateextension.rs, private_extension_ie_unmarshal_test *)
Example privateextension__private_extension_ie_unmarshal_test : ie1_unmarshal K1_Pe Debug [255; 0; 5; 0; 8; 1; 2; 3] = Ok (I1_Pe (mkTlv 255 5 (mkPeV 8
  [1; 2; 3]))).
Proof. vm_compute. reflexivity. Qed.
Example privateextension__private_extension_ie_unmarshal_test_back : ie1_marshal ((I1_Pe (mkTlv 255 5 (mkPeV 8 [1; 2; 3])))) = [255; 0; 5; 0; 8; 1; 2;
  3].
Proof. vm_compute. reflexivity. Qed.
(* gtpv1/gtpc/messages/ies/qos.rs, pco_ie_unmarshal_test *)
Example qos__pco_ie_unmarshal_test : ie1_unmarshal K1_Qos Debug [135; 0; 12; 3; 27; 147; 31; 115; 150; 151; 151; 68; 251; 16; 64] = Ok (I1_Qos (mkTlv
  135 12 (mkQos 3 [27; 147; 31; 115; 150; 151; 151; 68; 251; 16; 64]))).
Proof. vm_compute. reflexivity. Qed.
Example qos__pco_ie_unmarshal_test_back : ie1_marshal ((I1_Qos (mkTlv 135 12 (mkQos 3 [27; 147; 31; 115; 150; 151; 151; 68; 251; 16; 64])))) = [135;
  0; 12; 3; 27; 147; 31; 115; 150; 151; 151; 68; 251; 16; 64].
Proof. vm_compute. reflexivity. Qed.
(* gtpv1/gtpc/messages/ies/rai.rs, rai_ie_unmarshal_test *)
Example rai__rai_ie_unmarshal_test : ie1_unmarshal K1_Rai Debug [3; 153; 249; 16; 3; 231; 67] = Ok (I1_Rai (mkTv 3 (mkRai (999, 1, false) 999 67))).
Proof. vm_compute. reflexivity. Qed.
Example rai__rai_ie_unmarshal_test_back : ie1_marshal ((I1_Rai (mkTv 3 (mkRai (999, 1, false) 999 67)))) = [3; 153; 249; 16; 3; 231; 67].
Proof. vm_compute. reflexivity. Qed.
(* gtpv1/gtpc/messages/ies/rattype.rs, rattype_ie_unmarshal_test *)
Example rattype__rattype_ie_unmarshal_test : ie1_unmarshal K1_RatType Debug [151; 0; 1; 2] = Ok (I1_RatType (mkTlv 151 1 Geran)).
Proof. vm_compute. reflexivity. Qed.
Example rattype__rattype_ie_unmarshal_test_back : ie1_marshal ((I1_RatType (mkTlv 151 1 Geran))) = [151; 0; 1; 2].
Proof. vm_compute. reflexivity. Qed.
(* gtpv1/gtpc/messages/ies/recovery.rs, recovery_ie_unmarshal_test *)
Example recovery__recovery_ie_unmarshal_test : ie1_unmarshal K1_Recovery Debug [14; 99] = Ok (I1_Recovery (mkTv 14 99)).
Proof. vm_compute. reflexivity. Qed.
Example recovery__recovery_ie_unmarshal_test_back : ie1_marshal ((I1_Recovery (mkTv 14 99))) = [14; 99].
Proof. vm_compute. reflexivity. Qed.
(* gtpv1/gtpc/messages/ies/reorderingreq.rs, reordering_required_ie_unmarshal_test *)
Example reorderingreq__reordering_required_ie_unmarshal_test : ie1_unmarshal K1_Reordering Debug [8; 255] = Ok (I1_Reordering (mkTv 8 true)).
Proof. vm_compute. reflexivity. Qed.
Example reorderingreq__reordering_required_ie_unmarshal_test_back : ie1_marshal ((I1_Reordering (mkTv 8 true))) = [8; 255].
Proof. vm_compute. reflexivity. Qed.
(* gtpv1/gtpc/messages/ies/selectionmode.rs, selectionmode_ie_unmarshal_test *)
Example selectionmode__selectionmode_ie_unmarshal_test : ie1_unmarshal K1_SelectionMode Debug [15; 252] = Ok (I1_SelectionMode (mkTv 15 0)).
Proof. vm_compute. reflexivity. Qed.
Example selectionmode__selectionmode_ie_unmarshal_test_back : ie1_marshal ((I1_SelectionMode (mkTv 15 0))) = [15; 252].
Proof. vm_compute. reflexivity. Qed.
(* gtpv1/gtpc/messages/ies/spi.rs, spi_ie_unmarshal_test *)
Example spi__spi_ie_unmarshal_test : ie1_unmarshal K1_Spi Debug [203; 0; 1; 1] = Ok (I1_Spi (mkTlv 203 1 true)).
Proof. vm_compute. reflexivity. Qed.
Example spi__spi_ie_unmarshal_test_back : ie1_marshal ((I1_Spi (mkTlv 203 1 true))) = [203; 0; 1; 1].
Proof. vm_compute. reflexivity. Qed.
(* gtpv1/gtpc/messages/ies/teardownind.rs, teardown_ind_ie_unmarshal_test *)
Example teardownind__teardown_ind_ie_unmarshal_test : ie1_unmarshal K1_Teardown Debug [19; 255] = Ok (I1_Teardown (mkTv 19 true)).
Proof. vm_compute. reflexivity. Qed.
Example teardownind__teardown_ind_ie_unmarshal_test_back : ie1_marshal ((I1_Teardown (mkTv 19 true))) = [19; 255].
Proof. vm_compute. reflexivity. Qed.
(* gtpv1/gtpc/messages/ies/teid.rs, teid_ie_unmarshal_test *)
Example teid__teid_ie_unmarshal_test : ie1_unmarshal K1_Teid Debug [17; 99; 65; 175; 215] = Ok (I1_Teid (mkTv 17 1665249239)).
Proof. vm_compute. reflexivity. Qed.
Example teid__teid_ie_unmarshal_test_back : ie1_marshal ((I1_Teid (mkTv 17 1665249239))) = [17; 99; 65; 175; 215].
Proof. vm_compute. reflexivity. Qed.
(* gtpv1/gtpc/messages/ies/tft.rs, tft_ie_unmarshal_test *)
Example tft__tft_ie_unmarshal_test : ie1_unmarshal K1_Tft Debug [137; 0; 2; 128; 128] = Ok (I1_Tft (mkTlv 137 2 [128; 128])).
Proof. vm_compute. reflexivity. Qed.
Example tft__tft_ie_unmarshal_test_back : ie1_marshal ((I1_Tft (mkTlv 137 2 [128; 128]))) = [137; 0; 2; 128; 128].
Proof. vm_compute. reflexivity. Qed.
(* gtpv1/gtpc/messages/ies/tracereference.rs, trace_reference_ie_unmarshal_test *)
Example tracereference__trace_reference_ie_unmarshal_test : ie1_unmarshal K1_TraceReference Debug [27; 3; 242] = Ok (I1_TraceReference (mkTv 27
  1010)).
Proof. vm_compute. reflexivity. Qed.
Example tracereference__trace_reference_ie_unmarshal_test_back : ie1_marshal ((I1_TraceReference (mkTv 27 1010))) = [27; 3; 242].
Proof. vm_compute. reflexivity. Qed.
(* gtpv1/gtpc/messages/ies/tracetype.rs, trace_type_ie_unmarshal_test *)
Example tracetype__trace_type_ie_unmarshal_test : ie1_unmarshal K1_TraceType Debug [28; 0; 2] = Ok (I1_TraceType (mkTv 28 2)).
Proof. vm_compute. reflexivity. Qed.
Example tracetype__trace_type_ie_unmarshal_test_back : ie1_marshal ((I1_TraceType (mkTv 28 2))) = [28; 0; 2].
Proof. vm_compute. reflexivity. Qed.
(* gtpv1/gtpc/messages/ies/triggerid.rs, triggerid_ie_unmarshal_test *)
Example triggerid__triggerid_ie_unmarshal_test : ie1_unmarshal K1_TriggerId Debug [142; 0; 2; 128; 128] = Ok (I1_TriggerId (mkTlv 142 2 [128; 128])).
Proof. vm_compute. reflexivity. Qed.
Example triggerid__triggerid_ie_unmarshal_test_back : ie1_marshal ((I1_TriggerId (mkTlv 142 2 [128; 128]))) = [142; 0; 2; 128; 128].
Proof. vm_compute. reflexivity. Qed.
(* gtpv1/gtpc/messages/ies/uci.rs, uci_ie_unmarshal_test *)
Example uci__uci_ie_unmarshal_test : ie1_unmarshal K1_Uci Debug [194; 0; 8; 98; 242; 48; 0; 0; 188; 62; 65] = Ok (I1_Uci (mkTlv 194 8 (mkUci (262, 3,
  false) 48190 HybridMode NonCsgMembership))).
Proof. vm_compute. reflexivity. Qed.
Example uci__uci_ie_unmarshal_test_back : ie1_marshal ((I1_Uci (mkTlv 194 8 (mkUci (262, 3, false) 48190 HybridMode NonCsgMembership)))) = [194; 0; 8;
  98; 242; 48; 0; 0; 188; 62; 65].
Proof. vm_compute. reflexivity. Qed.
(* gtpv1/gtpc/messages/ies/uli.rs, uli_ie_unmarshal_test_cgi *)
Example uli__uli_ie_unmarshal_test_cgi : ie1_unmarshal K1_Uli Debug [152; 0; 8; 0; 98; 242; 48; 188; 62; 54; 252] = Ok (I1_Uli (mkTlv 152 8 (mkUli
  (262, 3, false) 48190 (Ci 14076)))).
Proof. vm_compute. reflexivity. Qed.
Example uli__uli_ie_unmarshal_test_cgi_back : ie1_marshal ((I1_Uli (mkTlv 152 8 (mkUli (262, 3, false) 48190 (Ci 14076))))) = [152; 0; 8; 0; 98; 242;
  48; 188; 62; 54; 252].
Proof. vm_compute. reflexivity. Qed.
(* gtpv1/gtpc/messages/ies/uli.rs, uli_ie_unmarshal_test_sai *)
Example uli__uli_ie_unmarshal_test_sai : ie1_unmarshal K1_Uli Debug [152; 0; 8; 1; 98; 242; 48; 188; 62; 54; 252] = Ok (I1_Uli (mkTlv 152 8 (mkUli
  (262, 3, false) 48190 (Sac 14076)))).
Proof. vm_compute. reflexivity. Qed.
Example uli__uli_ie_unmarshal_test_sai_back : ie1_marshal ((I1_Uli (mkTlv 152 8 (mkUli (262, 3, false) 48190 (Sac 14076))))) = [152; 0; 8; 1; 98; 242;
  48; 188; 62; 54; 252].
Proof. vm_compute. reflexivity. Qed.
(* gtpv1/gtpc/messages/ies/uli.rs, uli_ie_unmarshal_test_rai *)
Example uli__uli_ie_unmarshal_test_rai : ie1_unmarshal K1_Uli Debug [152; 0; 8; 2; 98; 242; 48; 188; 62; 16; 255] = Ok (I1_Uli (mkTlv 152 8 (mkUli
  (262, 3, false) 48190 (Rac 16)))).
Proof. vm_compute. reflexivity. Qed.
Example uli__uli_ie_unmarshal_test_rai_back : ie1_marshal ((I1_Uli (mkTlv 152 8 (mkUli (262, 3, false) 48190 (Rac 16))))) = [152; 0; 8; 2; 98; 242;
  48; 188; 62; 16; 255].
Proof. vm_compute. reflexivity. Qed.
(* gtpv1/gtpc/messages/ies/ulitimestamp.rs, uli_timestamp_ie_unmarshal_test *)
Example ulitimestamp__uli_timestamp_ie_unmarshal_test : ie1_unmarshal K1_UliTs Debug [214; 0; 4; 238; 107; 40; 0] = Ok (I1_UliTs (mkTlv 214 4
  4000000000)).
Proof. vm_compute. reflexivity. Qed.
Example ulitimestamp__uli_timestamp_ie_unmarshal_test_back : ie1_marshal ((I1_UliTs (mkTlv 214 4 4000000000))) = [214; 0; 4; 238; 107; 40; 0].
Proof. vm_compute. reflexivity. Qed.
(* gtpv1/gtpc/messages/ies/upfsif.rs, upfsif_ie_unmarshal_test *)
Example upfsif__upfsif_ie_unmarshal_test : ie1_unmarshal K1_Upfsif Debug [224; 0; 1; 1] = Ok (I1_Upfsif (mkTlv 224 1 true)).
Proof. vm_compute. reflexivity. Qed.
Example upfsif__upfsif_ie_unmarshal_test_back : ie1_marshal ((I1_Upfsif (mkTlv 224 1 true))) = [224; 0; 1; 1].
Proof. vm_compute. reflexivity. Qed.
(* gtpv1/gtpc/messages/initiatepdpctxactivationreq.rs, init_pdp_ctx_activation_req_unmarshal_test *)
Example initiatepdpctxactivationreq__init_pdp_ctx_activation_req_unmarshal_test : msg1_unmarshal InitiatePDPContextActivationRequest_T Debug [50; 22;
  0; 28; 55; 56; 191; 122; 155; 207; 0; 0; 20; 5; 135; 0; 15; 3; 27; 99; 31; 115; 150; 115; 115; 116; 255; 255; 255; 0; 0; 0; 183; 0; 1; 255] = Ok
  (mkMsg1 (mkCHdr 22 28 926465914 (Some 39887) None None) [Some (I1_Nsapi (mkTv 20 5)); None; Some (I1_Qos (mkTlv 135 15 (mkQos 3 [27; 99; 31; 115;
  150; 115; 115; 116; 255; 255; 255; 0; 0; 0]))); None; Some (I1_CorrelationId (mkTlv 183 1 255)); None; None]).
Proof. vm_compute. reflexivity. Qed.
Example initiatepdpctxactivationreq__init_pdp_ctx_activation_req_unmarshal_test_back : (fun x => msg1_marshal x []) ((mkMsg1 (mkCHdr 22 28 926465914
  (Some 39887) None None) [Some (I1_Nsapi (mkTv 20 5)); None; Some (I1_Qos (mkTlv 135 15 (mkQos 3 [27; 99; 31; 115; 150; 115; 115; 116; 255; 255; 255;
  0; 0; 0]))); None; Some (I1_CorrelationId (mkTlv 183 1 255)); None; None])) = [50; 22; 0; 28; 55; 56; 191; 122; 155; 207; 0; 0; 20; 5; 135; 0; 15;
  3; 27; 99; 31; 115; 150; 115; 115; 116; 255; 255; 255; 0; 0; 0; 183; 0; 1; 255].
Proof. vm_compute. reflexivity. Qed.
(* gtpv1/gtpc/messages/initiatepdpctxactivationreq.rs, init_pdp_ctx_activation_req_wrong_ie_order_unmarshal_test *)
Example initiatepdpctxactivationreq__init_pdp_ctx_activation_req_wrong_ie_order_unmarshal_test : msg1_unmarshal InitiatePDPContextActivationRequest_T
  Debug [50; 22; 0; 28; 55; 56; 191; 122; 155; 207; 0; 0; 183; 0; 1; 255; 20; 5; 135; 0; 15; 3; 27; 99; 31; 115; 150; 115; 115; 116; 255; 255; 255; 0;
  0; 0] = Err MessageInvalidMessageFormat.
Proof. vm_compute. reflexivity. Qed.
(* gtpv1/gtpc/messages/initiatepdpctxactivationreq.rs, init_pdp_ctx_activation_req_missing_mandatory_ie_unmarshal_test *)
Example initiatepdpctxactivationreq__init_pdp_ctx_activation_req_missing_mandatory_ie_unmarshal_test : msg1_unmarshal
  InitiatePDPContextActivationRequest_T Debug [50; 22; 0; 24; 55; 56; 191; 122; 155; 207; 0; 0; 20; 5; 135; 0; 15; 3; 27; 99; 31; 115; 150; 115; 115;
  116; 255; 255; 255; 0; 0; 0] = Err MessageMandatoryIEMissing.
Proof. vm_compute. reflexivity. Qed.
(* gtpv1/gtpc/messages/initiatepdpctxactivationresp.rs, init_pdp_ctx_activ_resp_unmarshal_test *)
Example initiatepdpctxactivationresp__init_pdp_ctx_activ_resp_unmarshal_test : msg1_unmarshal InitiatePDPContextActivationResponse_T Debug [50; 23; 0;
  6; 55; 56; 191; 122; 155; 207; 0; 0; 1; 128] = Ok (mkMsg1 (mkCHdr 23 6 926465914 (Some 39887) None None) [Some (I1_Cause (mkTv 1 128)); None;
  None]).
Proof. vm_compute. reflexivity. Qed.
Example initiatepdpctxactivationresp__init_pdp_ctx_activ_resp_unmarshal_test_back : (fun x => msg1_marshal x []) ((mkMsg1 (mkCHdr 23 6 926465914 (Some
  39887) None None) [Some (I1_Cause (mkTv 1 128)); None; None])) = [50; 23; 0; 6; 55; 56; 191; 122; 155; 207; 0; 0; 1; 128].
Proof. vm_compute. reflexivity. Qed.
(* gtpv1/gtpc/messages/initiatepdpctxactivationresp.rs, init_pdp_ctx_activ_resp_wrong_ie_order_unmarshal_test *)
Example initiatepdpctxactivationresp__init_pdp_ctx_activ_resp_wrong_ie_order_unmarshal_test : msg1_unmarshal InitiatePDPContextActivationResponse_T
  Debug [50; 23; 0; 8; 55; 56; 191; 122; 155; 207; 0; 0; 8; 254; 1; 128] = Err MessageInvalidMessageFormat.
Proof. vm_compute. reflexivity. Qed.
(* gtpv1/gtpc/messages/initiatepdpctxactivationresp.rs, init_pdp_ctx_activ_resp_missing_mandatory_ie_unmarshal_test *)
Example initiatepdpctxactivationresp__init_pdp_ctx_activ_resp_missing_mandatory_ie_unmarshal_test : msg1_unmarshal
  InitiatePDPContextActivationResponse_T Debug [50; 23; 0; 4; 55; 56; 191; 122; 155; 207; 0; 0] = Err MessageMandatoryIEMissing.
Proof. vm_compute. reflexivity. Qed.
(* gtpv1/gtpc/messages/msinfochangenotifreq.rs, ms_info_change_notification_req_unmarshal_test *)
Example msinfochangenotifreq__ms_info_change_notification_req_unmarshal_test : msg1_unmarshal MSInfoChangeNotificationRequest_T Debug [50; 128; 0; 41;
  55; 56; 191; 122; 155; 207; 0; 0; 2; 9; 65; 80; 1; 113; 68; 69; 246; 20; 0; 151; 0; 1; 2; 152; 0; 8; 0; 19; 0; 98; 83; 23; 4; 39; 154; 0; 8; 104;
  153; 21; 48; 145; 100; 16; 16] = Ok (mkMsg1 (mkCHdr 128 41 926465914 (Some 39887) None None) [Some (I1_Imsi (mkTv 2 [57; 48; 49; 52; 48; 53; 49; 48;
  49; 55; 52; 52; 53; 52; 54])); Some (I1_Nsapi (mkTv 20 0)); Some (I1_RatType (mkTlv 151 1 Geran)); Some (I1_Uli (mkTlv 152 8 (mkUli (310, 260, true)
  21271 (Ci 1063)))); Some (I1_Imei (mkTlv 154 8 [56; 54; 57; 57; 53; 49; 48; 51; 49; 57; 52; 54; 48; 49; 48; 49])); None; None; None]).
Proof. vm_compute. reflexivity. Qed.
Example msinfochangenotifreq__ms_info_change_notification_req_unmarshal_test_back : (fun x => msg1_marshal x []) ((mkMsg1 (mkCHdr 128 41 926465914
  (Some 39887) None None) [Some (I1_Imsi (mkTv 2 [57; 48; 49; 52; 48; 53; 49; 48; 49; 55; 52; 52; 53; 52; 54])); Some (I1_Nsapi (mkTv 20 0)); Some
  (I1_RatType (mkTlv 151 1 Geran)); Some (I1_Uli (mkTlv 152 8 (mkUli (310, 260, true) 21271 (Ci 1063)))); Some (I1_Imei (mkTlv 154 8 [56; 54; 57; 57;
  53; 49; 48; 51; 49; 57; 52; 54; 48; 49; 48; 49])); None; None; None])) = [50; 128; 0; 41; 55; 56; 191; 122; 155; 207; 0; 0; 2; 9; 65; 80; 1; 113;
  68; 69; 246; 20; 0; 151; 0; 1; 2; 152; 0; 8; 0; 19; 0; 98; 83; 23; 4; 39; 154; 0; 8; 104; 153; 21; 48; 145; 100; 16; 16].
Proof. vm_compute. reflexivity. Qed.
(* gtpv1/gtpc/messages/msinfochangenotifreq.rs, ms_info_change_notification_req_wrong_ie_order_unmarshal_test *)
Example msinfochangenotifreq__ms_info_change_notification_req_wrong_ie_order_unmarshal_test : msg1_unmarshal MSInfoChangeNotificationRequest_T Debug
  [50; 128; 0; 41; 55; 56; 191; 122; 155; 207; 0; 0; 2; 9; 65; 80; 1; 113; 68; 69; 246; 151; 0; 1; 2; 20; 0; 152; 0; 8; 0; 19; 0; 98; 83; 23; 4; 39;
  154; 0; 8; 104; 153; 21; 48; 145; 100; 16; 16] = Err MessageInvalidMessageFormat.
Proof. vm_compute. reflexivity. Qed.
(* gtpv1/gtpc/messages/msinfochangenotifreq.rs, ms_info_change_notification_req_missing_mandatory_ie_unmarshal_test *)
Example msinfochangenotifreq__ms_info_change_notification_req_missing_mandatory_ie_unmarshal_test : msg1_unmarshal MSInfoChangeNotificationRequest_T
  Debug [50; 128; 0; 37; 55; 56; 191; 122; 155; 207; 0; 0; 2; 9; 65; 80; 1; 113; 68; 69; 246; 20; 0; 152; 0; 8; 0; 19; 0; 98; 83; 23; 4; 39; 154; 0;
  8; 104; 153; 21; 48; 145; 100; 16; 16] = Err MessageMandatoryIEMissing.
Proof. vm_compute. reflexivity. Qed.
(* gtpv1/gtpc/messages/msinfochangenotifresp.rs, ms_info_change_notification_resp_unmarshal_test *)
Example msinfochangenotifresp__ms_info_change_notification_resp_unmarshal_test : msg1_unmarshal MSInfoChangeNotificationResponse_T Debug [50; 129; 0;
  28; 55; 56; 191; 122; 155; 207; 0; 0; 1; 128; 2; 9; 65; 80; 1; 113; 68; 69; 246; 20; 0; 154; 0; 8; 104; 153; 21; 48; 145; 100; 16; 16] = Ok (mkMsg1
  (mkCHdr 129 28 926465914 (Some 39887) None None) [Some (I1_Cause (mkTv 1 128)); Some (I1_Imsi (mkTv 2 [57; 48; 49; 52; 48; 53; 49; 48; 49; 55; 52;
  52; 53; 52; 54])); Some (I1_Nsapi (mkTv 20 0)); Some (I1_Imei (mkTlv 154 8 [56; 54; 57; 57; 53; 49; 48; 51; 49; 57; 52; 54; 48; 49; 48; 49])); None;
  None; None]).
Proof. vm_compute. reflexivity. Qed.
Example msinfochangenotifresp__ms_info_change_notification_resp_unmarshal_test_back : (fun x => msg1_marshal x []) ((mkMsg1 (mkCHdr 129 28 926465914
  (Some 39887) None None) [Some (I1_Cause (mkTv 1 128)); Some (I1_Imsi (mkTv 2 [57; 48; 49; 52; 48; 53; 49; 48; 49; 55; 52; 52; 53; 52; 54])); Some
  (I1_Nsapi (mkTv 20 0)); Some (I1_Imei (mkTlv 154 8 [56; 54; 57; 57; 53; 49; 48; 51; 49; 57; 52; 54; 48; 49; 48; 49])); None; None; None])) = [50;
  129; 0; 28; 55; 56; 191; 122; 155; 207; 0; 0; 1; 128; 2; 9; 65; 80; 1; 113; 68; 69; 246; 20; 0; 154; 0; 8; 104; 153; 21; 48; 145; 100; 16; 16].
Proof. vm_compute. reflexivity. Qed.
(* gtpv1/gtpc/messages/msinfochangenotifresp.rs, ms_info_change_notification_resp_wrong_ie_order_unmarshal_test *)
Example msinfochangenotifresp__ms_info_change_notification_resp_wrong_ie_order_unmarshal_test : msg1_unmarshal MSInfoChangeNotificationResponse_T
  Debug [50; 129; 0; 28; 55; 56; 191; 122; 155; 207; 0; 0; 2; 9; 65; 80; 1; 113; 68; 69; 246; 1; 128; 20; 0; 154; 0; 8; 104; 153; 21; 48; 145; 100;
  16; 16] = Err MessageInvalidMessageFormat.
Proof. vm_compute. reflexivity. Qed.
(* gtpv1/gtpc/messages/msinfochangenotifresp.rs, ms_info_change_notification_resp_missing_mandatory_ie_unmarshal_test *)
Example msinfochangenotifresp__ms_info_change_notification_resp_missing_mandatory_ie_unmarshal_test : msg1_unmarshal
  MSInfoChangeNotificationResponse_T Debug [50; 129; 0; 26; 55; 56; 191; 122; 155; 207; 0; 0; 2; 9; 65; 80; 1; 113; 68; 69; 246; 20; 0; 154; 0; 8;
  104; 153; 21; 48; 145; 100; 16; 16] = Err MessageMandatoryIEMissing.
Proof. vm_compute. reflexivity. Qed.
(* gtpv1/gtpc/messages/pdunotificationrejectreq.rs, pdu_notification_reject_req_unmarshal_test *)
Example pdunotificationrejectreq__pdu_notification_reject_req_unmarshal_test : msg1_unmarshal PDUNotificationRejectRequest_T Debug [50; 29; 0; 36; 55;
  56; 191; 122; 155; 207; 0; 0; 1; 5; 17; 166; 151; 73; 244; 128; 0; 6; 241; 33; 10; 219; 59; 48; 131; 0; 13; 3; 105; 111; 116; 4; 49; 110; 99; 101;
  3; 110; 101; 116] = Ok (mkMsg1 (mkCHdr 29 36 926465914 (Some 39887) None None) [Some (I1_Cause (mkTv 1 5)); Some (I1_Teid (mkTv 17 2794932724));
  Some (I1_Eua (mkTlv 128 6 (mkEua 1 33 (Some [10; 219; 59; 48]) None))); Some (I1_Apn (mkTlv 131 13 [105; 111; 116; 46; 49; 110; 99; 101; 46; 110;
  101; 116])); None; None]).
Proof. vm_compute. reflexivity. Qed.
Example pdunotificationrejectreq__pdu_notification_reject_req_unmarshal_test_back : (fun x => msg1_marshal x []) ((mkMsg1 (mkCHdr 29 36 926465914
  (Some 39887) None None) [Some (I1_Cause (mkTv 1 5)); Some (I1_Teid (mkTv 17 2794932724)); Some (I1_Eua (mkTlv 128 6 (mkEua 1 33 (Some [10; 219; 59;
  48]) None))); Some (I1_Apn (mkTlv 131 13 [105; 111; 116; 46; 49; 110; 99; 101; 46; 110; 101; 116])); None; None])) = [50; 29; 0; 36; 55; 56; 191;
  122; 155; 207; 0; 0; 1; 5; 17; 166; 151; 73; 244; 128; 0; 6; 241; 33; 10; 219; 59; 48; 131; 0; 13; 3; 105; 111; 116; 4; 49; 110; 99; 101; 3; 110;
  101; 116].
Proof. vm_compute. reflexivity. Qed.
(* gtpv1/gtpc/messages/pdunotificationrejectreq.rs, pdu_notification_reject_req_wrong_ie_order_unmarshal_test *)
Example pdunotificationrejectreq__pdu_notification_reject_req_wrong_ie_order_unmarshal_test : msg1_unmarshal PDUNotificationRejectRequest_T Debug [50;
  29; 0; 36; 55; 56; 191; 122; 155; 207; 0; 0; 17; 166; 151; 73; 244; 1; 5; 128; 0; 6; 241; 33; 10; 219; 59; 48; 131; 0; 13; 3; 105; 111; 116; 4; 49;
  110; 99; 101; 3; 110; 101; 116] = Err MessageInvalidMessageFormat.
Proof. vm_compute. reflexivity. Qed.
(* gtpv1/gtpc/messages/pdunotificationrejectreq.rs, pdu_notification_reject_req_missing_mandatory_ie_unmarshal_test *)
Example pdunotificationrejectreq__pdu_notification_reject_req_missing_mandatory_ie_unmarshal_test : msg1_unmarshal PDUNotificationRejectRequest_T
  Debug [50; 29; 0; 34; 55; 56; 191; 122; 155; 207; 0; 0; 17; 166; 151; 73; 244; 128; 0; 6; 241; 33; 10; 219; 59; 48; 131; 0; 13; 3; 105; 111; 116; 4;
  49; 110; 99; 101; 3; 110; 101; 116] = Err MessageMandatoryIEMissing.
Proof. vm_compute. reflexivity. Qed.
(* gtpv1/gtpc/messages/pdunotificationrejectresp.rs, pdu_notification_reject_resp_unmarshal_test *)
Example pdunotificationrejectresp__pdu_notification_reject_resp_unmarshal_test : msg1_unmarshal PDUNotificationRejectResponse_T Debug [50; 30; 0; 6;
  55; 56; 191; 122; 155; 207; 0; 0; 1; 128] = Ok (mkMsg1 (mkCHdr 30 6 926465914 (Some 39887) None None) [Some (I1_Cause (mkTv 1 128)); None]).
Proof. vm_compute. reflexivity. Qed.
Example pdunotificationrejectresp__pdu_notification_reject_resp_unmarshal_test_back : (fun x => msg1_marshal x []) ((mkMsg1 (mkCHdr 30 6 926465914
  (Some 39887) None None) [Some (I1_Cause (mkTv 1 128)); None])) = [50; 30; 0; 6; 55; 56; 191; 122; 155; 207; 0; 0; 1; 128].
Proof. vm_compute. reflexivity. Qed.
(* gtpv1/gtpc/messages/pdunotificationrejectresp.rs, pdu_notification_reject_resp_wrong_ie_order_unmarshal_test *)
Example pdunotificationrejectresp__pdu_notification_reject_resp_wrong_ie_order_unmarshal_test : msg1_unmarshal PDUNotificationRejectResponse_T Debug
  [50; 30; 0; 12; 55; 56; 191; 122; 155; 207; 0; 0; 255; 0; 3; 0; 1; 0; 1; 128] = Err MessageInvalidMessageFormat.
Proof. vm_compute. reflexivity. Qed.
(* gtpv1/gtpc/messages/pdunotificationrejectresp.rs, pdu_notification_reject_resp_missing_mandatory_ie_unmarshal_test *)
Example pdunotificationrejectresp__pdu_notification_reject_resp_missing_mandatory_ie_unmarshal_test : msg1_unmarshal PDUNotificationRejectResponse_T
  Debug [50; 30; 0; 10; 55; 56; 191; 122; 155; 207; 0; 0; 255; 0; 3; 0; 1; 0] = Err MessageMandatoryIEMissing.
Proof. vm_compute. reflexivity. Qed.
(* gtpv1/gtpc/messages/pdunotificationreq.rs, pdu_notification_req_unmarshal_test *)
Example pdunotificationreq__pdu_notification_req_unmarshal_test : msg1_unmarshal PDUNotificationRequest_T Debug [50; 27; 0; 85; 55; 56; 191; 122; 155;
  207; 0; 0; 2; 9; 65; 80; 1; 113; 68; 69; 246; 17; 166; 151; 73; 244; 128; 0; 6; 241; 33; 10; 219; 59; 48; 131; 0; 13; 3; 105; 111; 116; 4; 49; 110;
  99; 101; 3; 110; 101; 116; 132; 0; 32; 128; 128; 33; 16; 1; 0; 0; 16; 129; 6; 0; 0; 0; 0; 131; 6; 0; 0; 0; 0; 0; 13; 0; 0; 10; 0; 0; 5; 0; 0; 17; 0;
  133; 0; 4; 62; 153; 137; 96] = Ok (mkMsg1 (mkCHdr 27 85 926465914 (Some 39887) None None) [Some (I1_Imsi (mkTv 2 [57; 48; 49; 52; 48; 53; 49; 48;
  49; 55; 52; 52; 53; 52; 54])); Some (I1_Teid (mkTv 17 2794932724)); Some (I1_Eua (mkTlv 128 6 (mkEua 1 33 (Some [10; 219; 59; 48]) None))); Some
  (I1_Apn (mkTlv 131 13 [105; 111; 116; 46; 49; 110; 99; 101; 46; 110; 101; 116])); Some (I1_Pco (mkTlv 132 32 [128; 128; 33; 16; 1; 0; 0; 16; 129; 6;
  0; 0; 0; 0; 131; 6; 0; 0; 0; 0; 0; 13; 0; 0; 10; 0; 0; 5; 0; 0; 17; 0])); Some (I1_Gsn (mkTlv 133 4 (V4 62 153 137 96))); None]).
Proof. vm_compute. reflexivity. Qed.
Example pdunotificationreq__pdu_notification_req_unmarshal_test_back : (fun x => msg1_marshal x []) ((mkMsg1 (mkCHdr 27 85 926465914 (Some 39887) None
  None) [Some (I1_Imsi (mkTv 2 [57; 48; 49; 52; 48; 53; 49; 48; 49; 55; 52; 52; 53; 52; 54])); Some (I1_Teid (mkTv 17 2794932724)); Some (I1_Eua
  (mkTlv 128 6 (mkEua 1 33 (Some [10; 219; 59; 48]) None))); Some (I1_Apn (mkTlv 131 13 [105; 111; 116; 46; 49; 110; 99; 101; 46; 110; 101; 116]));
  Some (I1_Pco (mkTlv 132 32 [128; 128; 33; 16; 1; 0; 0; 16; 129; 6; 0; 0; 0; 0; 131; 6; 0; 0; 0; 0; 0; 13; 0; 0; 10; 0; 0; 5; 0; 0; 17; 0])); Some
  (I1_Gsn (mkTlv 133 4 (V4 62 153 137 96))); None])) = [50; 27; 0; 85; 55; 56; 191; 122; 155; 207; 0; 0; 2; 9; 65; 80; 1; 113; 68; 69; 246; 17; 166;
  151; 73; 244; 128; 0; 6; 241; 33; 10; 219; 59; 48; 131; 0; 13; 3; 105; 111; 116; 4; 49; 110; 99; 101; 3; 110; 101; 116; 132; 0; 32; 128; 128; 33;
  16; 1; 0; 0; 16; 129; 6; 0; 0; 0; 0; 131; 6; 0; 0; 0; 0; 0; 13; 0; 0; 10; 0; 0; 5; 0; 0; 17; 0; 133; 0; 4; 62; 153; 137; 96].
Proof. vm_compute. reflexivity. Qed.
(* gtpv1/gtpc/messages/pdunotificationreq.rs, pdu_notification_req_wrong_ie_order_unmarshal_test *)
Example pdunotificationreq__pdu_notification_req_wrong_ie_order_unmarshal_test : msg1_unmarshal PDUNotificationRequest_T Debug [50; 27; 0; 85; 55; 56;
  191; 122; 155; 207; 0; 0; 2; 9; 65; 80; 1; 113; 68; 69; 246; 17; 166; 151; 73; 244; 128; 0; 6; 241; 33; 10; 219; 59; 48; 131; 0; 13; 3; 105; 111;
  116; 4; 49; 110; 99; 101; 3; 110; 101; 116; 133; 0; 4; 62; 153; 137; 96; 132; 0; 32; 128; 128; 33; 16; 1; 0; 0; 16; 129; 6; 0; 0; 0; 0; 131; 6; 0;
  0; 0; 0; 0; 13; 0; 0; 10; 0; 0; 5; 0; 0; 17; 0] = Err MessageInvalidMessageFormat.
Proof. vm_compute. reflexivity. Qed.
(* gtpv1/gtpc/messages/pdunotificationreq.rs, pdu_notification_req_missing_mandatory_ie_unmarshal_test *)
Example pdunotificationreq__pdu_notification_req_missing_mandatory_ie_unmarshal_test : msg1_unmarshal PDUNotificationRequest_T Debug [50; 27; 0; 78;
  55; 56; 191; 122; 155; 207; 0; 0; 2; 9; 65; 80; 1; 113; 68; 69; 246; 17; 166; 151; 73; 244; 128; 0; 6; 241; 33; 10; 219; 59; 48; 131; 0; 13; 3; 105;
  111; 116; 4; 49; 110; 99; 101; 3; 110; 101; 116; 132; 0; 32; 128; 128; 33; 16; 1; 0; 0; 16; 129; 6; 0; 0; 0; 0; 131; 6; 0; 0; 0; 0; 0; 13; 0; 0; 10;
  0; 0; 5; 0; 0; 17; 0] = Err MessageMandatoryIEMissing.
Proof. vm_compute. reflexivity. Qed.
(* gtpv1/gtpc/messages/pdunotificationresp.rs, pdu_notification_resp_unmarshal_test *)
Example pdunotificationresp__pdu_notification_resp_unmarshal_test : msg1_unmarshal PDUNotificationResponse_T Debug [50; 28; 0; 6; 55; 56; 191; 122;
  155; 207; 0; 0; 1; 128] = Ok (mkMsg1 (mkCHdr 28 6 926465914 (Some 39887) None None) [Some (I1_Cause (mkTv 1 128)); None]).
Proof. vm_compute. reflexivity. Qed.
Example pdunotificationresp__pdu_notification_resp_unmarshal_test_back : (fun x => msg1_marshal x []) ((mkMsg1 (mkCHdr 28 6 926465914 (Some 39887)
  None None) [Some (I1_Cause (mkTv 1 128)); None])) = [50; 28; 0; 6; 55; 56; 191; 122; 155; 207; 0; 0; 1; 128].
Proof. vm_compute. reflexivity. Qed.
(* gtpv1/gtpc/messages/pdunotificationresp.rs, pdu_notification_resp_wrong_ie_order_unmarshal_test *)
Example pdunotificationresp__pdu_notification_resp_wrong_ie_order_unmarshal_test : msg1_unmarshal PDUNotificationResponse_T Debug [50; 28; 0; 8; 55;
  56; 191; 122; 155; 207; 0; 0; 8; 254; 1; 128] = Err MessageInvalidMessageFormat.
Proof. vm_compute. reflexivity. Qed.
(* gtpv1/gtpc/messages/pdunotificationresp.rs, pdu_notification_resp_missing_mandatory_ie_unmarshal_test *)
Example pdunotificationresp__pdu_notification_resp_missing_mandatory_ie_unmarshal_test : msg1_unmarshal PDUNotificationResponse_T Debug [50; 28; 0;
  12; 55; 56; 191; 122; 155; 207; 0; 0; 255; 0; 5; 0; 8; 1; 2; 3] = Err MessageMandatoryIEMissing.
Proof. vm_compute. reflexivity. Qed.
(* gtpv1/gtpc/messages/supportedexthdrnotification.rs, test_supported_ext_hdr_notification_unmarshal *)
Example supportedexthdrnotification__test_supported_ext_hdr_notification_unmarshal : CSup_unmarshal Debug [50; 31; 0; 11; 0; 0; 0; 0; 246; 75; 0; 0;
  141; 1; 0; 1; 2; 3; 4] = Ok (mkCSup (mkCHdr 31 11 0 (Some 63051) None None) (mkTlv 141 1 [0; 1; 2; 3; 4])).
Proof. vm_compute. reflexivity. Qed.
(* gtpv1/gtpc/messages/supportedexthdrnotification.rs, test_supported_ext_hdr_notification_resp_without_mandatory_ie_unmarshal *)
Example supportedexthdrnotification__test_supported_ext_hdr_notification_resp_without_mandatory_ie_unmarshal : CSup_unmarshal Debug [50; 31; 0; 4; 0;
  0; 0; 0; 246; 75; 0; 0] = Err MessageMandatoryIEMissing.
Proof. vm_compute. reflexivity. Qed.
(* gtpv1/gtpc/messages/supportedexthdrnotification.rs, test_supported_ext_hdr_notification_with_incorrect_mandatory_ie_unmarshal *)
Example supportedexthdrnotification__test_supported_ext_hdr_notification_with_incorrect_mandatory_ie_unmarshal : CSup_unmarshal Debug [50; 31; 0; 9;
  0; 0; 0; 0; 246; 75; 0; 0; 141; 5; 0; 1; 2] = Err MessageMandatoryIEMissing.
Proof. vm_compute. reflexivity. Qed.
(* gtpv1/gtpc/messages/updatepdpctxreq.rs, update_pdp_ctx_req_unmarshal_test *)
Example updatepdpctxreq__update_pdp_ctx_req_unmarshal_test : msg1_unmarshal UpdatePDPContextRequest_T Debug [50; 18; 0; 96; 16; 43; 223; 35; 192; 134;
  0; 0; 2; 9; 65; 80; 1; 114; 103; 53; 249; 3; 34; 246; 1; 255; 254; 255; 14; 191; 16; 47; 60; 64; 199; 17; 47; 60; 64; 200; 20; 5; 133; 0; 4; 62;
  217; 200; 4; 133; 0; 4; 62; 217; 200; 40; 135; 0; 17; 3; 35; 115; 31; 147; 150; 134; 134; 116; 131; 255; 255; 0; 0; 0; 0; 0; 148; 0; 1; 64; 151; 0;
  1; 1; 152; 0; 8; 1; 34; 246; 1; 6; 84; 60; 169; 153; 0; 2; 2; 32; 191; 0; 1; 100] = Ok (mkMsg1 (mkCHdr 18 96 271310627 (Some 49286) None None) [Some
  (I1_Imsi (mkTv 2 [57; 48; 49; 52; 48; 53; 49; 48; 50; 55; 55; 54; 53; 51; 57])); Some (I1_Rai (mkTv 3 (mkRai (226, 10, false) 65534 255))); Some
  (I1_Recovery (mkTv 14 191)); Some (I1_Teid (mkTv 16 792477895)); Some (I1_Teid (mkTv 17 792477896)); Some (I1_Nsapi (mkTv 20 5)); None; None; None;
  Some (I1_Gsn (mkTlv 133 4 (V4 62 217 200 4))); Some (I1_Gsn (mkTlv 133 4 (V4 62 217 200 40))); None; None; Some (I1_Qos (mkTlv 135 17 (mkQos 3 [35;
  115; 31; 147; 150; 134; 134; 116; 131; 255; 255; 0; 0; 0; 0; 0]))); None; None; None; Some (I1_CommonFlags (mkTlv 148 1 [false; true; false; false;
  false; false; false; false])); Some (I1_RatType (mkTlv 151 1 Utran)); Some (I1_Uli (mkTlv 152 8 (mkUli (226, 10, false) 1620 (Sac 15529)))); Some
  (I1_Tz (mkTlv 153 2 (mkTz 2 0))); None; None; None; Some (I1_Earp (mkTlv 191 1 (mkEarp 0 9 1))); None; None; None; None; None; None]).
Proof. vm_compute. reflexivity. Qed.
(* gtpv1/gtpc/messages/updatepdpctxreq.rs, update_pdp_ctx_req_unmarshal_with_alt_sgsn_addr_test *)
Example updatepdpctxreq__update_pdp_ctx_req_unmarshal_with_alt_sgsn_addr_test : msg1_unmarshal UpdatePDPContextRequest_T Debug [50; 18; 0; 110; 16;
  43; 223; 35; 192; 134; 0; 0; 2; 9; 65; 80; 1; 114; 103; 53; 249; 3; 34; 246; 1; 255; 254; 255; 14; 191; 16; 47; 60; 64; 199; 17; 47; 60; 64; 200;
  20; 5; 133; 0; 4; 62; 217; 200; 4; 133; 0; 4; 62; 217; 200; 40; 133; 0; 4; 62; 217; 200; 41; 133; 0; 4; 62; 217; 200; 42; 135; 0; 17; 3; 35; 115;
  31; 147; 150; 134; 134; 116; 131; 255; 255; 0; 0; 0; 0; 0; 148; 0; 1; 64; 151; 0; 1; 1; 152; 0; 8; 1; 34; 246; 1; 6; 84; 60; 169; 153; 0; 2; 2; 0;
  191; 0; 1; 100] = Ok (mkMsg1 (mkCHdr 18 110 271310627 (Some 49286) None None) [Some (I1_Imsi (mkTv 2 [57; 48; 49; 52; 48; 53; 49; 48; 50; 55; 55;
  54; 53; 51; 57])); Some (I1_Rai (mkTv 3 (mkRai (226, 10, false) 65534 255))); Some (I1_Recovery (mkTv 14 191)); Some (I1_Teid (mkTv 16 792477895));
  Some (I1_Teid (mkTv 17 792477896)); Some (I1_Nsapi (mkTv 20 5)); None; None; None; Some (I1_Gsn (mkTlv 133 4 (V4 62 217 200 4))); Some (I1_Gsn
  (mkTlv 133 4 (V4 62 217 200 40))); Some (I1_Gsn (mkTlv 133 4 (V4 62 217 200 41))); Some (I1_Gsn (mkTlv 133 4 (V4 62 217 200 42))); Some (I1_Qos
  (mkTlv 135 17 (mkQos 3 [35; 115; 31; 147; 150; 134; 134; 116; 131; 255; 255; 0; 0; 0; 0; 0]))); None; None; None; Some (I1_CommonFlags (mkTlv 148 1
  [false; true; false; false; false; false; false; false])); Some (I1_RatType (mkTlv 151 1 Utran)); Some (I1_Uli (mkTlv 152 8 (mkUli (226, 10, false)
  1620 (Sac 15529)))); Some (I1_Tz (mkTlv 153 2 (mkTz 2 0))); None; None; None; Some (I1_Earp (mkTlv 191 1 (mkEarp 0 9 1))); None; None; None; None;
  None; None]).
Proof. vm_compute. reflexivity. Qed.
Example updatepdpctxreq__update_pdp_ctx_req_unmarshal_with_alt_sgsn_addr_test_back : (fun x => msg1_marshal x []) ((mkMsg1 (mkCHdr 18 110 271310627
  (Some 49286) None None) [Some (I1_Imsi (mkTv 2 [57; 48; 49; 52; 48; 53; 49; 48; 50; 55; 55; 54; 53; 51; 57])); Some (I1_Rai (mkTv 3 (mkRai (226, 10,
  false) 65534 255))); Some (I1_Recovery (mkTv 14 191)); Some (I1_Teid (mkTv 16 792477895)); Some (I1_Teid (mkTv 17 792477896)); Some (I1_Nsapi (mkTv
  20 5)); None; None; None; Some (I1_Gsn (mkTlv 133 4 (V4 62 217 200 4))); Some (I1_Gsn (mkTlv 133 4 (V4 62 217 200 40))); Some (I1_Gsn (mkTlv 133 4
  (V4 62 217 200 41))); Some (I1_Gsn (mkTlv 133 4 (V4 62 217 200 42))); Some (I1_Qos (mkTlv 135 17 (mkQos 3 [35; 115; 31; 147; 150; 134; 134; 116;
  131; 255; 255; 0; 0; 0; 0; 0]))); None; None; None; Some (I1_CommonFlags (mkTlv 148 1 [false; true; false; false; false; false; false; false]));
  Some (I1_RatType (mkTlv 151 1 Utran)); Some (I1_Uli (mkTlv 152 8 (mkUli (226, 10, false) 1620 (Sac 15529)))); Some (I1_Tz (mkTlv 153 2 (mkTz 2 0)));
  None; None; None; Some (I1_Earp (mkTlv 191 1 (mkEarp 0 9 1))); None; None; None; None; None; None])) = [50; 18; 0; 110; 16; 43; 223; 35; 192; 134;
  0; 0; 2; 9; 65; 80; 1; 114; 103; 53; 249; 3; 34; 246; 1; 255; 254; 255; 14; 191; 16; 47; 60; 64; 199; 17; 47; 60; 64; 200; 20; 5; 133; 0; 4; 62;
  217; 200; 4; 133; 0; 4; 62; 217; 200; 40; 133; 0; 4; 62; 217; 200; 41; 133; 0; 4; 62; 217; 200; 42; 135; 0; 17; 3; 35; 115; 31; 147; 150; 134; 134;
  116; 131; 255; 255; 0; 0; 0; 0; 0; 148; 0; 1; 64; 151; 0; 1; 1; 152; 0; 8; 1; 34; 246; 1; 6; 84; 60; 169; 153; 0; 2; 2; 0; 191; 0; 1; 100].
Proof. vm_compute. reflexivity. Qed.
(* gtpv1/gtpc/messages/updatepdpctxreq.rs, update_pdp_ctx_req_wrong_ie_order_unmarshal_test *)
Example updatepdpctxreq__update_pdp_ctx_req_wrong_ie_order_unmarshal_test : msg1_unmarshal UpdatePDPContextRequest_T Debug [50; 18; 0; 96; 16; 43;
  223; 35; 192; 134; 0; 0; 2; 9; 65; 80; 1; 114; 103; 53; 249; 3; 34; 246; 1; 255; 254; 255; 14; 191; 17; 47; 60; 64; 200; 16; 47; 60; 64; 199; 20; 5;
  133; 0; 4; 62; 217; 200; 4; 133; 0; 4; 62; 217; 200; 40; 135; 0; 17; 3; 35; 115; 31; 147; 150; 134; 134; 116; 131; 255; 255; 0; 0; 0; 0; 0; 148; 0;
  1; 64; 151; 0; 1; 1; 152; 0; 8; 1; 34; 246; 1; 6; 84; 60; 169; 153; 0; 2; 2; 0; 191; 0; 1; 100] = Err MessageInvalidMessageFormat.
Proof. vm_compute. reflexivity. Qed.
(* gtpv1/gtpc/messages/updatepdpctxreq.rs, update_pdp_ctx_req_missing_mandatory_ie_unmarshal_test *)
Example updatepdpctxreq__update_pdp_ctx_req_missing_mandatory_ie_unmarshal_test : msg1_unmarshal UpdatePDPContextRequest_T Debug [50; 18; 0; 94; 16;
  43; 223; 35; 192; 134; 0; 0; 2; 9; 65; 80; 1; 114; 103; 53; 249; 3; 34; 246; 1; 255; 254; 255; 14; 191; 16; 47; 60; 64; 199; 17; 47; 60; 64; 200;
  133; 0; 4; 62; 217; 200; 4; 133; 0; 4; 62; 217; 200; 40; 135; 0; 17; 3; 35; 115; 31; 147; 150; 134; 134; 116; 131; 255; 255; 0; 0; 0; 0; 0; 148; 0;
  1; 64; 151; 0; 1; 1; 152; 0; 8; 1; 34; 246; 1; 6; 84; 60; 169; 153; 0; 2; 2; 0; 191; 0; 1; 100] = Err MessageMandatoryIEMissing.
Proof. vm_compute. reflexivity. Qed.
(* gtpv1/gtpc/messages/updatepdpctxreq_ggsn.rs, update_pdp_ctx_req_ggsn_unmarshal_test *)
Example updatepdpctxreq_ggsn__update_pdp_ctx_req_ggsn_unmarshal_test : msg1_unmarshal UpdatePDPContextRequestGGSN_T Debug [50; 18; 0; 70; 16; 43; 223;
  35; 192; 134; 0; 0; 2; 9; 65; 80; 1; 114; 103; 53; 249; 14; 191; 20; 5; 128; 0; 22; 241; 141; 100; 117; 130; 53; 0; 0; 0; 0; 0; 0; 0; 0; 0; 0; 0; 0;
  255; 255; 255; 255; 135; 0; 17; 3; 35; 115; 31; 147; 150; 134; 134; 116; 131; 255; 255; 0; 0; 0; 0; 0; 148; 0; 1; 64; 191; 0; 1; 100] = Ok (mkMsg1
  (mkCHdr 18 70 271310627 (Some 49286) None None) [Some (I1_Imsi (mkTv 2 [57; 48; 49; 52; 48; 53; 49; 48; 50; 55; 55; 54; 53; 51; 57])); Some
  (I1_Recovery (mkTv 14 191)); Some (I1_Nsapi (mkTv 20 5)); Some (I1_Eua (mkTlv 128 22 (mkEua 1 141 (Some [100; 117; 130; 53]) (Some [0; 0; 0; 0; 0;
  0; 0; 0; 0; 0; 0; 0; 255; 255; 255; 255])))); None; Some (I1_Qos (mkTlv 135 17 (mkQos 3 [35; 115; 31; 147; 150; 134; 134; 116; 131; 255; 255; 0; 0;
  0; 0; 0]))); None; Some (I1_CommonFlags (mkTlv 148 1 [false; true; false; false; false; false; false; false])); None; None; None; None; Some
  (I1_Earp (mkTlv 191 1 (mkEarp 0 9 1))); None; None; None; None]).
Proof. vm_compute. reflexivity. Qed.
Example updatepdpctxreq_ggsn__update_pdp_ctx_req_ggsn_unmarshal_test_back : (fun x => msg1_marshal x []) ((mkMsg1 (mkCHdr 18 70 271310627 (Some 49286)
  None None) [Some (I1_Imsi (mkTv 2 [57; 48; 49; 52; 48; 53; 49; 48; 50; 55; 55; 54; 53; 51; 57])); Some (I1_Recovery (mkTv 14 191)); Some (I1_Nsapi
  (mkTv 20 5)); Some (I1_Eua (mkTlv 128 22 (mkEua 1 141 (Some [100; 117; 130; 53]) (Some [0; 0; 0; 0; 0; 0; 0; 0; 0; 0; 0; 0; 255; 255; 255; 255]))));
  None; Some (I1_Qos (mkTlv 135 17 (mkQos 3 [35; 115; 31; 147; 150; 134; 134; 116; 131; 255; 255; 0; 0; 0; 0; 0]))); None; Some (I1_CommonFlags (mkTlv
  148 1 [false; true; false; false; false; false; false; false])); None; None; None; None; Some (I1_Earp (mkTlv 191 1 (mkEarp 0 9 1))); None; None;
  None; None])) = [50; 18; 0; 70; 16; 43; 223; 35; 192; 134; 0; 0; 2; 9; 65; 80; 1; 114; 103; 53; 249; 14; 191; 20; 5; 128; 0; 22; 241; 141; 100; 117;
  130; 53; 0; 0; 0; 0; 0; 0; 0; 0; 0; 0; 0; 0; 255; 255; 255; 255; 135; 0; 17; 3; 35; 115; 31; 147; 150; 134; 134; 116; 131; 255; 255; 0; 0; 0; 0; 0;
  148; 0; 1; 64; 191; 0; 1; 100].
Proof. vm_compute. reflexivity. Qed.
(* gtpv1/gtpc/messages/updatepdpctxreq_ggsn.rs, update_pdp_ctx_req_ggsn_wrong_ie_order_unmarshal_test *)
Example updatepdpctxreq_ggsn__update_pdp_ctx_req_ggsn_wrong_ie_order_unmarshal_test : msg1_unmarshal UpdatePDPContextRequestGGSN_T Debug [50; 18; 0;
  70; 16; 43; 223; 35; 192; 134; 0; 0; 2; 9; 65; 80; 1; 114; 103; 53; 249; 20; 5; 14; 191; 128; 0; 22; 241; 141; 100; 117; 130; 53; 0; 0; 0; 0; 0; 0;
  0; 0; 0; 0; 0; 0; 255; 255; 255; 255; 135; 0; 17; 3; 35; 115; 31; 147; 150; 134; 134; 116; 131; 255; 255; 0; 0; 0; 0; 0; 148; 0; 1; 64; 191; 0; 1;
  100] = Err MessageInvalidMessageFormat.
Proof. vm_compute. reflexivity. Qed.
(* gtpv1/gtpc/messages/updatepdpctxreq_ggsn.rs, update_pdp_ctx_req_ggsn_missing_mandatory_ie_unmarshal_test *)
Example updatepdpctxreq_ggsn__update_pdp_ctx_req_ggsn_missing_mandatory_ie_unmarshal_test : msg1_unmarshal UpdatePDPContextRequestGGSN_T Debug [50;
  18; 0; 68; 16; 43; 223; 35; 192; 134; 0; 0; 2; 9; 65; 80; 1; 114; 103; 53; 249; 14; 191; 128; 0; 22; 241; 141; 100; 117; 130; 53; 0; 0; 0; 0; 0; 0;
  0; 0; 0; 0; 0; 0; 255; 255; 255; 255; 135; 0; 17; 3; 35; 115; 31; 147; 150; 134; 134; 116; 131; 255; 255; 0; 0; 0; 0; 0; 148; 0; 1; 64; 191; 0; 1;
  100] = Err MessageMandatoryIEMissing.
Proof. vm_compute. reflexivity. Qed.
(* gtpv1/gtpc/messages/updatepdpctxresp.rs, update_pdp_ctx_resp_unmarshal_test *)
Example updatepdpctxresp__update_pdp_ctx_resp_unmarshal_test : msg1_unmarshal UpdatePDPContextResponse_T Debug [50; 19; 0; 52; 55; 56; 191; 122; 155;
  207; 0; 0; 1; 128; 14; 5; 16; 166; 151; 73; 244; 17; 9; 134; 187; 159; 127; 3; 148; 56; 125; 133; 0; 4; 62; 153; 137; 95; 133; 0; 4; 62; 153; 137;
  96; 135; 0; 12; 3; 19; 131; 31; 113; 150; 135; 135; 116; 250; 255; 255] = Ok (mkMsg1 (mkCHdr 19 52 926465914 (Some 39887) None None) [Some (I1_Cause
  (mkTv 1 128)); Some (I1_Recovery (mkTv 14 5)); Some (I1_Teid (mkTv 16 2794932724)); Some (I1_Teid (mkTv 17 159824799)); Some (I1_ChargingId (mkTv
  127 60045437)); None; Some (I1_Gsn (mkTlv 133 4 (V4 62 153 137 95))); Some (I1_Gsn (mkTlv 133 4 (V4 62 153 137 96))); None; None; Some (I1_Qos
  (mkTlv 135 12 (mkQos 3 [19; 131; 31; 113; 150; 135; 135; 116; 250; 255; 255]))); None; None; None; None; None; None; None; None; None; None]).
Proof. vm_compute. reflexivity. Qed.
Example updatepdpctxresp__update_pdp_ctx_resp_unmarshal_test_back : (fun x => msg1_marshal x []) ((mkMsg1 (mkCHdr 19 52 926465914 (Some 39887) None
  None) [Some (I1_Cause (mkTv 1 128)); Some (I1_Recovery (mkTv 14 5)); Some (I1_Teid (mkTv 16 2794932724)); Some (I1_Teid (mkTv 17 159824799)); Some
  (I1_ChargingId (mkTv 127 60045437)); None; Some (I1_Gsn (mkTlv 133 4 (V4 62 153 137 95))); Some (I1_Gsn (mkTlv 133 4 (V4 62 153 137 96))); None;
  None; Some (I1_Qos (mkTlv 135 12 (mkQos 3 [19; 131; 31; 113; 150; 135; 135; 116; 250; 255; 255]))); None; None; None; None; None; None; None; None;
  None; None])) = [50; 19; 0; 52; 55; 56; 191; 122; 155; 207; 0; 0; 1; 128; 14; 5; 16; 166; 151; 73; 244; 17; 9; 134; 187; 159; 127; 3; 148; 56; 125;
  133; 0; 4; 62; 153; 137; 95; 133; 0; 4; 62; 153; 137; 96; 135; 0; 12; 3; 19; 131; 31; 113; 150; 135; 135; 116; 250; 255; 255].
Proof. vm_compute. reflexivity. Qed.
(* gtpv1/gtpc/messages/updatepdpctxresp.rs, create_pdp_ctx_resp_unmarshal_with_repetitive_fields_ggsn_addr_charging_gw *)
Example updatepdpctxresp__create_pdp_ctx_resp_unmarshal_with_repetitive_fields_ggsn_addr_charging_gw : msg1_unmarshal UpdatePDPContextResponse_T Debug
  [50; 19; 0; 80; 55; 56; 191; 122; 155; 207; 0; 0; 1; 128; 14; 5; 16; 166; 151; 73; 244; 17; 9; 134; 187; 159; 127; 3; 148; 56; 125; 133; 0; 4; 62;
  153; 137; 95; 133; 0; 4; 62; 153; 137; 96; 133; 0; 4; 62; 153; 137; 97; 133; 0; 4; 62; 153; 137; 98; 135; 0; 12; 3; 19; 131; 31; 113; 150; 135; 135;
  116; 250; 255; 255; 251; 0; 4; 62; 153; 137; 78; 251; 0; 4; 62; 153; 137; 79] = Ok (mkMsg1 (mkCHdr 19 80 926465914 (Some 39887) None None) [Some
  (I1_Cause (mkTv 1 128)); Some (I1_Recovery (mkTv 14 5)); Some (I1_Teid (mkTv 16 2794932724)); Some (I1_Teid (mkTv 17 159824799)); Some
  (I1_ChargingId (mkTv 127 60045437)); None; Some (I1_Gsn (mkTlv 133 4 (V4 62 153 137 95))); Some (I1_Gsn (mkTlv 133 4 (V4 62 153 137 96))); Some
  (I1_Gsn (mkTlv 133 4 (V4 62 153 137 97))); Some (I1_Gsn (mkTlv 133 4 (V4 62 153 137 98))); Some (I1_Qos (mkTlv 135 12 (mkQos 3 [19; 131; 31; 113;
  150; 135; 135; 116; 250; 255; 255]))); Some (I1_ChargingGw (mkTlv 251 4 (V4 62 153 137 78))); Some (I1_ChargingGw (mkTlv 251 4 (V4 62 153 137 79)));
  None; None; None; None; None; None; None; None]).
Proof. vm_compute. reflexivity. Qed.
Example updatepdpctxresp__create_pdp_ctx_resp_unmarshal_with_repetitive_fields_ggsn_addr_charging_gw_back : (fun x => msg1_marshal x []) ((mkMsg1
  (mkCHdr 19 80 926465914 (Some 39887) None None) [Some (I1_Cause (mkTv 1 128)); Some (I1_Recovery (mkTv 14 5)); Some (I1_Teid (mkTv 16 2794932724));
  Some (I1_Teid (mkTv 17 159824799)); Some (I1_ChargingId (mkTv 127 60045437)); None; Some (I1_Gsn (mkTlv 133 4 (V4 62 153 137 95))); Some (I1_Gsn
  (mkTlv 133 4 (V4 62 153 137 96))); Some (I1_Gsn (mkTlv 133 4 (V4 62 153 137 97))); Some (I1_Gsn (mkTlv 133 4 (V4 62 153 137 98))); Some (I1_Qos
  (mkTlv 135 12 (mkQos 3 [19; 131; 31; 113; 150; 135; 135; 116; 250; 255; 255]))); Some (I1_ChargingGw (mkTlv 251 4 (V4 62 153 137 78))); Some
  (I1_ChargingGw (mkTlv 251 4 (V4 62 153 137 79))); None; None; None; None; None; None; None; None])) = [50; 19; 0; 80; 55; 56; 191; 122; 155; 207; 0;
  0; 1; 128; 14; 5; 16; 166; 151; 73; 244; 17; 9; 134; 187; 159; 127; 3; 148; 56; 125; 133; 0; 4; 62; 153; 137; 95; 133; 0; 4; 62; 153; 137; 96; 133;
  0; 4; 62; 153; 137; 97; 133; 0; 4; 62; 153; 137; 98; 135; 0; 12; 3; 19; 131; 31; 113; 150; 135; 135; 116; 250; 255; 255; 251; 0; 4; 62; 153; 137;
  78; 251; 0; 4; 62; 153; 137; 79].
Proof. vm_compute. reflexivity. Qed.
(* gtpv1/gtpc/messages/updatepdpctxresp.rs, update_pdp_ctx_resp_wrong_ie_order_unmarshal_test *)
Example updatepdpctxresp__update_pdp_ctx_resp_wrong_ie_order_unmarshal_test : msg1_unmarshal UpdatePDPContextResponse_T Debug [50; 19; 0; 52; 55; 56;
  191; 122; 155; 207; 0; 0; 1; 128; 14; 5; 16; 166; 151; 73; 244; 17; 9; 134; 187; 159; 127; 3; 148; 56; 125; 135; 0; 12; 3; 19; 131; 31; 113; 150;
  135; 135; 116; 250; 255; 255; 133; 0; 4; 62; 153; 137; 95; 133; 0; 4; 62; 153; 137; 96] = Err MessageInvalidMessageFormat.
Proof. vm_compute. reflexivity. Qed.
(* gtpv1/gtpc/messages/updatepdpctxresp.rs, update_pdp_ctx_resp_missing_mandatory_ie_unmarshal_test *)
Example updatepdpctxresp__update_pdp_ctx_resp_missing_mandatory_ie_unmarshal_test : msg1_unmarshal UpdatePDPContextResponse_T Debug [50; 19; 0; 50;
  55; 56; 191; 122; 155; 207; 0; 0; 14; 5; 16; 166; 151; 73; 244; 17; 9; 134; 187; 159; 127; 3; 148; 56; 125; 133; 0; 4; 62; 153; 137; 95; 133; 0; 4;
  62; 153; 137; 96; 135; 0; 12; 3; 19; 131; 31; 113; 150; 135; 135; 116; 250; 255; 255] = Err MessageMandatoryIEMissing.
Proof. vm_compute. reflexivity. Qed.
(* gtpv1/gtpc/messages/updatepdpctxresp_ggsn.rs, update_pdp_ctx_resp_ggsn_unmarshal_test *)
Example updatepdpctxresp_ggsn__update_pdp_ctx_resp_ggsn_unmarshal_test : msg1_unmarshal UpdatePDPContextResponseGGSN_T Debug [50; 19; 0; 51; 55; 56;
  191; 122; 155; 207; 0; 0; 1; 128; 14; 5; 16; 166; 151; 73; 244; 133; 0; 4; 62; 153; 137; 96; 135; 0; 12; 3; 19; 131; 31; 113; 150; 135; 135; 116;
  250; 255; 255; 152; 0; 8; 1; 34; 246; 1; 6; 84; 60; 169; 153; 0; 2; 2; 0] = Ok (mkMsg1 (mkCHdr 19 51 926465914 (Some 39887) None None) [Some
  (I1_Cause (mkTv 1 128)); Some (I1_Recovery (mkTv 14 5)); Some (I1_Teid (mkTv 16 2794932724)); None; Some (I1_Gsn (mkTlv 133 4 (V4 62 153 137 96)));
  Some (I1_Qos (mkTlv 135 12 (mkQos 3 [19; 131; 31; 113; 150; 135; 135; 116; 250; 255; 255]))); Some (I1_Uli (mkTlv 152 8 (mkUli (226, 10, false) 1620
  (Sac 15529)))); Some (I1_Tz (mkTlv 153 2 (mkTz 2 0))); None; None; None; None]).
Proof. vm_compute. reflexivity. Qed.
Example updatepdpctxresp_ggsn__update_pdp_ctx_resp_ggsn_unmarshal_test_back : (fun x => msg1_marshal x []) ((mkMsg1 (mkCHdr 19 51 926465914 (Some
  39887) None None) [Some (I1_Cause (mkTv 1 128)); Some (I1_Recovery (mkTv 14 5)); Some (I1_Teid (mkTv 16 2794932724)); None; Some (I1_Gsn (mkTlv 133
  4 (V4 62 153 137 96))); Some (I1_Qos (mkTlv 135 12 (mkQos 3 [19; 131; 31; 113; 150; 135; 135; 116; 250; 255; 255]))); Some (I1_Uli (mkTlv 152 8
  (mkUli (226, 10, false) 1620 (Sac 15529)))); Some (I1_Tz (mkTlv 153 2 (mkTz 2 0))); None; None; None; None])) = [50; 19; 0; 51; 55; 56; 191; 122;
  155; 207; 0; 0; 1; 128; 14; 5; 16; 166; 151; 73; 244; 133; 0; 4; 62; 153; 137; 96; 135; 0; 12; 3; 19; 131; 31; 113; 150; 135; 135; 116; 250; 255;
  255; 152; 0; 8; 1; 34; 246; 1; 6; 84; 60; 169; 153; 0; 2; 2; 0].
Proof. vm_compute. reflexivity. Qed.
(* gtpv1/gtpc/messages/updatepdpctxresp_ggsn.rs, update_pdp_ctx_resp_ggsn_wrong_ie_order_unmarshal_test *)
Example updatepdpctxresp_ggsn__update_pdp_ctx_resp_ggsn_wrong_ie_order_unmarshal_test : msg1_unmarshal UpdatePDPContextResponseGGSN_T Debug [50; 19;
  0; 51; 55; 56; 191; 122; 155; 207; 0; 0; 14; 5; 1; 128; 16; 166; 151; 73; 244; 133; 0; 4; 62; 153; 137; 96; 135; 0; 12; 3; 19; 131; 31; 113; 150;
  135; 135; 116; 250; 255; 255; 152; 0; 8; 1; 34; 246; 1; 6; 84; 60; 169; 153; 0; 2; 2; 0] = Err MessageInvalidMessageFormat.
Proof. vm_compute. reflexivity. Qed.
(* gtpv1/gtpc/messages/updatepdpctxresp_ggsn.rs, update_pdp_ctx_resp_ggsn_missing_mandatory_ie_unmarshal_test *)
Example updatepdpctxresp_ggsn__update_pdp_ctx_resp_ggsn_missing_mandatory_ie_unmarshal_test : msg1_unmarshal UpdatePDPContextResponseGGSN_T Debug [50;
  19; 0; 49; 55; 56; 191; 122; 155; 207; 0; 0; 14; 5; 16; 166; 151; 73; 244; 133; 0; 4; 62; 153; 137; 96; 135; 0; 12; 3; 19; 131; 31; 113; 150; 135;
  135; 116; 250; 255; 255; 152; 0; 8; 1; 34; 246; 1; 6; 84; 60; 169; 153; 0; 2; 2; 0] = Err MessageMandatoryIEMissing.
Proof. vm_compute. reflexivity. Qed.
(* gtpv1/gtpc/messages/versionnotsupported.rs, test_version_not_supported_unmarshal *)
Example versionnotsupported__test_version_not_supported_unmarshal : Vns_unmarshal Debug [50; 3; 0; 4; 0; 0; 0; 0; 73; 202; 0; 0] = Ok (mkCHdr 3 4 0
  (Some 18890) None None).
Proof. vm_compute. reflexivity. Qed.
Example versionnotsupported__test_version_not_supported_unmarshal_back : (fun x => Vns_marshal x []) ((mkCHdr 3 4 0 (Some 18890) None None)) = [50; 3;
  0; 4; 0; 0; 0; 0; 73; 202; 0; 0].
Proof. vm_compute. reflexivity. Qed.
(* gtpv1/gtpc/messages/createpdpctxreq.rs, create_pdp_ctx_marshal_test *)
Example createpdpctxreq__create_pdp_ctx_marshal_test : msg1_unmarshal CreatePDPContextRequest_T Debug [50; 16; 0; 167; 0; 0; 0; 0; 90; 252; 0; 0; 2;
  9; 65; 80; 1; 113; 68; 69; 246; 3; 19; 0; 98; 255; 254; 255; 14; 14; 15; 252; 16; 0; 4; 114; 213; 17; 215; 8; 97; 2; 20; 5; 128; 0; 2; 241; 33; 131;
  0; 13; 3; 105; 111; 116; 4; 49; 110; 99; 101; 3; 110; 101; 116; 132; 0; 32; 128; 128; 33; 16; 1; 0; 0; 16; 129; 6; 0; 0; 0; 0; 131; 6; 0; 0; 0; 0;
  0; 13; 0; 0; 10; 0; 0; 5; 0; 0; 17; 0; 133; 0; 4; 172; 57; 43; 204; 133; 0; 4; 172; 57; 43; 204; 134; 0; 9; 145; 136; 34; 88; 1; 113; 68; 69; 246;
  135; 0; 15; 3; 27; 99; 31; 115; 150; 115; 115; 116; 255; 255; 255; 0; 0; 0; 151; 0; 1; 2; 152; 0; 8; 0; 19; 0; 98; 83; 23; 4; 39; 153; 0; 2; 0; 0;
  154; 0; 8; 104; 153; 21; 48; 145; 100; 16; 16] = Ok (mkMsg1 (mkCHdr 16 167 0 (Some 23292) None None) [Some (I1_Imsi (mkTv 2 [57; 48; 49; 52; 48; 53;
  49; 48; 49; 55; 52; 52; 53; 52; 54])); Some (I1_Rai (mkTv 3 (mkRai (310, 260, true) 65534 255))); Some (I1_Recovery (mkTv 14 14)); Some
  (I1_SelectionMode (mkTv 15 0)); Some (I1_Teid (mkTv 16 291541)); Some (I1_Teid (mkTv 17 3607650562)); Some (I1_Nsapi (mkTv 20 5)); None; None; None;
  None; Some (I1_Eua (mkTlv 128 2 (mkEua 1 33 None None))); Some (I1_Apn (mkTlv 131 13 [105; 111; 116; 46; 49; 110; 99; 101; 46; 110; 101; 116]));
  Some (I1_Pco (mkTlv 132 32 [128; 128; 33; 16; 1; 0; 0; 16; 129; 6; 0; 0; 0; 0; 131; 6; 0; 0; 0; 0; 0; 13; 0; 0; 10; 0; 0; 5; 0; 0; 17; 0])); Some
  (I1_Gsn (mkTlv 133 4 (V4 172 57 43 204))); Some (I1_Gsn (mkTlv 133 4 (V4 172 57 43 204))); Some (I1_Msisdn (mkTlv 134 9 (mkMsisdn 1 1 1 [56; 56; 50;
  50; 56; 53; 49; 48; 49; 55; 52; 52; 53; 52; 54]))); Some (I1_Qos (mkTlv 135 15 (mkQos 3 [27; 99; 31; 115; 150; 115; 115; 116; 255; 255; 255; 0; 0;
  0]))); None; None; None; None; None; Some (I1_RatType (mkTlv 151 1 Geran)); Some (I1_Uli (mkTlv 152 8 (mkUli (310, 260, true) 21271 (Ci 1063))));
  Some (I1_Tz (mkTlv 153 2 (mkTz 0 0))); Some (I1_Imei (mkTlv 154 8 [56; 54; 57; 57; 53; 49; 48; 51; 49; 57; 52; 54; 48; 49; 48; 49])); None; None;
  None; None; None; None; None; None; None; None; None; None]).
Proof. vm_compute. reflexivity. Qed.
Example createpdpctxreq__create_pdp_ctx_marshal_test_back : (fun x => msg1_marshal x []) ((mkMsg1 (mkCHdr 16 167 0 (Some 23292) None None) [Some
  (I1_Imsi (mkTv 2 [57; 48; 49; 52; 48; 53; 49; 48; 49; 55; 52; 52; 53; 52; 54])); Some (I1_Rai (mkTv 3 (mkRai (310, 260, true) 65534 255))); Some
  (I1_Recovery (mkTv 14 14)); Some (I1_SelectionMode (mkTv 15 0)); Some (I1_Teid (mkTv 16 291541)); Some (I1_Teid (mkTv 17 3607650562)); Some
  (I1_Nsapi (mkTv 20 5)); None; None; None; None; Some (I1_Eua (mkTlv 128 2 (mkEua 1 33 None None))); Some (I1_Apn (mkTlv 131 13 [105; 111; 116; 46;
  49; 110; 99; 101; 46; 110; 101; 116])); Some (I1_Pco (mkTlv 132 32 [128; 128; 33; 16; 1; 0; 0; 16; 129; 6; 0; 0; 0; 0; 131; 6; 0; 0; 0; 0; 0; 13; 0;
  0; 10; 0; 0; 5; 0; 0; 17; 0])); Some (I1_Gsn (mkTlv 133 4 (V4 172 57 43 204))); Some (I1_Gsn (mkTlv 133 4 (V4 172 57 43 204))); Some (I1_Msisdn
  (mkTlv 134 9 (mkMsisdn 1 1 1 [56; 56; 50; 50; 56; 53; 49; 48; 49; 55; 52; 52; 53; 52; 54]))); Some (I1_Qos (mkTlv 135 15 (mkQos 3 [27; 99; 31; 115;
  150; 115; 115; 116; 255; 255; 255; 0; 0; 0]))); None; None; None; None; None; Some (I1_RatType (mkTlv 151 1 Geran)); Some (I1_Uli (mkTlv 152 8
  (mkUli (310, 260, true) 21271 (Ci 1063)))); Some (I1_Tz (mkTlv 153 2 (mkTz 0 0))); Some (I1_Imei (mkTlv 154 8 [56; 54; 57; 57; 53; 49; 48; 51; 49;
  57; 52; 54; 48; 49; 48; 49])); None; None; None; None; None; None; None; None; None; None; None; None])) = [50; 16; 0; 167; 0; 0; 0; 0; 90; 252; 0;
  0; 2; 9; 65; 80; 1; 113; 68; 69; 246; 3; 19; 0; 98; 255; 254; 255; 14; 14; 15; 252; 16; 0; 4; 114; 213; 17; 215; 8; 97; 2; 20; 5; 128; 0; 2; 241;
  33; 131; 0; 13; 3; 105; 111; 116; 4; 49; 110; 99; 101; 3; 110; 101; 116; 132; 0; 32; 128; 128; 33; 16; 1; 0; 0; 16; 129; 6; 0; 0; 0; 0; 131; 6; 0;
  0; 0; 0; 0; 13; 0; 0; 10; 0; 0; 5; 0; 0; 17; 0; 133; 0; 4; 172; 57; 43; 204; 133; 0; 4; 172; 57; 43; 204; 134; 0; 9; 145; 136; 34; 88; 1; 113; 68;
  69; 246; 135; 0; 15; 3; 27; 99; 31; 115; 150; 115; 115; 116; 255; 255; 255; 0; 0; 0; 151; 0; 1; 2; 152; 0; 8; 0; 19; 0; 98; 83; 23; 4; 39; 153; 0;
  2; 0; 0; 154; 0; 8; 104; 153; 21; 48; 145; 100; 16; 16].
Proof. vm_compute. reflexivity. Qed.
(* gtpv1/gtpc/messages/ies/mstimezone.rs, mstimezone_ie_marshal_test *)
Example mstimezone__mstimezone_ie_marshal_test : ie1_unmarshal K1_Tz Debug [153; 0; 2; 4; 0] = Ok (I1_Tz (mkTlv 153 2 (mkTz 4 0))).
Proof. vm_compute. reflexivity. Qed.
Example mstimezone__mstimezone_ie_marshal_test_back : ie1_marshal ((I1_Tz (mkTlv 153 2 (mkTz 4 0)))) = [153; 0; 2; 4; 0].
Proof. vm_compute. reflexivity. Qed.
(* gtpv1/gtpc/messages/ies/selectionmode.rs, selectionmode_ie_marshal_test *)
Example selectionmode__selectionmode_ie_marshal_test : ie1_unmarshal K1_SelectionMode Debug [15; 254] = Ok (I1_SelectionMode (mkTv 15 2)).
Proof. vm_compute. reflexivity. Qed.
Example selectionmode__selectionmode_ie_marshal_test_back : ie1_marshal ((I1_SelectionMode (mkTv 15 2))) = [15; 254].
Proof. vm_compute. reflexivity. Qed.
(* gtpv1/gtpc/messages/ies/teardownind.rs, teardown_ind_ie_marshal_test *)
Example teardownind__teardown_ind_ie_marshal_test : ie1_unmarshal K1_Teardown Debug [19; 254] = Ok (I1_Teardown (mkTv 19 false)).
Proof. vm_compute. reflexivity. Qed.
Example teardownind__teardown_ind_ie_marshal_test_back : ie1_marshal ((I1_Teardown (mkTv 19 false))) = [19; 254].
Proof. vm_compute. reflexivity. Qed.
(* gtpv1/gtpc/messages/ies/teid.rs, teid_ie_marshal_test *)
Example teid__teid_ie_marshal_test : ie1_unmarshal K1_Teid Debug [16; 99; 65; 175; 215] = Ok (I1_Teid (mkTv 16 1665249239)).
Proof. vm_compute. reflexivity. Qed.
Example teid__teid_ie_marshal_test_back : ie1_marshal ((I1_Teid (mkTv 16 1665249239))) = [16; 99; 65; 175; 215].
Proof. vm_compute. reflexivity. Qed.
(* gtpv1/gtpc/messages/ies/uci.rs, uci_ie_marshal_test *)
Example uci__uci_ie_marshal_test : ie1_unmarshal K1_Uci Debug [194; 0; 8; 98; 242; 48; 0; 0; 188; 62; 1] = Ok (I1_Uci (mkTlv 194 8 (mkUci (262, 3,
  false) 48190 ClosedMode NonCsgMembership))).
Proof. vm_compute. reflexivity. Qed.
Example uci__uci_ie_marshal_test_back : ie1_marshal ((I1_Uci (mkTlv 194 8 (mkUci (262, 3, false) 48190 ClosedMode NonCsgMembership)))) = [194; 0; 8;
  98; 242; 48; 0; 0; 188; 62; 1].
Proof. vm_compute. reflexivity. Qed.
(* gtpv1/gtpc/messages/supportedexthdrnotification.rs, test_supported_ext_hdr_notification_marshal *)
Example supportedexthdrnotification__test_supported_ext_hdr_notification_marshal : CSup_unmarshal Debug [50; 31; 0; 11; 0; 0; 0; 0; 246; 75; 0; 0;
  141; 5; 0; 1; 2; 3; 4] = Ok (mkCSup (mkCHdr 31 11 0 (Some 63051) None None) (mkTlv 141 5 [0; 1; 2; 3; 4])).
Proof. vm_compute. reflexivity. Qed.
Example supportedexthdrnotification__test_supported_ext_hdr_notification_marshal_back : (fun x => CSup_marshal x []) ((mkCSup (mkCHdr 31 11 0 (Some
  63051) None None) (mkTlv 141 5 [0; 1; 2; 3; 4]))) = [50; 31; 0; 11; 0; 0; 0; 0; 246; 75; 0; 0; 141; 5; 0; 1; 2; 3; 4].
Proof. vm_compute. reflexivity. Qed.
(* gtpv1/gtpc/messages/updatepdpctxreq.rs, update_pdp_ctx_req_marshal_test *)
Example updatepdpctxreq__update_pdp_ctx_req_marshal_test : msg1_unmarshal UpdatePDPContextRequest_T Debug [50; 18; 0; 96; 16; 43; 223; 35; 192; 134;
  0; 0; 2; 9; 65; 80; 1; 114; 103; 53; 249; 3; 34; 246; 1; 255; 254; 255; 14; 191; 16; 47; 60; 64; 199; 17; 47; 60; 64; 200; 20; 5; 133; 0; 4; 62;
  217; 200; 4; 133; 0; 4; 62; 217; 200; 40; 135; 0; 17; 3; 35; 115; 31; 147; 150; 134; 134; 116; 131; 255; 255; 0; 0; 0; 0; 0; 148; 0; 1; 64; 151; 0;
  1; 1; 152; 0; 8; 1; 34; 246; 1; 6; 84; 60; 169; 153; 0; 2; 2; 0; 191; 0; 1; 100] = Ok (mkMsg1 (mkCHdr 18 96 271310627 (Some 49286) None None) [Some
  (I1_Imsi (mkTv 2 [57; 48; 49; 52; 48; 53; 49; 48; 50; 55; 55; 54; 53; 51; 57])); Some (I1_Rai (mkTv 3 (mkRai (226, 10, false) 65534 255))); Some
  (I1_Recovery (mkTv 14 191)); Some (I1_Teid (mkTv 16 792477895)); Some (I1_Teid (mkTv 17 792477896)); Some (I1_Nsapi (mkTv 20 5)); None; None; None;
  Some (I1_Gsn (mkTlv 133 4 (V4 62 217 200 4))); Some (I1_Gsn (mkTlv 133 4 (V4 62 217 200 40))); None; None; Some (I1_Qos (mkTlv 135 17 (mkQos 3 [35;
  115; 31; 147; 150; 134; 134; 116; 131; 255; 255; 0; 0; 0; 0; 0]))); None; None; None; Some (I1_CommonFlags (mkTlv 148 1 [false; true; false; false;
  false; false; false; false])); Some (I1_RatType (mkTlv 151 1 Utran)); Some (I1_Uli (mkTlv 152 8 (mkUli (226, 10, false) 1620 (Sac 15529)))); Some
  (I1_Tz (mkTlv 153 2 (mkTz 2 0))); None; None; None; Some (I1_Earp (mkTlv 191 1 (mkEarp 0 9 1))); None; None; None; None; None; None]).
Proof. vm_compute. reflexivity. Qed.
Example updatepdpctxreq__update_pdp_ctx_req_marshal_test_back : (fun x => msg1_marshal x []) ((mkMsg1 (mkCHdr 18 96 271310627 (Some 49286) None None)
  [Some (I1_Imsi (mkTv 2 [57; 48; 49; 52; 48; 53; 49; 48; 50; 55; 55; 54; 53; 51; 57])); Some (I1_Rai (mkTv 3 (mkRai (226, 10, false) 65534 255)));
  Some (I1_Recovery (mkTv 14 191)); Some (I1_Teid (mkTv 16 792477895)); Some (I1_Teid (mkTv 17 792477896)); Some (I1_Nsapi (mkTv 20 5)); None; None;
  None; Some (I1_Gsn (mkTlv 133 4 (V4 62 217 200 4))); Some (I1_Gsn (mkTlv 133 4 (V4 62 217 200 40))); None; None; Some (I1_Qos (mkTlv 135 17 (mkQos 3
  [35; 115; 31; 147; 150; 134; 134; 116; 131; 255; 255; 0; 0; 0; 0; 0]))); None; None; None; Some (I1_CommonFlags (mkTlv 148 1 [false; true; false;
  false; false; false; false; false])); Some (I1_RatType (mkTlv 151 1 Utran)); Some (I1_Uli (mkTlv 152 8 (mkUli (226, 10, false) 1620 (Sac 15529))));
  Some (I1_Tz (mkTlv 153 2 (mkTz 2 0))); None; None; None; Some (I1_Earp (mkTlv 191 1 (mkEarp 0 9 1))); None; None; None; None; None; None])) = [50;
  18; 0; 96; 16; 43; 223; 35; 192; 134; 0; 0; 2; 9; 65; 80; 1; 114; 103; 53; 249; 3; 34; 246; 1; 255; 254; 255; 14; 191; 16; 47; 60; 64; 199; 17; 47;
  60; 64; 200; 20; 5; 133; 0; 4; 62; 217; 200; 4; 133; 0; 4; 62; 217; 200; 40; 135; 0; 17; 3; 35; 115; 31; 147; 150; 134; 134; 116; 131; 255; 255; 0;
  0; 0; 0; 0; 148; 0; 1; 64; 151; 0; 1; 1; 152; 0; 8; 1; 34; 246; 1; 6; 84; 60; 169; 153; 0; 2; 2; 0; 191; 0; 1; 100].
Proof. vm_compute. reflexivity. Qed.
