(* The test vectors of the unit tests in /repo/src/gtpv1/gtpu, run through the model.  These are tests of the
   transcription, not properties: every [Example] takes the octets of one test and says that the model's
   decoder returns the value (or the error) that the test expects, and, where the test (or its marshal
   twin) asks for it, that the model's encoder gives those octets back. *)
From Verif Require Import Base V1U.
Local Open Scope N_scope.

(* gtpv1/gtpu/extensionheaders/longpdcppdunumber.rs, long_pdcp_exthdr_unmarshal_test *)
Example longpdcppdunumber__long_pdcp_exthdr_unmarshal_test : ext_unmarshal Debug [3; 2; 3; 255; 255; 0; 0; 0] = Ok (EH_LongPDCPPDUNumber (mkNumExt 3 2
  262143)).
Proof. vm_compute. reflexivity. Qed.
Example longpdcppdunumber__long_pdcp_exthdr_unmarshal_test_back : ext_marshal ((EH_LongPDCPPDUNumber (mkNumExt 3 2 262143))) = [3; 2; 3; 255; 255; 0;
  0; 0].
Proof. vm_compute. reflexivity. Qed.
(* gtpv1/gtpu/extensionheaders/nrrancontainer.rs, nr_ran_container_exthdr_unmarshal_test *)
Example nrrancontainer__nr_ran_container_exthdr_unmarshal_test : ext_unmarshal Debug [132; 2; 0; 1; 2; 3; 4; 5] = Ok (EH_NrRanContainer (mkBlobExt 132
  2 [0; 1; 2; 3; 4; 5])).
Proof. vm_compute. reflexivity. Qed.
Example nrrancontainer__nr_ran_container_exthdr_unmarshal_test_back : ext_marshal ((EH_NrRanContainer (mkBlobExt 132 2 [0; 1; 2; 3; 4; 5]))) = [132;
  2; 0; 1; 2; 3; 4; 5].
Proof. vm_compute. reflexivity. Qed.
(* gtpv1/gtpu/extensionheaders/pdcppdunumber.rs, pdcp_exthdr_unmarshal_test *)
Example pdcppdunumber__pdcp_exthdr_unmarshal_test : ext_unmarshal Debug [192; 1; 16; 0] = Ok (EH_PDCPPDUNumber (mkNumExt 192 1 4096)).
Proof. vm_compute. reflexivity. Qed.
Example pdcppdunumber__pdcp_exthdr_unmarshal_test_back : ext_marshal ((EH_PDCPPDUNumber (mkNumExt 192 1 4096))) = [192; 1; 16; 0].
Proof. vm_compute. reflexivity. Qed.
(* gtpv1/gtpu/extensionheaders/pdusessioncontainer.rs, pdu_session_container_exthdr_unmarshal_test *)
Example pdusessioncontainer__pdu_session_container_exthdr_unmarshal_test : ext_unmarshal Debug [133; 2; 0; 1; 2; 3; 4; 5] = Ok (EH_PduSessionContainer
  (mkBlobExt 133 2 [0; 1; 2; 3; 4; 5])).
Proof. vm_compute. reflexivity. Qed.
Example pdusessioncontainer__pdu_session_container_exthdr_unmarshal_test_back : ext_marshal ((EH_PduSessionContainer (mkBlobExt 133 2 [0; 1; 2; 3; 4;
  5]))) = [133; 2; 0; 1; 2; 3; 4; 5].
Proof. vm_compute. reflexivity. Qed.
(* gtpv1/gtpu/extensionheaders/rancontainer.rs, ran_container_exthdr_unmarshal_test *)
Example rancontainer__ran_container_exthdr_unmarshal_test : ext_unmarshal Debug [129; 2; 0; 1; 2; 3; 4; 5] = Ok (EH_RanContainer (mkBlobExt 129 2 [0;
  1; 2; 3; 4; 5])).
Proof. vm_compute. reflexivity. Qed.
Example rancontainer__ran_container_exthdr_unmarshal_test_back : ext_marshal ((EH_RanContainer (mkBlobExt 129 2 [0; 1; 2; 3; 4; 5]))) = [129; 2; 0; 1;
  2; 3; 4; 5].
Proof. vm_compute. reflexivity. Qed.
(* gtpv1/gtpu/extensionheaders/sci.rs, sci_exthdr_unmarshal_test *)
Example sci__sci_exthdr_unmarshal_test : ext_unmarshal Debug [32; 1; 9; 0] = Ok (EH_Sci (mkNumExt 32 1 9)).
Proof. vm_compute. reflexivity. Qed.
Example sci__sci_exthdr_unmarshal_test_back : ext_marshal ((EH_Sci (mkNumExt 32 1 9))) = [32; 1; 9; 0].
Proof. vm_compute. reflexivity. Qed.
(* gtpv1/gtpu/extensionheaders/udpport.rs, udp_port_exthdr_unmarshal_test *)
Example udpport__udp_port_exthdr_unmarshal_test : ext_unmarshal Debug [64; 1; 16; 0] = Ok (EH_UDPPort (mkNumExt 64 1 4096)).
Proof. vm_compute. reflexivity. Qed.
Example udpport__udp_port_exthdr_unmarshal_test_back : ext_marshal ((EH_UDPPort (mkNumExt 64 1 4096))) = [64; 1; 16; 0].
Proof. vm_compute. reflexivity. Qed.
(* gtpv1/gtpu/extensionheaders/unknown.rs, unknown_exthdr_unmarshal_test *)
Example unknown__unknown_exthdr_unmarshal_test : ext_unmarshal Debug [250; 1; 255; 255] = Ok (EH_Unknown (mkBlobExt 250 1 [255; 255])).
Proof. vm_compute. reflexivity. Qed.
Example unknown__unknown_exthdr_unmarshal_test_back : ext_marshal ((EH_Unknown (mkBlobExt 250 1 [255; 255]))) = [250; 1; 255; 255].
Proof. vm_compute. reflexivity. Qed.
(* gtpv1/gtpu/extensionheaders/xwrancontainer.rs, xw_ran_container_exthdr_unmarshal_test *)
Example xwrancontainer__xw_ran_container_exthdr_unmarshal_test : ext_unmarshal Debug [131; 2; 0; 1; 2; 3; 4; 5] = Ok (EH_XwRanContainer (mkBlobExt 131
  2 [0; 1; 2; 3; 4; 5])).
Proof. vm_compute. reflexivity. Qed.
Example xwrancontainer__xw_ran_container_exthdr_unmarshal_test_back : ext_marshal ((EH_XwRanContainer (mkBlobExt 131 2 [0; 1; 2; 3; 4; 5]))) = [131;
  2; 0; 1; 2; 3; 4; 5].
Proof. vm_compute. reflexivity. Qed.
(* gtpv1/gtpu/header.rs, test_gtpv1_hdr_bare_unmarshal *)
Example header__test_gtpv1_hdr_bare_unmarshal : hdr_unmarshal Debug [48; 255; 0; 52; 22; 98; 103; 25] = Ok (mkHdr 255 52 375547673 None None None).
Proof. vm_compute. reflexivity. Qed.
Example header__test_gtpv1_hdr_bare_unmarshal_back : hdr_marshal ((mkHdr 255 52 375547673 None None None)) = [48; 255; 0; 52; 22; 98; 103; 25].
Proof. vm_compute. reflexivity. Qed.
(* gtpv1/gtpu/header.rs, test_gtpv1_hdr_with_sqn_unmarshal *)
Example header__test_gtpv1_hdr_with_sqn_unmarshal : hdr_unmarshal Debug [50; 2; 0; 6; 0; 0; 0; 0; 246; 78; 0; 0] = Ok (mkHdr 2 6 0 (Some 63054) None
  None).
Proof. vm_compute. reflexivity. Qed.
Example header__test_gtpv1_hdr_with_sqn_unmarshal_back : hdr_marshal ((mkHdr 2 6 0 (Some 63054) None None)) = [50; 2; 0; 6; 0; 0; 0; 0; 246; 78; 0;
  0].
Proof. vm_compute. reflexivity. Qed.
(* gtpv1/gtpu/header.rs, test_gtpv1_hdr_with_sqn_and_one_ext_header_unmarshal *)
Example header__test_gtpv1_hdr_with_sqn_and_one_ext_header_unmarshal : hdr_unmarshal Debug [54; 2; 0; 8; 0; 0; 0; 0; 246; 78; 0; 64; 1; 16; 0; 0] = Ok
  (mkHdr 2 8 0 (Some 63054) None (Some [EH_UDPPort (mkNumExt 64 1 4096)])).
Proof. vm_compute. reflexivity. Qed.
Example header__test_gtpv1_hdr_with_sqn_and_one_ext_header_unmarshal_back : hdr_marshal ((mkHdr 2 8 0 (Some 63054) None (Some [EH_UDPPort (mkNumExt 64
  1 4096)]))) = [54; 2; 0; 8; 0; 0; 0; 0; 246; 78; 0; 64; 1; 16; 0; 0].
Proof. vm_compute. reflexivity. Qed.
(* gtpv1/gtpu/header.rs, test_gtpv1_hdr_with_sqn_and_two_ext_header_unmarshal *)
Example header__test_gtpv1_hdr_with_sqn_and_two_ext_header_unmarshal : hdr_unmarshal Debug [54; 2; 0; 12; 0; 0; 0; 0; 246; 78; 0; 64; 1; 16; 0; 192;
  1; 16; 0; 0] = Ok (mkHdr 2 12 0 (Some 63054) None (Some [EH_UDPPort (mkNumExt 64 1 4096); EH_PDCPPDUNumber (mkNumExt 192 1 4096)])).
Proof. vm_compute. reflexivity. Qed.
Example header__test_gtpv1_hdr_with_sqn_and_two_ext_header_unmarshal_back : hdr_marshal ((mkHdr 2 12 0 (Some 63054) None (Some [EH_UDPPort (mkNumExt
  64 1 4096); EH_PDCPPDUNumber (mkNumExt 192 1 4096)]))) = [54; 2; 0; 12; 0; 0; 0; 0; 246; 78; 0; 64; 1; 16; 0; 192; 1; 16; 0; 0].
Proof. vm_compute. reflexivity. Qed.
(* gtpv1/gtpu/header.rs, test_gtpv1_hdr_with_sqn_npdu_and_two_ext_header_unmarshal *)
Example header__test_gtpv1_hdr_with_sqn_npdu_and_two_ext_header_unmarshal : hdr_unmarshal Debug [54; 2; 0; 8; 0; 0; 0; 0; 246; 78; 0; 64; 1; 16; 0;
  192; 1; 16; 0; 0] = Ok (mkHdr 2 8 0 (Some 63054) None (Some [EH_UDPPort (mkNumExt 64 1 4096); EH_PDCPPDUNumber (mkNumExt 192 1 4096)])).
Proof. vm_compute. reflexivity. Qed.
Example header__test_gtpv1_hdr_with_sqn_npdu_and_two_ext_header_unmarshal_back : hdr_marshal ((mkHdr 2 8 0 (Some 63054) None (Some [EH_UDPPort
  (mkNumExt 64 1 4096); EH_PDCPPDUNumber (mkNumExt 192 1 4096)]))) = [54; 2; 0; 8; 0; 0; 0; 0; 246; 78; 0; 64; 1; 16; 0; 192; 1; 16; 0; 0].
Proof. vm_compute. reflexivity. Qed.
(* gtpv1/gtpu/messages/echoreq.rs, test_echo_req_unmarshal *)
Example echoreq__test_echo_req_unmarshal : EchoRequest_unmarshal Debug [50; 1; 0; 4; 0; 0; 0; 0; 73; 202; 0; 0] = Ok (mkSimple (mkHdr 1 4 0 (Some
  18890) None None) None).
Proof. vm_compute. reflexivity. Qed.
Example echoreq__test_echo_req_unmarshal_back : (fun x => Simple_marshal x []) ((mkSimple (mkHdr 1 4 0 (Some 18890) None None) None)) = [50; 1; 0; 4;
  0; 0; 0; 0; 73; 202; 0; 0].
Proof. vm_compute. reflexivity. Qed.
(* gtpv1/gtpu/messages/echoreq.rs, test_echo_req_with_private_ext_unmarshal *)
Example echoreq__test_echo_req_with_private_ext_unmarshal : EchoRequest_unmarshal Debug [50; 1; 0; 12; 0; 0; 0; 0; 73; 202; 0; 0; 255; 0; 5; 0; 8; 1;
  2; 3] = Ok (mkSimple (mkHdr 1 12 0 (Some 18890) None None) (Some (mkPe 255 5 8 [1; 2; 3]))).
Proof. vm_compute. reflexivity. Qed.
Example echoreq__test_echo_req_with_private_ext_unmarshal_back : (fun x => Simple_marshal x []) ((mkSimple (mkHdr 1 12 0 (Some 18890) None None) (Some
  (mkPe 255 5 8 [1; 2; 3])))) = [50; 1; 0; 12; 0; 0; 0; 0; 73; 202; 0; 0; 255; 0; 5; 0; 8; 1; 2; 3].
Proof. vm_compute. reflexivity. Qed.
(* gtpv1/gtpu/messages/echoreq.rs, test_echo_req_with_incorrect_private_ext_unmarshal *)
Example echoreq__test_echo_req_with_incorrect_private_ext_unmarshal : EchoRequest_unmarshal Debug [50; 1; 0; 12; 0; 0; 0; 0; 73; 202; 0; 0; 255; 0; 5;
  0; 8; 1; 2] = Ok (mkSimple (mkHdr 1 12 0 (Some 18890) None None) None).
Proof. vm_compute. reflexivity. Qed.
(* gtpv1/gtpu/messages/echoresp.rs, test_echo_resp_unmarshal *)
Example echoresp__test_echo_resp_unmarshal : EchoResponse_unmarshal Debug [50; 2; 0; 6; 0; 0; 0; 0; 246; 75; 0; 0; 14; 0] = Ok (mkEchoResp (mkHdr 2 6
  0 (Some 63051) None None) (mkRec 14 0) None).
Proof. vm_compute. reflexivity. Qed.
Example echoresp__test_echo_resp_unmarshal_back : (fun x => EchoResponse_marshal x []) ((mkEchoResp (mkHdr 2 6 0 (Some 63051) None None) (mkRec 14 0)
  None)) = [50; 2; 0; 6; 0; 0; 0; 0; 246; 75; 0; 0; 14; 0].
Proof. vm_compute. reflexivity. Qed.
(* gtpv1/gtpu/messages/echoresp.rs, test_echo_resp_without_mandatory_ie_unmarshal *)
Example echoresp__test_echo_resp_without_mandatory_ie_unmarshal : EchoResponse_unmarshal Debug [50; 2; 0; 6; 0; 0; 0; 0; 246; 75; 0; 0] = Err
  MessageMandatoryIEMissing.
Proof. vm_compute. reflexivity. Qed.
(* gtpv1/gtpu/messages/echoresp.rs, test_echo_resp_with_incorrect_mandatory_ie_unmarshal *)
Example echoresp__test_echo_resp_with_incorrect_mandatory_ie_unmarshal : EchoResponse_unmarshal Debug [50; 2; 0; 6; 0; 0; 0; 0; 246; 75; 0; 0; 15; 38]
  = Err MessageMandatoryIEMissing.
Proof. vm_compute. reflexivity. Qed.
(* gtpv1/gtpu/messages/echoresp.rs, test_echo_resp_with_private_ext_unmarshal *)
Example echoresp__test_echo_resp_with_private_ext_unmarshal : EchoResponse_unmarshal Debug [50; 2; 0; 14; 0; 0; 0; 0; 246; 75; 0; 0; 14; 0; 255; 0; 5;
  0; 8; 1; 2; 3] = Ok (mkEchoResp (mkHdr 2 14 0 (Some 63051) None None) (mkRec 14 0) (Some (mkPe 255 5 8 [1; 2; 3]))).
Proof. vm_compute. reflexivity. Qed.
Example echoresp__test_echo_resp_with_private_ext_unmarshal_back : (fun x => EchoResponse_marshal x []) ((mkEchoResp (mkHdr 2 14 0 (Some 63051) None
  None) (mkRec 14 0) (Some (mkPe 255 5 8 [1; 2; 3])))) = [50; 2; 0; 14; 0; 0; 0; 0; 246; 75; 0; 0; 14; 0; 255; 0; 5; 0; 8; 1; 2; 3].
Proof. vm_compute. reflexivity. Qed.
(* gtpv1/gtpu/messages/echoresp.rs, test_echo_resp_with_with_incorrect_mandatory_ie_and_private_ext_unmarshal *)
Example echoresp__test_echo_resp_with_with_incorrect_mandatory_ie_and_private_ext_unmarshal : EchoResponse_unmarshal Debug [50; 2; 0; 14; 0; 0; 0; 0;
  246; 75; 0; 0; 15; 38; 255; 0; 5; 0; 8; 1; 2; 3] = Err MessageMandatoryIEMissing.
Proof. vm_compute. reflexivity. Qed.
(* gtpv1/gtpu/messages/echoresp.rs, test_echo_resp_with_with_missing_mandatory_ie_and_private_ext_unmarshal *)
Example echoresp__test_echo_resp_with_with_missing_mandatory_ie_and_private_ext_unmarshal : EchoResponse_unmarshal Debug [50; 2; 0; 12; 0; 0; 0; 0;
  246; 75; 0; 0; 255; 0; 5; 0; 8; 1; 2; 3] = Err MessageMandatoryIEMissing.
Proof. vm_compute. reflexivity. Qed.
(* gtpv1/gtpu/messages/echoresp.rs, test_echo_resp_with_incorrect_private_ext_unmarshal *)
Example echoresp__test_echo_resp_with_incorrect_private_ext_unmarshal : EchoResponse_unmarshal Debug [50; 2; 0; 14; 0; 0; 0; 0; 246; 75; 0; 0; 14; 38;
  255; 0; 5; 0; 8; 1; 2] = Ok (mkEchoResp (mkHdr 2 14 0 (Some 63051) None None) (mkRec 14 38) None).
Proof. vm_compute. reflexivity. Qed.
(* gtpv1/gtpu/messages/endmarker.rs, test_end_marker_unmarshal *)
Example endmarker__test_end_marker_unmarshal : EndMarker_unmarshal Debug [50; 254; 0; 4; 0; 0; 0; 2; 73; 202; 0; 0] = Ok (mkSimple (mkHdr 254 4 2
  (Some 18890) None None) None).
Proof. vm_compute. reflexivity. Qed.
Example endmarker__test_end_marker_unmarshal_back : (fun x => Simple_marshal x []) ((mkSimple (mkHdr 254 4 2 (Some 18890) None None) None)) = [50;
  254; 0; 4; 0; 0; 0; 2; 73; 202; 0; 0].
Proof. vm_compute. reflexivity. Qed.
(* gtpv1/gtpu/messages/endmarker.rs, test_end_marker_with_private_ext_unmarshal *)
Example endmarker__test_end_marker_with_private_ext_unmarshal : EndMarker_unmarshal Debug [50; 254; 0; 12; 0; 0; 0; 0; 73; 202; 0; 0; 255; 0; 5; 0; 8;
  1; 2; 3] = Ok (mkSimple (mkHdr 254 12 0 (Some 18890) None None) (Some (mkPe 255 5 8 [1; 2; 3]))).
Proof. vm_compute. reflexivity. Qed.
Example endmarker__test_end_marker_with_private_ext_unmarshal_back : (fun x => Simple_marshal x []) ((mkSimple (mkHdr 254 12 0 (Some 18890) None None)
  (Some (mkPe 255 5 8 [1; 2; 3])))) = [50; 254; 0; 12; 0; 0; 0; 0; 73; 202; 0; 0; 255; 0; 5; 0; 8; 1; 2; 3].
Proof. vm_compute. reflexivity. Qed.
(* gtpv1/gtpu/messages/errorindication.rs, test_error_indication_unmarshal *)
Example errorindication__test_error_indication_unmarshal : ErrorIndication_unmarshal Debug [54; 26; 0; 20; 0; 0; 0; 0; 73; 202; 0; 64; 1; 16; 0; 0;
  16; 0; 0; 255; 255; 133; 0; 4; 100; 117; 130; 53] = Ok (mkErrInd (mkHdr 26 20 0 (Some 18890) None (Some [EH_UDPPort (mkNumExt 64 1 4096)])) (mkTeid
  16 65535) (mkGsn 133 4 (V4 100 117 130 53)) None).
Proof. vm_compute. reflexivity. Qed.
Example errorindication__test_error_indication_unmarshal_back : (fun x => ErrorIndication_marshal x []) ((mkErrInd (mkHdr 26 20 0 (Some 18890) None
  (Some [EH_UDPPort (mkNumExt 64 1 4096)])) (mkTeid 16 65535) (mkGsn 133 4 (V4 100 117 130 53)) None)) = [54; 26; 0; 20; 0; 0; 0; 0; 73; 202; 0; 64;
  1; 16; 0; 0; 16; 0; 0; 255; 255; 133; 0; 4; 100; 117; 130; 53].
Proof. vm_compute. reflexivity. Qed.
(* gtpv1/gtpu/messages/errorindication.rs, test_error_indication_without_mandatory_ie_unmarshal *)
Example errorindication__test_error_indication_without_mandatory_ie_unmarshal : ErrorIndication_unmarshal Debug [54; 26; 0; 15; 0; 0; 0; 0; 73; 202;
  0; 64; 1; 16; 0; 0; 133; 0; 4; 100; 117; 130; 53] = Err MessageMandatoryIEMissing.
Proof. vm_compute. reflexivity. Qed.
(* gtpv1/gtpu/messages/gpdu.rs, test_gpdu_unmarshal *)
Example gpdu__test_gpdu_unmarshal : Gpdu_unmarshal Debug [50; 255; 0; 5; 0; 0; 0; 0; 73; 202; 0; 0; 1] = Ok (mkGpdu (mkHdr 255 5 0 (Some 18890) None
  None) [1]).
Proof. vm_compute. reflexivity. Qed.
Example gpdu__test_gpdu_unmarshal_back : (fun x => Gpdu_marshal x []) ((mkGpdu (mkHdr 255 5 0 (Some 18890) None None) [1])) = [50; 255; 0; 5; 0; 0; 0;
  0; 73; 202; 0; 0; 1].
Proof. vm_compute. reflexivity. Qed.
(* gtpv1/gtpu/messages/gpdu.rs, test_gpdu_missing_tpdu_unmarshal *)
Example gpdu__test_gpdu_missing_tpdu_unmarshal : Gpdu_unmarshal Debug [50; 255; 0; 5; 0; 0; 0; 0; 73; 202; 0; 0] = Err MessageLengthError.
Proof. vm_compute. reflexivity. Qed.
(* gtpv1/gtpu/messages/ies/extensionheadertypelist.rs, extension_header_type_list_ie_unmarshal_test *)
Example extensionheadertypelist__extension_header_type_list_ie_unmarshal_test : Ehtl_unmarshal Debug [141; 5; 0; 1; 2; 3; 4] = Ok (mkEhtl 141 5 [0; 1;
  2; 3; 4]).
Proof. vm_compute. reflexivity. Qed.
Example extensionheadertypelist__extension_header_type_list_ie_unmarshal_test_back : Ehtl_marshal ((mkEhtl 141 5 [0; 1; 2; 3; 4])) = [141; 5; 0; 1; 2;
  3; 4].
Proof. vm_compute. reflexivity. Qed.
(* gtpv1/gtpu/messages/ies/gsnaddress.rs, gsn_address_ie_ipv4_unmarshal_test *)
Example gsnaddress__gsn_address_ie_ipv4_unmarshal_test : Gsn_unmarshal Debug [133; 0; 4; 0; 0; 0; 0] = Ok (mkGsn 133 4 (V4 0 0 0 0)).
Proof. vm_compute. reflexivity. Qed.
Example gsnaddress__gsn_address_ie_ipv4_unmarshal_test_back : Gsn_marshal ((mkGsn 133 4 (V4 0 0 0 0))) = [133; 0; 4; 0; 0; 0; 0].
Proof. vm_compute. reflexivity. Qed.
(* gtpv1/gtpu/messages/ies/gsnaddress.rs, gsn_address_ie_ipv6_unmarshal_test *)
Example gsnaddress__gsn_address_ie_ipv6_unmarshal_test : Gsn_unmarshal Debug [133; 0; 16; 0; 0; 0; 0; 0; 0; 0; 0; 0; 0; 0; 0; 0; 0; 0; 0] = Ok (mkGsn
  133 16 (V6 [0; 0; 0; 0; 0; 0; 0; 0; 0; 0; 0; 0; 0; 0; 0; 0])).
Proof. vm_compute. reflexivity. Qed.
Example gsnaddress__gsn_address_ie_ipv6_unmarshal_test_back : Gsn_marshal ((mkGsn 133 16 (V6 [0; 0; 0; 0; 0; 0; 0; 0; 0; 0; 0; 0; 0; 0; 0; 0]))) =
  [133; 0; 16; 0; 0; 0; 0; 0; 0; 0; 0; 0; 0; 0; 0; 0; 0; 0; 0].
Proof. vm_compute. reflexivity. Qed.
(* gtpv1/gtpu/messages/ies/privateextension.rs, private_extension_ie_unmarshal_test *)
Example privateextension__private_extension_ie_unmarshal_test : Pe_unmarshal Debug [255; 0; 5; 0; 8; 1; 2; 3] = Ok (mkPe 255 5 8 [1; 2; 3]).
Proof. vm_compute. reflexivity. Qed.
Example privateextension__private_extension_ie_unmarshal_test_back : Pe_marshal ((mkPe 255 5 8 [1; 2; 3])) = [255; 0; 5; 0; 8; 1; 2; 3].
Proof. vm_compute. reflexivity. Qed.
(* gtpv1/gtpu/messages/ies/recovery.rs, recovery_ie_unmarshal_test *)
Example recovery__recovery_ie_unmarshal_test : Rec_unmarshal [14; 99] = Ok (mkRec 14 99).
Proof. vm_compute. reflexivity. Qed.
Example recovery__recovery_ie_unmarshal_test_back : Rec_marshal ((mkRec 14 99)) = [14; 99].
Proof. vm_compute. reflexivity. Qed.
(* gtpv1/gtpu/messages/ies/teid.rs, teid_ie_unmarshal_test *)
Example teid__teid_ie_unmarshal_test : Teid_unmarshal [16; 99; 65; 175; 215] = Ok (mkTeid 16 1665249239).
Proof. vm_compute. reflexivity. Qed.
Example teid__teid_ie_unmarshal_test_back : Teid_marshal ((mkTeid 16 1665249239)) = [16; 99; 65; 175; 215].
Proof. vm_compute. reflexivity. Qed.
(* gtpv1/gtpu/messages/supportedexthdrnotification.rs, test_supported_ext_hdr_notification_unmarshal *)
Example supportedexthdrnotification__test_supported_ext_hdr_notification_unmarshal : SupExtNotif_unmarshal Debug [50; 31; 0; 11; 0; 0; 0; 0; 246; 75;
  0; 0; 141; 1; 0; 1; 2; 3; 4] = Ok (mkSup (mkHdr 31 11 0 (Some 63051) None None) (mkEhtl 141 1 [0; 1; 2; 3; 4])).
Proof. vm_compute. reflexivity. Qed.
(* gtpv1/gtpu/messages/supportedexthdrnotification.rs, test_supported_ext_hdr_notification_resp_without_mandatory_ie_unmarshal *)
Example supportedexthdrnotification__test_supported_ext_hdr_notification_resp_without_mandatory_ie_unmarshal : SupExtNotif_unmarshal Debug [50; 31; 0;
  4; 0; 0; 0; 0; 246; 75; 0; 0] = Err MessageMandatoryIEMissing.
Proof. vm_compute. reflexivity. Qed.
(* gtpv1/gtpu/messages/supportedexthdrnotification.rs, test_supported_ext_hdr_notification_with_incorrect_mandatory_ie_unmarshal *)
Example supportedexthdrnotification__test_supported_ext_hdr_notification_with_incorrect_mandatory_ie_unmarshal : SupExtNotif_unmarshal Debug [50; 31;
  0; 9; 0; 0; 0; 0; 246; 75; 0; 0; 141; 5; 0; 1; 2] = Err MessageMandatoryIEMissing.
Proof. vm_compute. reflexivity. Qed.
(* gtpv1/gtpu/messages/supportedexthdrnotification.rs, test_supported_ext_hdr_notification_marshal *)
Example supportedexthdrnotification__test_supported_ext_hdr_notification_marshal : SupExtNotif_unmarshal Debug [50; 31; 0; 11; 0; 0; 0; 0; 246; 75; 0;
  0; 141; 5; 0; 1; 2; 3; 4] = Ok (mkSup (mkHdr 31 11 0 (Some 63051) None None) (mkEhtl 141 5 [0; 1; 2; 3; 4])).
Proof. vm_compute. reflexivity. Qed.
Example supportedexthdrnotification__test_supported_ext_hdr_notification_marshal_back : (fun x => SupExtNotif_marshal x []) ((mkSup (mkHdr 31 11 0
  (Some 63051) None None) (mkEhtl 141 5 [0; 1; 2; 3; 4]))) = [50; 31; 0; 11; 0; 0; 0; 0; 246; 75; 0; 0; 141; 5; 0; 1; 2; 3; 4].
Proof. vm_compute. reflexivity. Qed.
(* gtpv1/gtpu/header.rs, infinite_loop_issue_2: a UDP port extension header with length 0, marshalled *)
Example header__infinite_loop_issue_2 :
  hdr_unmarshal Debug (hdr_marshal (mkHdr 0 8 0 None None (Some [EH_UDPPort (mkNumExt 64 0 0)]))) = Err ExtHeaderInvalidLength.
Proof. vm_compute. reflexivity. Qed.
