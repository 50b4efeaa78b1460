(* C72: which GTPv1 packets crash a receiver, in debug and in release builds. The conditions are in V1CrashSpec.v. [b]
   is the packet; a packet that is not listed there makes the decoder return a message or an error, or (release builds
   only, C51) not return. *)
From Coq Require Import Sorting.Sorted.
From Verif Require Import Base BaseFacts V1U V1CHdr V1CIe V1CKind V1CMsg V1CTables V1CSpec V1CSafeSpec V1CMsgSpec V1CMsgFacts V1CrashSpec V1Crash V1CrashIe V1CrashMsg V1CrashPkt V1CrashEi.
Local Open Scope N_scope.

Theorem C72_header_c : forall m b, chdr_unmarshal m b = Panic <-> header_c_crashes m b.
Proof. exact chdr_panic. Qed.
Print Assumptions C72_header_c.
Theorem C72_header_u : forall m b, hdr_unmarshal m b = Panic <-> header_u_crashes m b.
Proof. exact hdr_panic. Qed.
Print Assumptions C72_header_u.

(* Decoding an element of GTPv1-C as the kind of its type octet, or asking the element decoded for its size. *)
Theorem C72_element : forall m t k s, bytes (t :: s) -> code_kind t = Some k ->
  (ie1_unmarshal k m (t :: s) = Panic \/ (exists i, ie1_unmarshal k m (t :: s) = Ok i /\ ie1_len m i = Panic)
   <-> element_crashes m (t :: s)).
Proof. exact element_panic. Qed.
Print Assumptions C72_element.

(* The sixteen messages decoded by a loop, and the four others *)
Theorem C72_message_c : forall code L T m b, In (code, L, T) messages1 -> bytes b ->
  (msg1_unmarshal T m b = Panic <-> message_c_crashes code (map f_code L) m b).
Proof. intros. apply message_panic; assumption. Qed.
Print Assumptions C72_message_c.
Theorem C72_version_not_supported : forall m b, Vns_unmarshal m b = Panic <-> header_c_crashes m b.
Proof. exact vns_panic. Qed.
Print Assumptions C72_version_not_supported.
Theorem C72_echo_request_c : forall m b, bytes b -> (CEchoReq_unmarshal m b = Panic <-> echo_request_c_crashes m b).
Proof. exact echo_request_c_panic. Qed.
Print Assumptions C72_echo_request_c.
Theorem C72_echo_response_c : forall m b, bytes b -> (CEchoResp_unmarshal m b = Panic <-> echo_response_c_crashes m b).
Proof. exact echo_response_c_panic. Qed.
Print Assumptions C72_echo_response_c.
Theorem C72_extensions_c : forall m b, bytes b -> (CSup_unmarshal m b = Panic <-> extensions_c_crashes m b).
Proof. exact extensions_c_panic. Qed.
Print Assumptions C72_extensions_c.

(* GTP-U *)
Theorem C72_echo_request_u : forall m b, bytes b -> (EchoRequest_unmarshal m b = Panic <-> plain_u_crashes 1 m b).
Proof. exact (plain_u_panic 1). Qed.
Print Assumptions C72_echo_request_u.
Theorem C72_end_marker : forall m b, bytes b -> (EndMarker_unmarshal m b = Panic <-> plain_u_crashes 254 m b).
Proof. exact (plain_u_panic 254). Qed.
Print Assumptions C72_end_marker.
Theorem C72_echo_response_u : forall m b, bytes b -> (EchoResponse_unmarshal m b = Panic <-> echo_response_u_crashes m b).
Proof. exact echo_response_u_panic. Qed.
Print Assumptions C72_echo_response_u.
Theorem C72_error_indication : forall m b, bytes b -> (ErrorIndication_unmarshal m b = Panic <-> error_indication_crashes m b).
Proof. exact error_indication_panic. Qed.
Print Assumptions C72_error_indication.
Theorem C72_gpdu : forall m b, bytes b -> (Gpdu_unmarshal m b = Panic <-> gpdu_crashes m b).
Proof. exact gpdu_panic. Qed.
Print Assumptions C72_gpdu.
Theorem C72_extensions_u : forall m b, bytes b -> (SupExtNotif_unmarshal m b = Panic <-> extensions_u_crashes m b).
Proof. exact extensions_u_panic. Qed.
Print Assumptions C72_extensions_u.

(* The shortest case: a G-PDU without optional header fields, whatever follows it. Every length above 65527 crashes the
   receiver, in a debug build and in a release build, and no other length does. *)
Theorem C72_plain_gpdu : forall m l1 l2 t1 t2 t3 t4 r, bytes (48 :: 255 :: l1 :: l2 :: t1 :: t2 :: t3 :: t4 :: r) ->
  (Gpdu_unmarshal m (48 :: 255 :: l1 :: l2 :: t1 :: t2 :: t3 :: t4 :: r) = Panic <-> 65528 <= 256 * l1 + l2).
Proof.
  intros m l1 l2 t1 t2 t3 t4 r B. set (b := _ :: _) in *.
  assert (Bl : 256 * l1 + l2 < 65536). { unfold b, bytes in B. rewrite !Forall_cons_iff in B. unfold byte in B. lia. }
  assert (Hh : 256 * l1 + l2 <> 0 -> read_u 255 m b (256 * l1 + l2) 8).
  { intros Z. eexists. split; [|split; [|split; [|]]].
    - unfold hdr_unmarshal, b. destruct (Nat.leb_spec 8 (length (48 :: 255 :: l1 :: l2 :: t1 :: t2 :: t3 :: t4 :: r))) as [_|K]; [|cbn [length] in K; lia].
      unfold at_. cbn [nth_error bind]. change (N.shiftr 48 5 =? 1) with true. change (N.land (N.shiftr 48 4) 1 =? 1) with true. cbn [andb].
      destruct (N.eqb_spec (be16 l1 l2) 0) as [K|K]; [unfold be16 in K; lia|]. reflexivity.
    - reflexivity.
    - cbn. unfold be16. lia.
    - reflexivity. }
  assert (E : nlen b = 8 + nlen r) by (unfold b, nlen; cbn [length]; lia).
  rewrite (C72_gpdu m b B). split.
  - intros [(_ & _ & _ & H & _)|(l & n & (h & H1 & H2 & H3 & H4) & H)].
    + exfalso. change (octet b 0) with 48 in H. destruct H as [H|[_ H]]; discriminate.
    + destruct (N.eq_dec (256 * l1 + l2) 0) as [Z|Z].
      { exfalso. unfold hdr_unmarshal in H1. unfold b in H1. destruct (_ <=? _)%nat in H1; [|discriminate]. unfold at_ in H1. cbn [nth_error bind] in H1.
        change (N.shiftr 48 5 =? 1) with true in H1. change (N.land (N.shiftr 48 4) 1 =? 1) with true in H1. cbn [andb] in H1. assert (l1 = 0) by lia. assert (l2 = 0) by lia. subst l1 l2. discriminate H1. }
      destruct (Hh Z) as (h' & G1 & G2 & G3 & G4). assert (h' = h) by congruence. subst h'. assert (l = 256 * l1 + l2) by congruence. assert (n = 8%nat) by congruence. subst l n.
      destruct H as [[_ H]|[_ H]]; [lia|]. destruct (N.lt_ge_cases (256 * l1 + l2) 65528) as [K|K]; [|lia]. rewrite N.mod_small in H by lia. change (N.of_nat 8) with 8 in H. lia.
  - intros H. right. exists (256 * l1 + l2), 8%nat. split; [apply Hh; lia|]. right.
    assert (M : (256 * l1 + l2 + 8) mod 65536 < 8). { replace (256 * l1 + l2 + 8) with (256 * l1 + l2 - 65528 + 1 * 65536) by lia. rewrite N.mod_add by lia. rewrite N.mod_small by lia. lia. }
    split; [unfold total_fits; lia|exact M].
Qed.
Print Assumptions C72_plain_gpdu.

(* --- cases ------------------------------------------------------------------------------------------------- *)
Example C72_witness_gpdu : forall m, gpdu_crashes m [48; 255; 255; 255; 0; 0; 0; 1].
Proof. intros m. apply C72_gpdu; [repeat constructor|]. apply C72_plain_gpdu; [repeat constructor|]. vm_compute. discriminate. Qed.
(* ... and one that is read *)
Example C72_witness_gpdu_read : forall m, ~ gpdu_crashes m [48; 255; 0; 3; 0; 0; 0; 1; 7; 8; 9].
Proof. intros m. rewrite <- C72_gpdu by repeat constructor. destruct m; vm_compute; discriminate. Qed.
(* a chain that goes on behind the end of the packet *)
Example C72_witness_header : forall m, header_c_crashes m [54; 16; 0; 8; 0; 0; 0; 1; 0; 1; 0; 193; 1; 2; 3].
Proof.
  intros m. split; [vm_compute; repeat constructor|]. split; [reflexivity|]. split; [reflexivity|]. exists []. split; [|left; reflexivity].
  apply ext_after; [cbn; lia|discriminate|discriminate|reflexivity|vm_compute; repeat constructor|]. apply ext_first.
Qed.
(* Create PDP Context Request: the access point name says three octets of a label of four. *)
Definition broken_name : list N := [48; 16; 0; 17; 0; 0; 0; 0; 2; 33; 67; 101; 135; 9; 33; 67; 245; 131; 0; 3; 4; 97; 98; 20; 5].
Lemma not_exact : ~ labels_exact [4; 97; 98].
Proof. rewrite <- (@labels_panic GTPV1Error). reflexivity. Qed.
Example C72_witness_message : forall m, message_c_crashes 16 (map f_code CreatePDPContextRequest_L) m broken_name.
Proof.
  intros m. right. exists 17, 8%nat. split; [eexists; split; [destruct m; reflexivity|]; repeat split|]. right. split; [vm_compute; discriminate|].
  exists [2], 17%nat, 131. split.
  { eapply upto_more; [reflexivity|reflexivity|destruct m; vm_compute; reflexivity|destruct m; reflexivity|]. apply upto_here. }
  split; [reflexivity|]. split; [repeat constructor; discriminate|]. split; [repeat constructor; vm_compute; tauto|]. left.
  eexists. split; [do 1 right; left; reflexivity|]. split; [|right; right; exact not_exact]. split; [vm_compute; repeat constructor|]. split; [discriminate|left; vm_compute; repeat constructor].
Qed.
(* Update PDP Context Request: the first GSN address has five octets. The error handling panics. *)
Example C72_witness_count : forall m, message_c_crashes 18 (map f_code UpdatePDPContextRequest_L) m [48; 18; 0; 8; 0; 0; 0; 0; 133; 0; 5; 1; 2; 3; 4; 5].
Proof. intros m. apply (C72_message_c 18 UpdatePDPContextRequest_L UpdatePDPContextRequest_T); [cbn; tauto|repeat constructor|]. destruct m; vm_compute; reflexivity. Qed.
(* ... and after four octets it does not. *)
Example C72_witness_no_crash : forall m, ~ message_c_crashes 18 (map f_code UpdatePDPContextRequest_L) m [48; 18; 0; 8; 0; 0; 0; 0; 133; 0; 4; 1; 2; 3; 4; 133; 0; 5; 1; 2; 3; 4; 5].
Proof. intros m. rewrite <- (C72_message_c 18 UpdatePDPContextRequest_L UpdatePDPContextRequest_T) by (cbn; try tauto; repeat constructor). destruct m; vm_compute; discriminate. Qed.
Example C72_witness_element : forall m, element_crashes m [202; 0] /\ ~ element_crashes m [202; 0; 1; 35].
Proof.
  intros m. split.
  - eexists. split; [do 14 right; left; reflexivity|]. left. reflexivity.
  - rewrite <- (C72_element m 202 K1_Backoff); [|repeat constructor|reflexivity]. intros [H|(i & H & H')].
    + destruct m; vm_compute in H; discriminate.
    + destruct m; vm_compute in H; injection H as <-; vm_compute in H'; discriminate.
Qed.
(* one private extension with a single octet; the type lists; the sequence number behind the end *)
Example C72_witness_echo_request_c : forall m, echo_request_c_crashes m [50; 1; 0; 4; 0; 0; 0; 0; 0; 1].
Proof. intros m. apply C72_echo_request_c; [repeat constructor|]. destruct m; vm_compute; reflexivity. Qed.
Example C72_witness_echo_response_c : forall m, echo_response_c_crashes m [50; 2; 0; 9; 0; 0; 0; 0; 0; 1; 0; 0; 14; 5; 255; 0; 1; 9].
Proof. intros m. apply C72_echo_response_c; [repeat constructor|]. destruct m; vm_compute; reflexivity. Qed.
Example C72_witness_extensions_c : forall m, extensions_c_crashes m [48; 31; 0; 1; 0; 0; 0; 0; 141].
Proof. intros m. apply C72_extensions_c; [repeat constructor|]. destruct m; vm_compute; reflexivity. Qed.
Example C72_witness_plain_u : forall m, plain_u_crashes 1 m [50; 1; 0; 9; 0; 0; 0; 0; 0; 1; 0; 0; 255; 0; 1; 9] /\ plain_u_crashes 254 m [50; 254; 0; 9; 0; 0; 0; 0; 0; 1; 0; 0; 255; 0; 1; 9].
Proof. intros m. split; [apply C72_echo_request_u; [repeat constructor|]|apply C72_end_marker; [repeat constructor|]]; destruct m; vm_compute; reflexivity. Qed.
Example C72_witness_echo_response_u : forall m, echo_response_u_crashes m [50; 2; 0; 9; 0; 0; 0; 0; 0; 1; 0; 0; 14; 5; 255; 0; 1; 9].
Proof. intros m. apply C72_echo_response_u; [repeat constructor|]. destruct m; vm_compute; reflexivity. Qed.
Example C72_witness_error_indication : forall m, error_indication_crashes m [48; 26; 0; 9; 0; 0; 0; 0; 16; 0; 0; 0; 1; 255; 0; 1; 7] /\
  ~ error_indication_crashes m [48; 26; 0; 12; 0; 0; 0; 0; 16; 0; 0; 0; 1; 133; 0; 4; 1; 2; 3; 4].
Proof.
  intros m. split; [apply C72_error_indication; [repeat constructor|]; destruct m; vm_compute; reflexivity|].
  rewrite <- C72_error_indication by repeat constructor. destruct m; vm_compute; discriminate.
Qed.
Example C72_witness_extensions_u : forall m, extensions_u_crashes m [48; 31; 0; 1; 0; 0; 0; 0; 141].
Proof. intros m. apply C72_extensions_u; [repeat constructor|]. destruct m; vm_compute; reflexivity. Qed.
