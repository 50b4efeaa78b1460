(* PropsV1U.v - the GTPv1-U properties C01-C09 and C15.
   The vocabulary of the statements is in V1USpec.v (well-formedness, flags, chains) and in
   the model of the API in V1U.v. [m] ranges over the two overflow-check modes. *)
From Verif Require Import BaseFacts V1U V1USpec V1UFacts V1UMsgFacts V1USafety V1USafety2 V1USafety3.
Local Open Scope N_scope.

(* ----- C01: header round-trip ------------------------------------------------ *)
Theorem C01_gtpu_header_roundtrip : forall m h payload,
  wf_header h -> faithful_combination h -> h_length h <> 0 ->
  hdr_unmarshal m (hdr_marshal h ++ payload) = Ok h.
Proof. intros m h r A B C. rewrite hdr_unmarshal_marshal, received_faithful by assumption. reflexivity. Qed.
Print Assumptions C01_gtpu_header_roundtrip.

Example C01_nonvacuous :
  let h := mkHdr 255 40 4660 (Some 17) None
    (Some [EH_PduSessionContainer (mkBlobExt 133 1 [0; 9]); EH_PDCPPDUNumber (mkNumExt 192 1 77)]) in
  wf_header h /\ faithful_combination h /\ h_length h <> 0 /\
  hdr_unmarshal Debug (hdr_marshal h ++ [1; 2; 3]) = Ok h.
Proof.
  cbn zeta. split; [|split; [|split]].
  - split; [reflexivity|]. split; [reflexivity|]. split; [intros s [= <-]; reflexivity|].
    intros l [= <-]. repeat constructor; cbn; try lia; auto; unfold nlen; cbn; lia.
  - left. discriminate.
  - discriminate.
  - vm_compute. reflexivity.
Qed.

(* Outside the faithful combinations the decoded header is [received_header h], which has
   a sequence number, an N-PDU number and an extension header list that were never sent. *)
Theorem C01_gtpu_header_other_combinations : forall m h payload,
  wf_header h -> h_length h <> 0 ->
  hdr_unmarshal m (hdr_marshal h ++ payload) = Ok (received_header h).
Proof. intros. apply hdr_unmarshal_marshal; assumption. Qed.
Print Assumptions C01_gtpu_header_other_combinations.

Theorem C01_without_sequence_number_refuted : exists h, wf_header h /\ h_length h <> 0 /\
  forall m payload, hdr_unmarshal m (hdr_marshal h ++ payload) <> Ok h.
Proof.
  exists (mkHdr 255 5 1 None (Some 7) None).
  assert (Hw : wf_header (mkHdr 255 5 1 None (Some 7) None)).
  { split; [reflexivity|]. split; [reflexivity|]. split; [discriminate|]. intros l; discriminate. }
  split; [exact Hw|]. split; [discriminate|]. intros m p.
  rewrite hdr_unmarshal_marshal by (exact Hw || discriminate). discriminate.
Qed.
Print Assumptions C01_without_sequence_number_refuted.

(* A header with length 0 is refused by the decoder. *)
Theorem C01_zero_length_refused : forall m h payload, h_length h = 0 ->
  hdr_unmarshal m (hdr_marshal h ++ payload) = Err HeaderInvalidLength.
Proof.
  intros m [mt len td s n e] p H. cbn [h_length] in H. subst len.
  unfold hdr_unmarshal. cbn [hdr_marshal msgtype h_length teid app enc16 enc32 length Nat.leb].
  unfold at_. cbn [nth_error bind].
  destruct (_ && _) eqn:Hf; [reflexivity|]. exfalso. revert Hf. rewrite flags_cases.
  cbn [extension_headers sequence_number npdu_number].
  destruct e, s, n; vm_compute; discriminate.
Qed.
Print Assumptions C01_zero_length_refused.

(* ----- C02: optional fields follow the flags ---------------------------------- *)
(* Full statement, false in general: *)
Definition follows_flags (b0 : N) (h : Gtpv1Header) : Prop :=
  is_some (sequence_number h) = flag_S b0 /\
  is_some (npdu_number h) = flag_PN b0 /\
  is_some (extension_headers h) = flag_E b0.

Theorem C02_optional_fields_follow_flags_refuted : exists b b0 h,
  bytes b /\ nth_error b 0 = Some b0 /\
  (forall m, hdr_unmarshal m b = Ok h) /\ ~ follows_flags b0 h /\ flag_S b0 = false /\ flag_E b0 = false.
Proof.
  exists [49; 255; 0; 4; 0; 0; 0; 1; 0; 0; 9; 0], 49, (mkHdr 255 4 1 (Some 0) (Some 9) (Some [])).
  split; [repeat constructor|]. split; [reflexivity|]. split; [intros []; vm_compute; reflexivity|].
  split; [|split; reflexivity]. intros (A & _). vm_compute in A. discriminate.
Qed.
Print Assumptions C02_optional_fields_follow_flags_refuted.

Lemma follows_flags_pos m b b0 h : bytes b -> nth_error b 0 = Some b0 ->
  flag_S b0 = true \/ (flag_PN b0 = false /\ flag_E b0 = false) ->
  hdr_unmarshal m b = Ok h -> follows_flags b0 h.
Proof.
  intros Hb H0 Hc H. destruct (hdr_inv _ _ _ H) as (b0' & l1 & l2 & t1 & t2 & t3 & t4 & r & E & _ & _ & _ & _ & _ & F).
  assert (b0' = b0) by (rewrite E in H0; injection H0; auto). subst b0'.
  rewrite hdr_flags_eq in F by (eapply nth_error_bytes; eauto).
  unfold has_optional in F. unfold follows_flags. clear H E.
  assert (Ho : forall mt len td np ext, hdr_optional m b mt len td np ext = Ok h ->
     is_some (sequence_number h) = true /\ is_some (npdu_number h) = np /\ is_some (extension_headers h) = ext).
  { clear. intros mt len td np ext Ho. unfold hdr_optional in Ho. apply bind_ok in Ho as (o & _ & Ho).
    destruct (4 <=? length o)%nat; [|discriminate].
    apply bind_ok in Ho as (? & _ & Ho). apply bind_ok in Ho as (? & _ & Ho). apply bind_ok in Ho as (n & Hn & Ho).
    assert (is_some n = np) by (destruct np; [apply bind_ok in Hn as (? & _ & [= <-])|injection Hn as <-]; reflexivity).
    destruct ext; [apply bind_ok in Ho as (? & _ & Ho); apply bind_ok in Ho as (? & _ & Ho)|];
      injection Ho as <-; auto. }
  destruct (flag_S b0); cbn [orb] in F.
  - apply Ho in F. exact F.
  - destruct Hc as [Hc|[Hc1 Hc2]]; [discriminate|]. rewrite Hc1, Hc2 in *. cbn [orb] in F. injection F as <-. auto.
Qed.

(* Proved part: S set, or no flag set at all. Missing: PN or E without S (false, above). *)
Theorem C02_optional_fields_follow_flags_partial : forall m b b0 h,
  bytes b -> nth_error b 0 = Some b0 ->
  flag_S b0 = true \/ (flag_PN b0 = false /\ flag_E b0 = false) ->
  hdr_unmarshal m b = Ok h -> follows_flags b0 h.
Proof. exact follows_flags_pos. Qed.
Print Assumptions C02_optional_fields_follow_flags_partial.

Example C02_nonvacuous : exists b h, bytes b /\ nth_error b 0 = Some 51 /\
  hdr_unmarshal Debug b = Ok h /\ flag_S 51 = true /\ npdu_number h = Some 9.
Proof.
  exists [51; 255; 0; 4; 0; 0; 0; 1; 2; 3; 9; 0]. eexists.
  split; [repeat constructor|]. split; [reflexivity|]. split; [vm_compute; reflexivity|]. split; reflexivity.
Qed.

(* ----- C03: header size --------------------------------------------------------- *)
Theorem C03_header_size_is_octets_written : forall m h, wf_header h ->
  get_header_size m h = Ok (length (hdr_marshal h)).
Proof. exact header_size_marshal. Qed.
Print Assumptions C03_header_size_is_octets_written.

(* and for every header that was decoded from arbitrary octets, the size never points
   outside the packet *)
Theorem C03_decoded_header_size_inside_packet : forall m b h, hdr_unmarshal m b = Ok h ->
  exists n, get_header_size m h = Ok n /\ (8 <= n <= length b)%nat.
Proof. exact header_size_decoded. Qed.
Print Assumptions C03_decoded_header_size_inside_packet.

Theorem C03_decoded_header_size_is_octets_read : forall m h payload,
  wf_header h -> h_length h <> 0 ->
  exists h', hdr_unmarshal m (hdr_marshal h ++ payload) = Ok h' /\
    get_header_size m h' = Ok (length (hdr_marshal h)).
Proof.
  intros m h p Hw Hn. exists (received_header h).
  rewrite hdr_unmarshal_marshal, header_size_received by assumption. auto.
Qed.
Print Assumptions C03_decoded_header_size_is_octets_read.

Example C03_nonvacuous : get_header_size Debug (mkHdr 255 9 1 (Some 1) None (Some [EH_Sci (mkNumExt 32 1 5)])) = Ok 16%nat.
Proof. reflexivity. Qed.

(* ----- C04: G-PDU payload -------------------------------------------------------- *)
Theorem C04_gpdu_payload_roundtrip : forall m h payload rest,
  wf_header h -> faithful_combination h -> msgtype h = 255 ->
  0 < nlen (hdr_marshal h ++ payload) - 8 <= 65527 ->
  Gpdu_unmarshal m (Gpdu_marshal (mkGpdu h payload) [] ++ rest)
  = Ok (mkGpdu (with_length h (nlen (hdr_marshal h ++ payload) - 8)) payload).
Proof.
  intros m h p r Hw Hf Ht HL. rewrite gpdu_roundtrip by assumption.
  rewrite received_faithful by assumption. reflexivity.
Qed.
Print Assumptions C04_gpdu_payload_roundtrip.

(* For every combination of optional fields the payload and the TEID are intact. *)
Theorem C04_gpdu_payload_and_teid_any_header : forall m h payload rest,
  wf_header h -> msgtype h = 255 ->
  0 < nlen (hdr_marshal h ++ payload) - 8 <= 65527 ->
  exists g, Gpdu_unmarshal m (Gpdu_marshal (mkGpdu h payload) [] ++ rest) = Ok g /\
    gp_tpdu g = payload /\ teid (gp_header g) = teid h.
Proof.
  intros m h p r Hw Ht HL. eexists. rewrite gpdu_roundtrip by assumption. split; [reflexivity|].
  cbn [gp_tpdu gp_header]. split; [reflexivity|]. destruct h as [mt len td [s|] [n|] [e|]]; reflexivity.
Qed.
Print Assumptions C04_gpdu_payload_and_teid_any_header.

Theorem C04_gpdu_trailing_octets_ignored : forall m b rest g,
  Gpdu_unmarshal m b = Ok g -> Gpdu_unmarshal m (b ++ rest) = Ok g.
Proof. exact gpdu_app. Qed.
Print Assumptions C04_gpdu_trailing_octets_ignored.

(* Whatever was received: the packet was complete and the payload is a contiguous part of
   it that ends at the declared length. *)
Theorem C04_gpdu_payload_is_inside_packet : forall m b g, bytes b -> Gpdu_unmarshal m b = Ok g ->
  h_length (gp_header g) <= 65527 /\ h_length (gp_header g) + 8 <= nlen b /\
  exists hs, get_header_size m (gp_header g) = Ok hs /\
    gp_tpdu g = firstn (N.to_nat (h_length (gp_header g)) + 8 - hs) (skipn hs b).
Proof. exact gpdu_decoded. Qed.
Print Assumptions C04_gpdu_payload_is_inside_packet.

Example C04_nonvacuous :
  Gpdu_unmarshal Release (Gpdu_marshal (mkGpdu (mkHdr 255 0 7 None None None) [69; 0; 0; 1]) [] ++ [9; 9])
  = Ok (mkGpdu (mkHdr 255 4 7 None None None) [69; 0; 0; 1]).
Proof. reflexivity. Qed.

(* The limit is 65527 octets, not 65535, and the empty G-PDU is refused: *)
Theorem C04_empty_gpdu_refuted : exists h, wf_header h /\ faithful_combination h /\ msgtype h = 255 /\
  forall m rest, Gpdu_unmarshal m (Gpdu_marshal (mkGpdu h []) [] ++ rest) = Err HeaderInvalidLength.
Proof.
  exists (mkHdr 255 8 7 None None None). split; [|split; [right; auto|split; [reflexivity|intros; reflexivity]]].
  split; [reflexivity|]. split; [reflexivity|]. split; [discriminate|]. intros l; discriminate.
Qed.
Print Assumptions C04_empty_gpdu_refuted.

(* ----- C05: signalling messages ---------------------------------------------------- *)
Lemma set_nth_length b i v : length (set_nth b i v) = length b.
Proof. revert i; induction b as [|x b IH]; intros [|i]; cbn; auto. Qed.
Lemma set_length_length b : length (set_length b) = length b.
Proof. unfold set_length. rewrite !set_nth_length. reflexivity. Qed.
Lemma sendable_set_length mt h b : sendable mt h (set_length b) -> sendable mt h b.
Proof. unfold sendable, nlen. rewrite set_length_length. auto. Qed.

Theorem C05_echo_request_roundtrip : forall m x,
  sendable 1 (sm_header x) (Simple_marshal x []) -> 0 < h_length (sm_header x) ->
  wf_opt wf_pe (sm_private_ext x) ->
  EchoRequest_unmarshal m (Simple_marshal x []) = Ok x.
Proof. intros m [h p] H. apply simple_roundtrip. apply sendable_set_length in H. exact H. Qed.
Print Assumptions C05_echo_request_roundtrip.

Theorem C05_end_marker_roundtrip : forall m x,
  sendable 254 (sm_header x) (Simple_marshal x []) -> 0 < h_length (sm_header x) ->
  wf_opt wf_pe (sm_private_ext x) ->
  EndMarker_unmarshal m (Simple_marshal x []) = Ok x.
Proof. intros m [h p] H. apply simple_roundtrip. apply sendable_set_length in H. exact H. Qed.
Print Assumptions C05_end_marker_roundtrip.

Theorem C05_echo_response_roundtrip : forall m x,
  sendable 2 (er_header x) (EchoResponse_marshal x []) ->
  wf_rec (er_recovery x) -> wf_opt wf_pe (er_private_ext x) ->
  EchoResponse_unmarshal m (EchoResponse_marshal x []) = Ok x.
Proof. intros m [h r p] H. apply echoresp_roundtrip. apply sendable_set_length in H. exact H. Qed.
Print Assumptions C05_echo_response_roundtrip.

Theorem C05_error_indication_roundtrip : forall m x,
  sendable 26 (ei_header x) (ErrorIndication_marshal x []) -> h_length (ei_header x) <= 65527 ->
  wf_teid (ei_teid x) -> wf_gsn (ei_peer x) -> wf_opt wf_pe (ei_private x) ->
  ErrorIndication_unmarshal m (ErrorIndication_marshal x []) = Ok x.
Proof. intros m [h t g p] H. apply errind_roundtrip. apply sendable_set_length in H. exact H. Qed.
Print Assumptions C05_error_indication_roundtrip.

Theorem C05_supported_ext_headers_roundtrip : forall m x,
  sendable 31 (sn_header x) (SupExtNotif_marshal x []) -> h_length (sn_header x) <= 65527 ->
  wf_ehtl (sn_list x) ->
  SupExtNotif_unmarshal m (SupExtNotif_marshal x []) = Ok x.
Proof. intros m [h l] H. apply supext_roundtrip. apply sendable_set_length in H. exact H. Qed.
Print Assumptions C05_supported_ext_headers_roundtrip.

Example C05_nonvacuous :
  let x := mkErrInd (mkHdr 26 26 0 (Some 5) None None) (mkTeid 16 99) (mkGsn 133 4 (V4 10 0 0 1))
             (Some (mkPe 255 7 4 [1; 2; 3; 4; 5])) in
  sendable 26 (ei_header x) (ErrorIndication_marshal x []) /\
  wf_teid (ei_teid x) /\ wf_gsn (ei_peer x) /\ wf_opt wf_pe (ei_private x).
Proof.
  cbn zeta. split; [|repeat split; vm_compute; congruence || auto; discriminate].
  split; [|split; [left; discriminate|split; reflexivity]].
  split; [reflexivity|]. split; [reflexivity|]. split; [intros s [= <-]; reflexivity|]. intros l; discriminate.
Qed.

(* An Echo Request or End Marker without optional parts does not decode: *)
Theorem C05_minimal_echo_request_refuted : exists x, sm_private_ext x = None /\
  wf_header (sm_header x) /\ faithful_combination (sm_header x) /\
  forall m, EchoRequest_unmarshal m (Simple_marshal x []) = Err HeaderInvalidLength /\
            EndMarker_unmarshal m (Simple_marshal x []) = Err HeaderInvalidLength.
Proof.
  exists (mkSimple (mkHdr 1 8 0 None None None) None). split; [reflexivity|].
  split; [|split; [right; auto|intros; split; reflexivity]].
  split; [reflexivity|]. split; [reflexivity|]. split; [discriminate|]. intros l; discriminate.
Qed.
Print Assumptions C05_minimal_echo_request_refuted.

(* ----- C06: length field ------------------------------------------------------------- *)
(* Octets 3-4 of a GTP-U message hold n. *)
Definition length_field_is (b : list N) (n : N) : Prop :=
  exists a c x y r, b = a :: c :: x :: y :: r /\ x < 256 /\ y < 256 /\ x * 256 + y = n.

Lemma set_length_field h p :
  length_field_is (set_length (hdr_marshal h ++ p)) ((nlen (set_length (hdr_marshal h ++ p)) - 8) mod 65536).
Proof.
  assert (nlen (set_length (hdr_marshal h ++ p)) = nlen (hdr_marshal h ++ p)) as ->
    by (unfold nlen; rewrite set_length_length; reflexivity).
  rewrite set_length_hdr. generalize ((nlen (hdr_marshal h ++ p) - 8)); intros n.
  destruct h as [mt len td s k e]. unfold hdr_marshal, with_length. cbn [msgtype h_length enc16 app].
  exists (construct_flags (mkHdr mt (n mod 65536) td s k e)), mt,
    ((n mod 65536 / 256) mod 256), ((n mod 65536) mod 256). eexists. split; [reflexivity|]. lia.
Qed.

Theorem C06_gtpu_length_field : forall (h : Gtpv1Header),
  (forall p, length_field_is (Gpdu_marshal (mkGpdu h p) []) ((nlen (Gpdu_marshal (mkGpdu h p) []) - 8) mod 65536)) /\
  (forall p, length_field_is (Simple_marshal (mkSimple h p) []) ((nlen (Simple_marshal (mkSimple h p) []) - 8) mod 65536)) /\
  (forall r p, length_field_is (EchoResponse_marshal (mkEchoResp h r p) [])
     ((nlen (EchoResponse_marshal (mkEchoResp h r p) []) - 8) mod 65536)) /\
  (forall t g p, length_field_is (ErrorIndication_marshal (mkErrInd h t g p) [])
     ((nlen (ErrorIndication_marshal (mkErrInd h t g p) []) - 8) mod 65536)) /\
  (forall l, length_field_is (SupExtNotif_marshal (mkSup h l) [])
     ((nlen (SupExtNotif_marshal (mkSup h l) []) - 8) mod 65536)).
Proof. intros h. repeat split; intros; apply set_length_field. Qed.
Print Assumptions C06_gtpu_length_field.

Theorem C06_gtpu_length_field_exact : forall h p, nlen (Gpdu_marshal (mkGpdu h p) []) <= 65543 ->
  length_field_is (Gpdu_marshal (mkGpdu h p) []) (nlen (Gpdu_marshal (mkGpdu h p) []) - 8).
Proof.
  intros h p H. rewrite <- (N.mod_small (nlen _ - 8) 65536) by lia. apply set_length_field.
Qed.
Print Assumptions C06_gtpu_length_field_exact.

(* Oversized payloads are not refused: the field wraps. *)
Theorem C06_oversize_wraps : forall h p, nlen (hdr_marshal h ++ p) = 65536 + 8 ->
  length_field_is (Gpdu_marshal (mkGpdu h p) []) 0.
Proof.
  intros h p H. pose proof (set_length_field h p) as Hf.
  assert (E : nlen (set_length (hdr_marshal h ++ p)) = 65536 + 8) by (unfold nlen in *; rewrite set_length_length; exact H).
  rewrite E in Hf. exact Hf.
Qed.
Print Assumptions C06_oversize_wraps.

(* ----- C07: message type ---------------------------------------------------------------- *)
Theorem C07_gtpu_type_checked : forall m b,
  (forall x, EchoRequest_unmarshal m b = Ok x -> nth_error b 1 = Some 1) /\
  (forall x, EchoResponse_unmarshal m b = Ok x -> nth_error b 1 = Some 2) /\
  (forall x, ErrorIndication_unmarshal m b = Ok x -> nth_error b 1 = Some 26) /\
  (forall x, SupExtNotif_unmarshal m b = Ok x -> nth_error b 1 = Some 31) /\
  (forall x, EndMarker_unmarshal m b = Ok x -> nth_error b 1 = Some 254) /\
  (forall x, Gpdu_unmarshal m b = Ok x -> nth_error b 1 = Some 255).
Proof. intros m b. repeat split; intros x H; eapply type_octet; exact H. Qed.
Print Assumptions C07_gtpu_type_checked.

Theorem C07_gtpu_wrong_type_error : forall m b h, hdr_unmarshal m b = Ok h ->
  (msgtype h <> 1 -> EchoRequest_unmarshal m b = Err MessageIncorrectMessageType) /\
  (msgtype h <> 2 -> EchoResponse_unmarshal m b = Err MessageIncorrectMessageType) /\
  (msgtype h <> 26 -> ErrorIndication_unmarshal m b = Err MessageIncorrectMessageType) /\
  (msgtype h <> 31 -> SupExtNotif_unmarshal m b = Err MessageIncorrectMessageType) /\
  (msgtype h <> 254 -> EndMarker_unmarshal m b = Err MessageIncorrectMessageType) /\
  (msgtype h <> 255 -> Gpdu_unmarshal m b = Err MessageIncorrectMessageType).
Proof. intros m b h Hh. repeat split; intros Ht; eapply wrong_type_errors; eauto. Qed.
Print Assumptions C07_gtpu_wrong_type_error.

Example C07_nonvacuous : let b := Simple_marshal (mkSimple (mkHdr 1 4 0 (Some 7) None None) None) [] in
  EchoRequest_unmarshal Debug b = Ok (mkSimple (mkHdr 1 4 0 (Some 7) None None) None) /\
  EndMarker_unmarshal Debug b = Err MessageIncorrectMessageType.
Proof. split; reflexivity. Qed.

(* ----- C08: no crash ------------------------------------------------------------------------ *)
(* False. A 12-octet packet whose extension header is cut short crashes every decoder: *)
Theorem C08_truncated_extension_header_refuted : exists b, bytes b /\ length b = 12%nat /\
  forall m, Gpdu_unmarshal m b = Panic /\ EchoRequest_unmarshal m b = Panic /\
            ErrorIndication_unmarshal m b = Panic /\ hdr_unmarshal m b = Panic.
Proof.
  exists [52; 255; 0; 4; 0; 0; 0; 1; 0; 0; 0; 133]. split; [repeat constructor|]. split; [reflexivity|].
  intros []; repeat split; vm_compute; reflexivity.
Qed.
Print Assumptions C08_truncated_extension_header_refuted.

(* A G-PDU whose declared length ends inside its own header crashes: *)
Theorem C08_gpdu_short_length_refuted : exists b, bytes b /\ length b = 12%nat /\
  forall m, Gpdu_unmarshal m b = Panic.
Proof.
  exists [50; 255; 0; 1; 0; 0; 0; 1; 0; 0; 0; 0]. split; [repeat constructor|]. split; [reflexivity|].
  intros []; vm_compute; reflexivity.
Qed.
Print Assumptions C08_gpdu_short_length_refuted.

(* A declared length of 65528 or more crashes G-PDU decoding, in both modes: *)
Theorem C08_gpdu_huge_length_refuted : forall m a b c d r, bytes (a :: b :: c :: d :: r) ->
  Gpdu_unmarshal m (48 :: 255 :: 255 :: 255 :: a :: b :: c :: d :: r) = Panic.
Proof. intros [] a b c d r Hb; [reflexivity|]. unfold Gpdu_unmarshal. cbn. reflexivity. Qed.
Print Assumptions C08_gpdu_huge_length_refuted.

(* Length octet 64 in an extension header: panic in debug builds. *)
Theorem C08_extension_length_overflow_refuted : exists b, bytes b /\
  Gpdu_unmarshal Debug b = Panic /\ Gpdu_unmarshal Release b = Panic.
Proof.
  exists [52; 255; 0; 8; 0; 0; 0; 1; 0; 0; 0; 133; 64; 1; 2; 0]. split; [repeat constructor|].
  split; vm_compute; reflexivity.
Qed.
Print Assumptions C08_extension_length_overflow_refuted.

(* A private extension of declared length 1 at the end of the packet: *)
Theorem C08_private_extension_refuted : exists b, bytes b /\
  forall m, EchoRequest_unmarshal m b = Panic /\ EndMarker_unmarshal m (set_nth b 1 254) = Panic.
Proof.
  exists [48; 1; 0; 4; 0; 0; 0; 0; 255; 0; 1; 7]. split; [repeat constructor|].
  intros []; split; vm_compute; reflexivity.
Qed.
Print Assumptions C08_private_extension_refuted.

(* What holds. Header: only a malformed extension header chain can crash it. *)
Theorem C08_header_crash_free_partial : forall m b, bytes b ->
  (forall b0, nth_error b 0 = Some b0 -> walks_extensions b0 = true -> (12 <= length b)%nat ->
     ext_chain (skipn 11 b)) ->
  returns (hdr_unmarshal m b).
Proof. exact hdr_returns. Qed.
Print Assumptions C08_header_crash_free_partial.

(* G-PDU: exact condition once the header decoded. *)
Theorem C08_gpdu_crash_free_iff_partial : forall m b h hs, bytes b ->
  hdr_unmarshal m b = Ok h -> msgtype h = 255 -> get_header_size m h = Ok hs ->
  (returns (Gpdu_unmarshal m b) <->
   (h_length h <= 65527 /\ (N.of_nat hs <= h_length h + 8 \/ nlen b < h_length h + 8))).
Proof. exact gpdu_returns_iff. Qed.
Print Assumptions C08_gpdu_crash_free_iff_partial.

Theorem C08_echo_request_end_marker_crash_free_partial : forall m b, bytes b ->
  returns (hdr_unmarshal m b) ->
  (forall h hs, hdr_unmarshal m b = Ok h -> get_header_size m h = Ok hs -> pe_harmless (skipn hs b)) ->
  returns (EchoRequest_unmarshal m b) /\ returns (EndMarker_unmarshal m b).
Proof. intros. split; apply simple_returns; assumption. Qed.
Print Assumptions C08_echo_request_end_marker_crash_free_partial.

Theorem C08_echo_response_crash_free_partial : forall m b, bytes b ->
  returns (hdr_unmarshal m b) ->
  (forall h hs, hdr_unmarshal m b = Ok h -> get_header_size m h = Ok hs -> pe_harmless (skipn (hs + 2) b)) ->
  returns (EchoResponse_unmarshal m b).
Proof. exact echoresp_returns. Qed.
Print Assumptions C08_echo_response_crash_free_partial.

Theorem C08_supported_ext_headers_crash_free_partial : forall m b, bytes b ->
  returns (hdr_unmarshal m b) ->
  (forall h hs, hdr_unmarshal m b = Ok h -> get_header_size m h = Ok hs ->
     h_length h <= 65527 /\ (forall l, nth_error b (hs + 1) = Some l -> l <= 253) /\ length b <> (hs + 1)%nat) ->
  returns (SupExtNotif_unmarshal m b).
Proof. exact supext_returns. Qed.
Print Assumptions C08_supported_ext_headers_crash_free_partial.

Theorem C08_error_indication_crash_free_partial : forall m b, bytes b -> (length b < 1020)%nat ->
  (forall i, pe_harmless (skipn i b)) ->
  returns (hdr_unmarshal m b) -> (forall h, hdr_unmarshal m b = Ok h -> h_length h <= 65527) ->
  returns (ErrorIndication_unmarshal m b).
Proof. exact errind_returns. Qed.
Print Assumptions C08_error_indication_crash_free_partial.

(* Many duplicated TEID elements overflow the duplicate counter (1288 octets are enough). *)
Theorem C08_duplicate_counter_refuted : exists b, bytes b /\ ErrorIndication_unmarshal Debug b = Panic.
Proof.
  exists ([48; 26; 5; 0; 0; 0; 0; 0] ++ concat (repeat [16; 0; 0; 0; 1] 256)). split.
  - unfold bytes. apply Forall_forall. intros x Hx. apply in_app_or in Hx as [Hx|Hx].
    + cbn in Hx. unfold byte. decompose [or] Hx; subst; try lia; contradiction.
    + apply in_concat in Hx as (l & Hl & Hx). apply repeat_spec in Hl. subst l. cbn in Hx.
      unfold byte. decompose [or] Hx; subst; try lia; contradiction.
  - vm_compute. reflexivity.
Qed.
Print Assumptions C08_duplicate_counter_refuted.

Example C08_nonvacuous : let b := [52; 255; 0; 9; 0; 0; 0; 1; 0; 0; 0; 133; 1; 2; 3; 0; 77] in
  bytes b /\ walks_extensions 52 = true /\ ext_chain (skipn 11 b) /\ returns (Gpdu_unmarshal Debug b).
Proof.
  cbn zeta. split; [repeat constructor|]. split; [reflexivity|]. split; [|vm_compute; exact I].
  cbn [skipn]. apply (chain_more 133 1 [2; 3] [0; 77]); [discriminate|lia|reflexivity|constructor].
Qed.

(* ----- C09: termination ----------------------------------------------------------------------- *)
(* Debug: for every input the walk ends, and it succeeds exactly on well-formed chains. *)
Theorem C09_ext_walk_terminates_debug_partial : forall b, unmarshal_ext_hdr Debug b <> Diverge.
Proof. intros b. apply ext_loop_debug_terminates; lia. Qed.
Print Assumptions C09_ext_walk_terminates_debug_partial.

Theorem C09_ext_walk_succeeds_iff_chain : forall b,
  (exists l, unmarshal_ext_hdr Debug b = Ok l) <-> ext_chain b.
Proof. exact unmarshal_ext_debug_iff. Qed.
Print Assumptions C09_ext_walk_succeeds_iff_chain.

Theorem C09_ext_walk_succeeds_on_chain : forall m b, ext_chain b -> exists l, unmarshal_ext_hdr m b = Ok l.
Proof. exact unmarshal_ext_chain. Qed.
Print Assumptions C09_ext_walk_succeeds_on_chain.

(* Each decoded header accounts for at least four octets (debug). *)
Theorem C09_ext_step_at_least_four : forall b e n, ext_unmarshal Debug b = Ok e ->
  e <> NoMoreExtensionHeaders -> ext_len Debug e = Ok n -> (4 <= n <= length b)%nat.
Proof.
  intros b e n H He Hn. destruct (ext_step_inv _ _ _ H) as [(r & _ & ->)|(t & l & v & s & E & A & B & C & D & F & G)];
    [contradiction|]. apply mul8_debug in C as [-> C]. rewrite G in Hn. injection Hn as <-. split; lia.
Qed.
Print Assumptions C09_ext_step_at_least_four.

Theorem C09_error_indication_terminates_debug_partial : forall b fuel s,
  (0 < fuel)%nat -> (length b < fuel + ei_cursor s)%nat -> ei_loop Debug fuel b s <> Diverge.
Proof. exact ei_loop_debug_terminates. Qed.
Print Assumptions C09_error_indication_terminates_debug_partial.

(* Release: false. No number of iterations is enough, so the real loop never ends. *)
Theorem C09_ext_walk_release_refuted : exists b, bytes b /\
  forall iterations data, ext_loop Release iterations b 0 data = Diverge.
Proof. exists endless_ext. split; [repeat constructor|]. exact ext_loop_endless. Qed.
Print Assumptions C09_ext_walk_release_refuted.

Theorem C09_error_indication_release_refuted : exists b, bytes b /\
  forall iterations, ei_loop Release iterations b (mkEi 0 0 None None None teid_default gsn_default None) = Diverge.
Proof. exists endless_ei. split; [repeat constructor|]. intros. apply ei_loop_endless. lia. Qed.
Print Assumptions C09_error_indication_release_refuted.

Example C09_nonvacuous : unmarshal_ext_hdr Debug [192; 1; 0; 5; 0] = Ok [EH_PDCPPDUNumber (mkNumExt 192 1 5)].
Proof. reflexivity. Qed.

(* ----- C15: encoding into a buffer that already holds octets ------------------------------------- *)
(* Full statement: marshal x pre = pre ++ marshal x []. False: the length is written to
   octets 3-4 of the whole buffer. *)
Theorem C15_gtpu_marshal_appends_refuted : exists pre h payload,
  wf_header h /\ Gpdu_marshal (mkGpdu h payload) pre <> pre ++ Gpdu_marshal (mkGpdu h payload) [].
Proof.
  exists [1; 2; 3; 4], (mkHdr 255 2 7 None None None), [8; 9]. split; [|vm_compute; discriminate].
  split; [reflexivity|]. split; [reflexivity|]. split; [discriminate|]. intros l; discriminate.
Qed.
Print Assumptions C15_gtpu_marshal_appends_refuted.

(* What holds: everything except the two length octets is as expected. *)
Theorem C15_gtpu_marshal_appends_partial : forall pre h payload i, i <> 2%nat -> i <> 3%nat ->
  i <> (length pre + 2)%nat -> i <> (length pre + 3)%nat ->
  nth_error (Gpdu_marshal (mkGpdu h payload) pre) i = nth_error (pre ++ Gpdu_marshal (mkGpdu h payload) []) i.
Proof.
  assert (Hs : forall b j v i, i <> j -> nth_error (set_nth b j v) i = nth_error b i).
  { induction b as [|x b IH]; intros j v i Hij; [destruct j; reflexivity|].
    destruct j, i; cbn [set_nth nth_error]; try reflexivity; try contradiction. apply IH. congruence. }
  intros pre h p i A B C D. unfold Gpdu_marshal. cbn [gp_header gp_tpdu]. unfold set_length at 1.
  rewrite !Hs by congruence. cbn [app].
  destruct (Nat.ltb_spec i (length pre)) as [Hlt|Hge].
  - rewrite !nth_error_app1 by assumption. reflexivity.
  - rewrite (nth_error_app2 pre (hdr_marshal h ++ p)), (nth_error_app2 pre (set_length _)) by assumption. unfold set_length. rewrite !Hs by lia. reflexivity.
Qed.
Print Assumptions C15_gtpu_marshal_appends_partial.
