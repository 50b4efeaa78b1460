(* PropsV1CRead.v - what received GTPv1-C octets mean and what becomes of them: C60 (reading), C61
   (forwarding), C62 (errors), C63 (debug and release builds, GTP-U and GTPv1-C). The meaning of the octets is stated in V1CReadSpec.v
   (elements) and V1CMsgReadSpec.v (header and messages), with arithmetic only; V1CForwardSpec.v says
   what can be sent again, V1CErrSpec.v which error is reported. [m] ranges over the two overflow-check modes. *)
From Verif Require Import BaseFacts V1U V1CMsgSpec V1CMsgReadSpec V1CForwardSpec V1CReadFacts V1CMsgReadFacts V1CForward V1CErrSpec V1CErr ModeFacts V1ModeFacts.
From Coq Require Import Sorted.
Local Open Scope N_scope.
Notation length := List.length.

(* ----- C60: octets mean what the specification says ------------------------------------------ *)
(* An element decoder returns [i] exactly when the octets say [i]. In release builds this is for
   lengths up to 65532; above that the bound on the buffer wraps around. *)
Theorem C60_element_reading : forall m i s, bytes s -> (m = Debug \/ declared s <= 65532) ->
  (ie1_unmarshal (kind1_of i) m s = Ok i <-> says1 i s).
Proof. exact says1_iff. Qed.
Print Assumptions C60_element_reading.
(* a time zone element and an octet after it *)
Example C60_element_case : says1 (I1_Tz (mkTlv 153 2 (mkTz 25 1))) [153; 0; 2; 25; 1; 7] /\
  bytes [153; 0; 2; 25; 1; 7].
Proof. split; [apply (says1_iff Debug); [|left; reflexivity|vm_compute; reflexivity]|]; repeat constructor. Qed.
(* the decoder of a kind returns elements of this kind, so nothing else is ever returned *)
Theorem C60_element_kind : forall m k s i, ie1_unmarshal k m s = Ok i -> kind1_of i = k.
Proof. intros m k s i H. exact (kind1_unmarshal k m s i H). Qed.
Print Assumptions C60_element_kind.

(* The header, and where the elements begin. *)
Theorem C60_header_reading : forall b h p, chdr_unmarshal Debug b = Ok h /\ chdr_len Debug h = Ok p <-> header_says b h p.
Proof. exact header_says_iff. Qed.
Print Assumptions C60_header_reading.
Example C60_header_case : header_says [52; 20; 0; 14; 0; 0; 0; 7; 0; 0; 0; 192; 1; 1; 2; 77; 2; 3; 4; 5; 6; 7; 8; 0; 20; 5]
  (mkCHdr 20 14 7 None None (Some [CX_PDCPPDUNumber (mkNumExt 192 1 258); CX_Unknown (mkBlobExt 77 2 [3; 4; 5; 6; 7; 8])])) 24.
Proof. apply header_says_iff. split; vm_compute; reflexivity. Qed.

(* The elements after the header: reading with the decoders is reading by the specification. *)
Theorem C60_elements_reading : forall b p l, bytes b -> (reads Debug b p l <-> holds b p l).
Proof. exact reads_holds. Qed.
Print Assumptions C60_elements_reading.

(* The sixteen messages made of elements. *)
Theorem C60_message_reading : forall code L T b x, In (code, L, T) messages1 -> bytes b ->
  (msg1_unmarshal T Debug b = Ok x <-> message_says code L b x).
Proof. intros code L T b x HI Hb. exact (message_says_iff code L T HI b x Hb). Qed.
Print Assumptions C60_message_reading.
(* and any build reads what the specification says *)
Theorem C60_message_reading_any_build : forall code L T m b x, In (code, L, T) messages1 -> bytes b ->
  message_says code L b x -> msg1_unmarshal T m b = Ok x.
Proof.
  intros code L T m b x HI Hb H. apply (refines_ok _ _ _ (msg1_same T m b)). apply (message_says_iff code L T HI b x Hb). exact H.
Qed.
Print Assumptions C60_message_reading_any_build.
Definition delete_octets : list N := [50; 20; 0; 23; 0; 0; 0; 7; 0; 9; 0; 0; 19; 255; 20; 5; 132; 0; 2; 128; 33; 153; 0; 2; 25; 1; 255; 0; 3; 0; 10; 66].
Definition delete_message : Msg1 := mkMsg1 (mkCHdr 20 23 7 (Some 9) None None)
  [None; Some (I1_Teardown (mkTv 19 true)); Some (I1_Nsapi (mkTv 20 5)); Some (I1_Pco (mkTlv 132 2 [128; 33])); None;
   Some (I1_Tz (mkTlv 153 2 (mkTz 25 1))); None; None; Some (I1_Pe (mkTlv 255 3 (mkPeV 10 [66])))].
Example C60_message_case : message_says 20 DeletePDPContextRequest_L delete_octets delete_message /\ bytes delete_octets /\
  In (20, DeletePDPContextRequest_L, DeletePDPContextRequest_T) messages1.
Proof.
  assert (HI : In (20, DeletePDPContextRequest_L, DeletePDPContextRequest_T) messages1) by (cbn; tauto).
  assert (Hb : bytes delete_octets) by (repeat constructor).
  split; [|auto]. apply (message_says_iff 20 _ _ HI _ _ Hb). vm_compute. reflexivity.
Qed.

(* The four messages with a decoder of their own. *)
Theorem C60_version_not_supported : forall b h, bytes b -> (Vns_unmarshal Debug b = Ok h <-> version_not_supported_says b h).
Proof. intros b h Hb. exact (version_not_supported_iff b h). Qed.
Print Assumptions C60_version_not_supported.
Theorem C60_echo_request : forall b x, bytes b -> (CEchoReq_unmarshal Debug b = Ok x <-> echo_request_says b x).
Proof. intros b x Hb. exact (echo_request_iff b x Hb). Qed.
Print Assumptions C60_echo_request.
Theorem C60_echo_response : forall b x, bytes b -> (CEchoResp_unmarshal Debug b = Ok x <-> echo_response_says b x).
Proof. intros b x Hb. exact (echo_response_iff b x Hb). Qed.
Print Assumptions C60_echo_response.
Theorem C60_supported_headers : forall b x, bytes b -> (CSup_unmarshal Debug b = Ok x <-> supported_headers_says b x).
Proof. intros b x Hb. exact (supported_headers_iff b x Hb). Qed.
Print Assumptions C60_supported_headers.
Example C60_four_cases :
  version_not_supported_says [50; 3; 0; 4; 0; 0; 0; 0; 0; 5; 0; 0] (mkCHdr 3 4 0 (Some 5) None None) /\
  echo_request_says [50; 1; 0; 9; 0; 0; 0; 0; 0; 5; 0; 0; 255; 0; 3; 0; 10; 66] (mkCEchoReq (mkCHdr 1 9 0 (Some 5) None None) (Some (mkTlv 255 3 (mkPeV 10 [66])))) /\
  echo_response_says [50; 2; 0; 6; 0; 0; 0; 0; 0; 5; 0; 0; 14; 9] (mkCEchoResp (mkCHdr 2 6 0 (Some 5) None None) (mkTv 14 9) None) /\
  supported_headers_says [50; 31; 0; 8; 0; 0; 0; 0; 0; 5; 0; 0; 141; 2; 192; 193] (mkCSup (mkCHdr 31 8 0 (Some 5) None None) (mkTlv 141 2 [192; 193])).
Proof.
  split; [apply version_not_supported_iff; vm_compute; reflexivity|].
  split; [apply echo_request_iff; [repeat constructor|vm_compute; reflexivity]|].
  split; [apply echo_response_iff; [repeat constructor|vm_compute; reflexivity]|].
  apply supported_headers_iff; [repeat constructor|vm_compute; reflexivity].
Qed.

(* Full statement: the length of an element says where the next one begins (TS 29.060 7.7). False for
   the elements of [fixed_sizes]: a RAT type of two octets (the first is the RAT type) is followed by
   an octet that is taken for an element. *)
Theorem C60_declared_length_refuted : forall m,
  let b x := [48; 128; 0; 4 + nlen x; 0; 0; 0; 7; 151; 0; 1 + nlen x; 1] ++ x in
  (exists y, msg1_unmarshal MSInfoChangeNotificationRequest_T m (b []) = Ok y) /\
  (forall x, x < 151 -> msg1_unmarshal MSInfoChangeNotificationRequest_T m (b [x]) = Err MessageInvalidMessageFormat).
Proof.
  intros m b. split; [destruct m; eexists; vm_compute; reflexivity|].
  intros x Hx. unfold b. cbn [nlen app].
  assert (HH : (fun x => match msg1_unmarshal MSInfoChangeNotificationRequest_T m ([48; 128; 0; 5; 0; 0; 0; 7; 151; 0; 2; 1] ++ [x]) with
     Err MessageInvalidMessageFormat => true | _ => false end) x = true).
  { apply (proj1 (forallb_forall _ _) (ltac:(destruct m; vm_compute; reflexivity) : forallb (fun x => match msg1_unmarshal MSInfoChangeNotificationRequest_T m ([48; 128; 0; 5; 0; 0; 0; 7; 151; 0; 2; 1] ++ [x]) with
     Err MessageInvalidMessageFormat => true | _ => false end) (map N.of_nat (seq 0 151)) = true)).
    apply in_map_iff. exists (N.to_nat x). split; [lia|]. apply in_seq. lia. }
  cbn beta in HH. unfold nlen; cbn [length N.of_nat].
  destruct (msg1_unmarshal _ _ _) as [| [] | |] eqn:E in HH; try discriminate. exact E.
Qed.
Print Assumptions C60_declared_length_refuted.

(* ----- C61: forwarding ------------------------------------------------------------------------ *)
(* Full statement: a received element, sent again, is received with the same value. The part that
   holds: for the elements of [resendable]; the length is then the one of the value. A private extension takes
   the rest of the packet, so nothing may follow it. *)
Theorem C61_element_partial : forall m i s t r, bytes s -> says1 i s -> nth_error s 0 = Some t ->
  code_kind t = Some (kind1_of i) -> resendable i -> (ie1_t i = 255 -> r = []) ->
  ie1_unmarshal (kind1_of i) m (ie1_marshal i ++ r) = Ok (with_true_length i).
Proof. exact forward_element. Qed.
Print Assumptions C61_element_partial.
(* a RAT type with a wrong length and octets that are not part of it *)
Example C61_element_case : let s := [151; 9; 9; 1; 77] in let i := I1_RatType (mkTlv 151 2313 Utran) in
  bytes s /\ says1 i s /\ resendable i /\ with_true_length i = I1_RatType (mkTlv 151 1 Utran) /\ ie1_marshal i = [151; 0; 1; 1].
Proof.
  cbv zeta. assert (Hb : bytes [151; 9; 9; 1; 77]) by (repeat constructor). split; [exact Hb|].
  split; [apply (says1_iff Debug); [exact Hb|left; reflexivity|vm_compute; reflexivity]|]. repeat split.
Qed.
(* The same for messages: also the header's extension headers of a known type must have one unit, and the
   elements must be such that a sent message is accepted (C43). The length field is the true one. *)
Theorem C61_message_partial : forall code L T m b x, In (code, L, T) messages1 -> bytes b ->
  message_says code L b x -> resendable_message x -> nlen (msg1_octets x) <= 65535 ->
  msg1_unmarshal T m (msg1_marshal x []) =
    Ok (mkMsg1 (chdr_with_length (m_header x) (nlen (msg1_octets x) - 8)) (m_fields (with_true_lengths x))).
Proof. exact forward_message. Qed.
Print Assumptions C61_message_partial.
Example C61_message_case : resendable_message delete_message /\ nlen (msg1_octets delete_message) = 32.
Proof.
  split; [|vm_compute; reflexivity]. split; [intros xs H; discriminate|]. split.
  - intros i Hi. repeat destruct Hi as [Hi|Hi]; try discriminate; try contradiction; injection Hi as <-; try exact I. vm_compute. discriminate.
  - split; [|intros H]; vm_compute in *; intuition discriminate.
Qed.
(* Outside [resendable]: an IMSI of five digits is received, and what is sent is refused. *)
Theorem C61_short_number_refuted : exists s i, bytes s /\ says1 i s /\ kind1_of i = K1_Imsi /\
  forall m, ie1_unmarshal K1_Imsi m (ie1_marshal i) = Err IEInvalidLength.
Proof.
  exists [2; 33; 67; 245; 255; 255; 255; 255; 255], (I1_Imsi (mkTv 2 [49; 50; 51; 52; 53])).
  assert (Hb : bytes [2; 33; 67; 245; 255; 255; 255; 255; 255]) by (repeat constructor). split; [exact Hb|].
  split; [apply (says1_iff Debug); [exact Hb|left; reflexivity|vm_compute; reflexivity]|]. split; [reflexivity|]. intros []; reflexivity.
Qed.
Print Assumptions C61_short_number_refuted.
(* An access point name with octets above 127 is received and sent as another name. *)
Theorem C61_name_refuted : exists s i j, bytes s /\ says1 i s /\ kind1_of i = K1_Apn /\
  with_true_length j <> with_true_length i /\ forall m, ie1_unmarshal K1_Apn m (ie1_marshal i) = Ok j.
Proof.
  exists [131; 0; 3; 2; 195; 169], (I1_Apn (mkTlv 131 3 [195; 169])), (I1_Apn (mkTlv 131 5 [195; 131; 194; 169])).
  assert (Hb : bytes [131; 0; 3; 2; 195; 169]) by (repeat constructor). split; [exact Hb|].
  split; [apply (says1_iff Debug); [exact Hb|left; reflexivity|vm_compute; reflexivity]|]. split; [reflexivity|].
  split; [discriminate|]. intros []; reflexivity.
Qed.
Print Assumptions C61_name_refuted.
(* A known extension header of two units is accepted, but only its first four octets are sent. *)
Theorem C61_extension_refuted : exists b x, bytes b /\ message_says 20 DeletePDPContextRequest_L b x /\
  forall m, msg1_unmarshal DeletePDPContextRequest_T m (msg1_marshal x []) = Err ExtHeaderInvalidLength.
Proof.
  exists [52; 20; 0; 14; 0; 0; 0; 7; 0; 0; 0; 192; 2; 1; 2; 3; 4; 5; 6; 0; 20; 5],
    (mkMsg1 (mkCHdr 20 14 7 None None (Some [CX_PDCPPDUNumber (mkNumExt 192 2 258)])) [None; None; Some (I1_Nsapi (mkTv 20 5)); None; None; None; None; None; None]).
  assert (Hb : bytes [52; 20; 0; 14; 0; 0; 0; 7; 0; 0; 0; 192; 2; 1; 2; 3; 4; 5; 6; 0; 20; 5]) by (repeat constructor). split; [exact Hb|].
  split; [apply (message_says_iff 20 DeletePDPContextRequest_L DeletePDPContextRequest_T ltac:(cbn; tauto) _ _ Hb); vm_compute; reflexivity|].
  intros []; vm_compute; reflexivity.
Qed.
Print Assumptions C61_extension_refuted.
(* A charging gateway address after the common flags is accepted, and sent before them. *)
Theorem C61_order_refuted : exists b x, bytes b /\ message_says 17 CreatePDPContextResponse_L b x /\
  forall m, msg1_unmarshal CreatePDPContextResponse_T m (msg1_marshal x []) = Err MessageInvalidMessageFormat.
Proof.
  assert (Hb : bytes [48; 17; 0; 13; 0; 0; 0; 7; 1; 128; 148; 0; 1; 1; 251; 0; 4; 10; 0; 0; 1]) by (repeat constructor).
  pose (x := match msg1_unmarshal CreatePDPContextResponse_T Debug [48; 17; 0; 13; 0; 0; 0; 7; 1; 128; 148; 0; 1; 1; 251; 0; 4; 10; 0; 0; 1] with
             | Ok x => x | _ => mkMsg1 (mkCHdr 0 0 0 None None None) [] end).
  exists [48; 17; 0; 13; 0; 0; 0; 7; 1; 128; 148; 0; 1; 1; 251; 0; 4; 10; 0; 0; 1], x. split; [exact Hb|].
  split; [apply (message_says_iff 17 CreatePDPContextResponse_L CreatePDPContextResponse_T ltac:(cbn; tauto) _ _ Hb); vm_compute; reflexivity|].
  intros []; vm_compute; reflexivity.
Qed.
Print Assumptions C61_order_refuted.

(* ----- C62: reported errors -------------------------------------------------------------------- *)
(* Full statement: the first element that cannot be decoded, after the elements [l], is reported as a
   missing mandatory element or as an incorrect optional one, as the field it would fill is. The part
   that holds: for fields that are not in [other_reports]. *)
Theorem C62_refused_element_partial : forall code L T m b h p l q t k e j f, In (code, L, T) messages1 ->
  chdr_unmarshal m b = Ok h -> c_msgtype h = code -> c_length h <= 65527 -> 8 + c_length h <= nlen b ->
  chdr_len m h = Ok p -> reads_to m b p l q -> nth_error b q = Some t ->
  StronglySorted N.le (map fst l) -> (forall u, In u (map fst l) -> u <= t) ->
  Forall (fun t => In t (map f_code L)) (map fst l) -> (forall u, (length (occ u l) <= 255)%nat) ->
  code_kind t = Some k -> ie1_unmarshal k m (skipn q b) = Err e ->
  nth_error L j = Some f -> f_code f = t -> rank L t j = length (occ t l) ->
  listed code f = None ->
  msg1_unmarshal T m b = Err (right_report f).
Proof.
  intros code L T m b h p l q t k e j f HI Hh E Hl Hb Hp Hr Hq Hs Hle HF Ho Hk He Hj Hc Hrk HN.
  rewrite (refused code L T HI m b h p l q t k e j f Hh E Hl Hb Hp Hr Hq Hs Hle HF Ho Hk He Hj Hc Hrk).
  unfold report. rewrite HN. reflexivity.
Qed.
Print Assumptions C62_refused_element_partial.
(* The same situation for the other fields: what is returned is in the list. *)
Theorem C62_other_reports_refuted : forall code L T m b h p l q t k e j f r, In (code, L, T) messages1 ->
  chdr_unmarshal m b = Ok h -> c_msgtype h = code -> c_length h <= 65527 -> 8 + c_length h <= nlen b ->
  chdr_len m h = Ok p -> reads_to m b p l q -> nth_error b q = Some t ->
  StronglySorted N.le (map fst l) -> (forall u, In u (map fst l) -> u <= t) ->
  Forall (fun t => In t (map f_code L)) (map fst l) -> (forall u, (length (occ u l) <= 255)%nat) ->
  code_kind t = Some k -> ie1_unmarshal k m (skipn q b) = Err e ->
  nth_error L j = Some f -> f_code f = t -> rank L t j = length (occ t l) ->
  listed code f = Some r ->
  msg1_unmarshal T m b = match r with Ok w => Err w | _ => Panic end.
Proof.
  intros code L T m b h p l q t k e j f r HI Hh E Hl Hb Hp Hr Hq Hs Hle HF Ho Hk He Hj Hc Hrk HN.
  rewrite (refused code L T HI m b h p l q t k e j f Hh E Hl Hb Hp Hr Hq Hs Hle HF Ho Hk He Hj Hc Hrk).
  unfold report. rewrite HN. destruct r as [w|w| |] eqn:Er; try reflexivity; exfalso;
    unfold listed in HN; destruct (find _ _) as [x|] eqn:Ef; try discriminate; apply find_some in Ef as [Hin _];
    cbn [option_map] in HN; injection HN as HN; cbn [In other_reports] in Hin;
    repeat destruct Hin as [Hin|Hin]; try contradiction; subst x; discriminate.
Qed.
Print Assumptions C62_other_reports_refuted.
(* Witnesses: a teardown indicator that is neither 254 nor 255 is an incorrect optional element; an NSAPI cut off
   is a missing mandatory one; a cause that is cut off is reported as optional where it is mandatory; a GSN
   address of five octets makes the decoder of an update request panic. *)
Example C62_cases : forall m,
  msg1_unmarshal DeletePDPContextRequest_T m [48; 20; 0; 4; 0; 0; 0; 7; 19; 7; 20; 5] = Err MessageOptionalIEIncorrect /\
  msg1_unmarshal DeletePDPContextRequest_T m [48; 20; 0; 3; 0; 0; 0; 7; 19; 255; 20] = Err MessageMandatoryIEMissing /\
  msg1_unmarshal DeletePDPContextResponse_T m [48; 21; 0; 1; 0; 0; 0; 7; 1] = Err MessageOptionalIEIncorrect /\
  msg1_unmarshal UpdatePDPContextRequest_T m [48; 18; 0; 15; 0; 0; 0; 7; 16; 0; 0; 0; 1; 20; 5; 133; 0; 5; 1; 2; 3; 4; 5] = Panic.
Proof. intros []; repeat split; vm_compute; reflexivity. Qed.
Example C62_hypotheses : forall m, let b := [48; 20; 0; 3; 0; 0; 0; 7; 19; 255; 20] in
  reads_to m b 8 [(19, I1_Teardown (mkTv 19 true))] 10 /\ nth_error b 10 = Some 20 /\
  ie1_unmarshal K1_Nsapi m (skipn 10 b) = Err IEInvalidLength /\
  rank DeletePDPContextRequest_L 20 2 = length (occ 20 [(19, I1_Teardown (mkTv 19 true))]).
Proof.
  intros m b. split; [|repeat split]. apply (to_more m b 8 19 K1_Teardown _ 2); try reflexivity; [lia|constructor].
Qed.
(* An element that cannot be decoded and has no field left, all fields of its type being taken: it is reported
   like the last field of its type, and never makes the decoder panic. *)
Theorem C62_surplus_element : forall code L T m b h p l q t k e j f, In (code, L, T) messages1 ->
  chdr_unmarshal m b = Ok h -> c_msgtype h = code -> c_length h <= 65527 -> 8 + c_length h <= nlen b ->
  chdr_len m h = Ok p -> reads_to m b p l q -> nth_error b q = Some t ->
  StronglySorted N.le (map fst l) -> (forall u, In u (map fst l) -> u <= t) ->
  Forall (fun t => In t (map f_code L)) (map fst l) -> (forall u, (length (occ u l) <= 255)%nat) ->
  code_kind t = Some k -> ie1_unmarshal k m (skipn q b) = Err e ->
  nth_error L j = Some f -> f_code f = t -> (rank L t j < length (occ t l))%nat ->
  (forall j' f', nth_error L j' = Some f' -> f_code f' = t -> (j' <= j)%nat) ->
  exists w, msg1_unmarshal T m b = Err w /\
    match listed code f with None => w = right_report f | Some r => r = Ok w end.
Proof.
  intros code L T m b h p l q t k e j f HI Hh E Hl Hb Hp Hr Hq Hs Hle HF Ho Hk He Hj Hc Hrk Hlast.
  rewrite (surplus code L T HI m b h p l q t k e j f Hh E Hl Hb Hp Hr Hq Hs Hle HF Ho Hk He Hj Hc Hrk Hlast).
  destruct (last_report code L T HI j f Hj) as (w & Hw). { intros j' f' H1 H2. apply (Hlast _ _ H1). congruence. }
  rewrite Hw. exists w. split; [reflexivity|]. unfold report in Hw. destruct (listed code f) as [r|]; [exact Hw|].
  apply Ok_inj in Hw. symmetry. exact Hw.
Qed.
Print Assumptions C62_surplus_element.
(* A second NSAPI of a delete request that is cut off; a second teardown indicator that is neither 254 nor 255. *)
Example C62_surplus_cases : forall m,
  msg1_unmarshal DeletePDPContextRequest_T m [48; 20; 0; 3; 0; 0; 0; 7; 20; 5; 20] = Err MessageMandatoryIEMissing /\
  msg1_unmarshal DeletePDPContextRequest_T m [48; 20; 0; 4; 0; 0; 0; 7; 19; 255; 19; 7] = Err MessageOptionalIEIncorrect /\
  reads_to m [48; 20; 0; 3; 0; 0; 0; 7; 20; 5; 20] 8 [(20, I1_Nsapi (mkTv 20 5))] 10 /\
  (rank DeletePDPContextRequest_L 20 2 < length (occ 20 [(20%N, I1_Nsapi (mkTv 20 5%N))]))%nat.
Proof.
  intros m. split; [destruct m; vm_compute; reflexivity|]. split; [destruct m; vm_compute; reflexivity|]. split; [|vm_compute; lia].
  apply (to_more m _ 8 20 K1_Nsapi _ 2); try reflexivity; [lia|constructor].
Qed.
(* An element of a lower type than one before it, or of a type the message does not have, is an invalid format. *)
Theorem C62_invalid_format : forall code L T m b h p l q t, In (code, L, T) messages1 ->
  chdr_unmarshal m b = Ok h -> c_msgtype h = code -> c_length h <= 65527 -> 8 + c_length h <= nlen b ->
  chdr_len m h = Ok p -> reads_to m b p l q -> nth_error b q = Some t ->
  StronglySorted N.le (map fst l) ->
  Forall (fun t => In t (map f_code L)) (map fst l) -> (forall u, (length (occ u l) <= 255)%nat) ->
  ((exists u, In u (map fst l) /\ t < u) \/ ~ In t (map f_code L)) ->
  msg1_unmarshal T m b = Err MessageInvalidMessageFormat.
Proof. intros code L T m b h p l q t HI. exact (out_of_order code L T HI m b h p l q t). Qed.
Print Assumptions C62_invalid_format.
Example C62_invalid_format_case : forall m,
  msg1_unmarshal DeletePDPContextRequest_T m [48; 20; 0; 4; 0; 0; 0; 7; 20; 5; 19; 255] = Err MessageInvalidMessageFormat /\
  msg1_unmarshal DeletePDPContextRequest_T m [48; 20; 0; 4; 0; 0; 0; 7; 20; 5; 99; 255] = Err MessageInvalidMessageFormat.
Proof. intros []; split; vm_compute; reflexivity. Qed.

(* ----- C63: debug and release builds ----------------------------------------------------------- *)
(* Whatever the octets, a debug build panics or returns what every build returns. *)
Theorem C63_gtpu_builds_agree : forall m b,
  (hdr_unmarshal Debug b = Panic \/ hdr_unmarshal Debug b = hdr_unmarshal m b) /\
  (forall t, Simple_unmarshal t Debug b = Panic \/ Simple_unmarshal t Debug b = Simple_unmarshal t m b) /\
  (EchoResponse_unmarshal Debug b = Panic \/ EchoResponse_unmarshal Debug b = EchoResponse_unmarshal m b) /\
  (ErrorIndication_unmarshal Debug b = Panic \/ ErrorIndication_unmarshal Debug b = ErrorIndication_unmarshal m b) /\
  (SupExtNotif_unmarshal Debug b = Panic \/ SupExtNotif_unmarshal Debug b = SupExtNotif_unmarshal m b) /\
  (Gpdu_unmarshal Debug b = Panic \/ Gpdu_unmarshal Debug b = Gpdu_unmarshal m b).
Proof.
  intros m b. repeat split; [apply hdr_same|intros t; apply Simple_same|apply EchoResponse_same|apply ErrorIndication_same|apply SupExtNotif_same|apply Gpdu_same].
Qed.
Print Assumptions C63_gtpu_builds_agree.
Theorem C63_gtpv1_builds_agree : forall m b,
  (chdr_unmarshal Debug b = Panic \/ chdr_unmarshal Debug b = chdr_unmarshal m b) /\
  (forall k, ie1_unmarshal k Debug b = Panic \/ ie1_unmarshal k Debug b = ie1_unmarshal k m b) /\
  (forall T, msg1_unmarshal T Debug b = Panic \/ msg1_unmarshal T Debug b = msg1_unmarshal T m b) /\
  (Vns_unmarshal Debug b = Panic \/ Vns_unmarshal Debug b = Vns_unmarshal m b) /\
  (CEchoReq_unmarshal Debug b = Panic \/ CEchoReq_unmarshal Debug b = CEchoReq_unmarshal m b) /\
  (CEchoResp_unmarshal Debug b = Panic \/ CEchoResp_unmarshal Debug b = CEchoResp_unmarshal m b) /\
  (CSup_unmarshal Debug b = Panic \/ CSup_unmarshal Debug b = CSup_unmarshal m b).
Proof.
  intros m b. repeat split; [apply chdr_same|intros k; apply ie1_same|intros T; apply msg1_same|apply Vns_same|apply CEchoReq_same|apply CEchoResp_same|apply CSup_same].
Qed.
Print Assumptions C63_gtpv1_builds_agree.
(* both cases occur: a header is read by both builds, and a packet of length 65535 is read by one only *)
Example C63_case : forall m, chdr_unmarshal m [48; 20; 0; 2; 0; 0; 0; 7] = Ok (mkCHdr 20 2 7 None None None).
Proof. intros []; reflexivity. Qed.
(* Full statement: both builds return the same. False: the length 65535 makes one panic, the other accepts it. *)
Theorem C63_gtpv1_same_refuted : exists b x, bytes b /\ msg1_unmarshal DeletePDPContextRequest_T Debug b = Panic /\
  msg1_unmarshal DeletePDPContextRequest_T Release b = Ok x.
Proof. exists [48; 20; 255; 255; 0; 0; 0; 7; 20; 5]. eexists. split; [repeat constructor|]. split; vm_compute; reflexivity. Qed.
Print Assumptions C63_gtpv1_same_refuted.
