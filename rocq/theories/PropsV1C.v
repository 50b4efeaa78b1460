(* PropsV1C.v - the properties of GTPv1-C: C15 (its part), C37-C53.
   The vocabulary of the statements is in V1CSpec.v (well-formed values), V1CWireSpec.v (the
   octets of TS 29.060), V1CMsgSpec.v (the elements of every message, what a packet carries)
   and V1CSafeSpec.v (octets that decoding survives); the model of the API is in V1CHdr.v to
   V1CTables.v. [m] ranges over the two overflow-check modes. *)
From Coq Require Import String Sorted.
From Verif Require Import BaseFacts V1USpec V1UFacts V1USafety2 V1CHdrSafety V1CHdrFacts V1CIeFacts V1CWireSpec V1CWireFacts
  V1CMsgSpec V1CMsgFacts V1CMsgRead V1CSafeSpec V1CIeSafety V1CMsgSafety V1CFourFacts V1CExact.
Local Open Scope N_scope.
Notation length := List.length.

(* Builds the fields of a message from the named ones, the others being empty. *)
Definition fill1 (L : list field1) (given : list (string * ie1)) : list (option ie1) :=
  map (fun f => match find (fun g => String.eqb (fst g) (f_name f)) given with Some g => Some (snd g) | None => None end) L.

(* ----- C37: header round-trip and octets ---------------------------------------------------- *)
Theorem C37_header_roundtrip : forall m h r, wf_chdr h -> chdr_unmarshal m (chdr_marshal h ++ r) = Ok h.
Proof. exact chdr_roundtrip. Qed.
Print Assumptions C37_header_roundtrip.

Theorem C37_header_octets : forall h, wf_chdr h -> chdr_marshal h = chdr_wire h.
Proof. exact chdr_wire_ok. Qed.
Print Assumptions C37_header_octets.

Definition sample_chdr : CHdr :=
  mkCHdr 16 40 7 (Some 513) (Some 9) (Some [CX_PDCPPDUNumber (mkNumExt 192 1 1000); CX_Unknown (mkBlobExt 77 2 [1; 2; 3; 4; 5; 6])]).
Example sample_chdr_wf : wf_chdr sample_chdr.
Proof.
  split; [reflexivity|]. split; [reflexivity|]. split; [reflexivity|].
  constructor; [split; [left; reflexivity|split; reflexivity]|]. constructor; [|constructor].
  split; [|split; [cbn; lia|reflexivity]]. cbn. intuition discriminate.
Qed.
Example sample_chdr_octets : chdr_marshal sample_chdr =
  [55; 16; 0; 40; 0; 0; 0; 7; 2; 1; 9; 192; 1; 3; 232; 77; 2; 1; 2; 3; 4; 5; 6; 0].
Proof. reflexivity. Qed.
Example optional_parts_wf : wf_chdr (mkCHdr 1 4 0 None (Some 3) None) /\ wf_chdr (mkCHdr 1 4 0 None None (Some [])) /\ wf_chdr (mkCHdr 1 0 0 None None None).
Proof. repeat split; try reflexivity; constructor. Qed.

(* ----- C38: reported header size ------------------------------------------------------------ *)
Theorem C38_header_size : forall m h, wf_chdr h -> chdr_len m h = Ok (length (chdr_marshal h)).
Proof. exact chdr_len_ok. Qed.
Print Assumptions C38_header_size.
(* Full statement: a decoded header is not longer than the packet. False: the sequence number
   is read from two octets, but the size is then twelve. *)
Theorem C38_decoded_size_refuted : exists b h, bytes b /\ (forall m, chdr_unmarshal m b = Ok h) /\
  forall m, exists n, chdr_len m h = Ok n /\ (length b < n)%nat.
Proof.
  exists [50; 1; 0; 4; 0; 0; 0; 0; 1; 2], (mkCHdr 1 4 0 (Some 258) None None). split; [repeat constructor|].
  split; [intros []; reflexivity|]. intros m. exists 12%nat. split; [reflexivity|cbn; lia].
Qed.
Print Assumptions C38_decoded_size_refuted.
(* What holds: in debug builds it is inside the packet, if the packet has twelve octets or the header eight. *)
Theorem C38_decoded_size_partial : forall m b h, chdr_unmarshal m b = Ok h ->
  (forall b0, nth_error b 0 = Some b0 -> N.testbit b0 2 = true -> (12 <= length b)%nat -> ext_chain (skipn 11 b)) ->
  exists n, chdr_len m h = Ok n /\ (8 <= n)%nat /\ (n <= length b \/ n = 12)%nat.
Proof. exact chdr_len_decoded. Qed.
Print Assumptions C38_decoded_size_partial.
Example C38_decoded_size_case : ext_chain (skipn 11 (chdr_marshal sample_chdr)).
Proof. cbn. apply (chain_more 192 1 [3; 232]); [discriminate|lia|reflexivity|]. apply (chain_more 77 2 [1;2;3;4;5;6]); [discriminate|lia|reflexivity|]. constructor. Qed.

(* ----- C39: what an accepted header says ----------------------------------------------------- *)
(* Version 1 and protocol type 1; each optional field is there exactly when its flag is, and is
   read from its own octets. *)
Theorem C39_header_follows_flags : forall m b h, chdr_unmarshal m b = Ok h ->
  exists b0 l1 l2 t1 t2 t3 t4 r, b = b0 :: c_msgtype h :: l1 :: l2 :: t1 :: t2 :: t3 :: t4 :: r /\
    b0 / 32 = 1 /\ N.testbit b0 4 = true /\
    c_length h = be16 l1 l2 /\ c_teid h = be32 t1 t2 t3 t4 /\
    (if N.testbit b0 1 then exists s1 s2, nth_error b 8 = Some s1 /\ nth_error b 9 = Some s2 /\ c_sqn h = Some (be16 s1 s2)
     else c_sqn h = None) /\
    (if N.testbit b0 0 then exists n, nth_error b 10 = Some n /\ c_npdu h = Some n else c_npdu h = None) /\
    (c_ext h = None <-> N.testbit b0 2 = false).
Proof.
  intros m b h H. destruct (chdr_inv m b h H) as (b0 & l1 & l2 & t1 & t2 & t3 & t4 & r & Eb & H5 & H4 & Hl & Ht & Hs & Hn & He).
  exists b0, l1, l2, t1, t2, t3, t4, r. rewrite N.shiftr_div_pow2 in H5. change (2 ^ 5) with 32 in H5.
  do 7 (split; [assumption|]). destruct (N.testbit b0 2); [|tauto]. destruct He as (l & _ & _ & ->). split; discriminate.
Qed.
Print Assumptions C39_header_follows_flags.
(* In debug builds the extension headers of an accepted header form a chain on the wire, and a
   chain is always accepted. *)
Theorem C39_extension_chain : forall b, (exists l, c_unmarshal_ext Debug b = Ok l) <-> ext_chain b.
Proof. exact c_unmarshal_ext_debug_iff. Qed.
Print Assumptions C39_extension_chain.
Theorem C39_too_short : forall m b, (length b < 8)%nat -> chdr_unmarshal m b = Err HeaderInvalidLength.
Proof. intros m b H. unfold chdr_unmarshal. destruct (Nat.ltb_spec (length b) 8); [reflexivity|lia]. Qed.
Print Assumptions C39_too_short.
Theorem C39_wrong_version : forall m b b0, (8 <= length b)%nat -> nth_error b 0 = Some b0 -> b0 / 16 <> 3 -> b0 < 256 ->
  chdr_unmarshal m b = Err HeaderVersionNotSupported.
Proof.
  intros m b b0 H8 Hb Hv Hlt. unfold chdr_unmarshal. destruct (Nat.ltb_spec (length b) 8); [lia|].
  unfold at_. rewrite Hb. cbn [bind]. replace ((N.shiftr b0 5 =? 1) && (N.land (N.shiftr b0 4) 1 =? 1)) with (b0 / 16 =? 3).
  - destruct (N.eqb_spec (b0 / 16) 3); [contradiction|reflexivity].
  - assert (Hs : forallb (fun x => Bool.eqb (x / 16 =? 3) ((N.shiftr x 5 =? 1) && (N.land (N.shiftr x 4) 1 =? 1))) (upto 256) = true) by (vm_compute; reflexivity).
    rewrite forallb_forall in Hs. apply Bool.eqb_prop, Hs. unfold upto. apply in_map_iff. exists (N.to_nat b0). rewrite N2Nat.id. split; [reflexivity|]. apply in_seq. lia.
Qed.
Print Assumptions C39_wrong_version.
Example C39_case : exists h, chdr_unmarshal Debug (chdr_marshal sample_chdr) = Ok h /\ c_sqn h = Some 513.
Proof. eexists. split; reflexivity. Qed.

(* ----- C40: elements decode back to themselves ------------------------------------------------ *)
Theorem C40_element_roundtrip : forall m i r, wf_ie1 i -> ie1_t i <> 255 ->
  ie1_unmarshal (kind1_of i) m (ie1_marshal i ++ r) = Ok i.
Proof. intros m i r Hw H. apply ie1_roundtrip; [exact Hw|]. intros Hd. exfalso. apply H, wf_alone; assumption. Qed.
Print Assumptions C40_element_roundtrip.
(* Full statement: the above for the private extension as well. False: it takes everything up
   to the end of the packet. *)
Theorem C40_private_extension_refuted : exists i r, wf_ie1 i /\ forall m, ie1_unmarshal (kind1_of i) m (ie1_marshal i ++ r) <> Ok i.
Proof. exists (I1_Pe (mkTlv 255 3 (mkPeV 1 [9]))), [1]. split; [|intros []; discriminate].
  split; [reflexivity|]. split; [reflexivity|]. split; [vm_compute; discriminate|reflexivity].
Qed.
Print Assumptions C40_private_extension_refuted.
Theorem C40_private_extension_partial : forall m i, wf_ie1 i -> ie1_t i = 255 ->
  ie1_unmarshal (kind1_of i) m (ie1_marshal i) = Ok i.
Proof. intros m i Hw _. rewrite <- (app_nil_r (ie1_marshal i)). apply ie1_roundtrip; [exact Hw|reflexivity]. Qed.
Print Assumptions C40_private_extension_partial.

Definition digits15 : list N := [50;54;50;48;49;49;50;51;52;53;54;55;56;57;48].
Definition e_imsi := I1_Imsi (mkTv 2 digits15).
Definition e_eua := I1_Eua (mkTlv 128 6 (mkEua 1 33 (Some [10;0;0;1]) None)).
Definition e_apn := I1_Apn (mkTlv 131 9 [105;110;116;101;114;46;110;101]).
Definition e_gsn (d : N) := I1_Gsn (mkTlv 133 4 (V4 192 168 0 d)).
Definition e_qos := I1_Qos (mkTlv 135 4 (mkQos 2 [1; 2; 3])).
Definition e_msisdn := I1_Msisdn (mkTlv 134 9 (mkMsisdn 1 1 1 digits15)).
Definition e_teid (t v : N) := I1_Teid (mkTv t v).
Definition e_nsapi (v : N) := I1_Nsapi (mkTv 20 v).
Definition e_cause (v : N) := I1_Cause (mkTv 1 v).
Definition e_pe := I1_Pe (mkTlv 255 5 (mkPeV 10415 [1; 2; 3])).
Definition e_gw (d : N) := I1_ChargingGw (mkTlv 251 4 (V4 10 0 0 d)).
Definition e_restriction := I1_ApnRestriction (mkTlv 149 1 Public2).
Definition e_ambr := I1_Ambr (mkTlv 198 8 (mkAmbr 100000 200000)).
Lemma digits15_ok : number8 digits15.
Proof. split; [repeat constructor; cbn; lia|left; reflexivity]. Qed.
Ltac plain_ie := cbn [wf_ie1]; first
  [ split; [reflexivity|vm_compute; reflexivity]
  | split; [reflexivity|]; split; [reflexivity|]; split; [vm_compute; discriminate|first [exact I|vm_compute; reflexivity]] ].
Example sample_elements : Forall wf_ie1
  [e_imsi; e_eua; e_apn; e_gsn 1; e_gsn 2; e_qos; e_msisdn; e_teid 16 7; e_teid 17 8; e_nsapi 5; e_nsapi 6; e_cause 128; e_pe; e_gw 1; e_restriction; e_ambr].
Proof.
  constructor. { split; [reflexivity|exact digits15_ok]. }
  constructor. { split; [reflexivity|]. split; [reflexivity|]. split; [vm_compute; discriminate|]. repeat split. }
  constructor. { split; [reflexivity|]. split; [reflexivity|]. split; [vm_compute; discriminate|].
    split; repeat constructor. }
  do 2 (constructor; [plain_ie|]).
  constructor. { split; [reflexivity|]. split; [reflexivity|]. split; [vm_compute; discriminate|]. unfold qos_ok; cbn; lia. }
  constructor. { split; [reflexivity|]. split; [reflexivity|]. split; [vm_compute; discriminate|]. split; [reflexivity|].
    split; [reflexivity|]. split; [left; reflexivity|exact digits15_ok]. }
  constructor. { left. split; reflexivity. } constructor. { right. split; reflexivity. }
  do 7 (constructor; [try plain_ie|]).
  - split; [reflexivity|]. split; [reflexivity|]. split; [vm_compute; discriminate|split; reflexivity].
  - constructor.
Qed.

(* ----- C41: elements have the octets of the standard ------------------------------------------- *)
Theorem C41_element_octets : forall i, wf_ie1 i -> ie1_marshal i = ie1_wire (ie1_t i) (ie1_value i).
Proof. exact ie1_wire_ok. Qed.
Print Assumptions C41_element_octets.
Example C41_case : ie1_marshal e_eua = [128; 0; 6; 241; 33; 10; 0; 0; 1].
Proof. reflexivity. Qed.
(* the decoder that a message uses for a type code is the one of the element with that code *)
Theorem C41_element_dispatch : forall code L T t a, In (code, L, T) messages1 -> In a (t_arms T) -> a_type a = t ->
  code_kind t = Some (a_kind a) /\ forall i, wf_ie1 i -> ie1_t i = t -> kind1_of i = a_kind a.
Proof.
  intros code L T t a Hin Ha <-. pose proof (tab_arm code L T (messages1_checked _ _ _ Hin) a Ha) as Hc.
  assert (Hk : code_kind (a_type a) = Some (a_kind a)).
  { unfold check_arm in Hc. rewrite !andb_true_iff in Hc. apply okind_eqb_eq, Hc. }
  split; [exact Hk|]. intros i Hw E. pose proof (wf_code_kind i Hw) as Hi. rewrite E, Hk in Hi. injection Hi as ->. reflexivity.
Qed.
Print Assumptions C41_element_dispatch.

(* ----- C42: the size an element reports -------------------------------------------------------- *)
Theorem C42_element_size_partial : forall m i, wf_ie1 i -> ie1_t i <> 149 -> ie1_len m i = Ok (length (ie1_marshal i)).
Proof. intros m i Hw H. apply ie1_len_ok; [exact Hw|]. apply not_misreported; assumption. Qed.
Print Assumptions C42_element_size_partial.
(* Full statement: without the exception. False for every APN restriction. *)
Theorem C42_element_size_refuted : forall m i, wf_ie1 i -> ie1_t i = 149 ->
  ie1_len m i = Ok 2%nat /\ length (ie1_marshal i) = 4%nat.
Proof. intros m i Hw E. destruct (restriction_octets i Hw E) as (v & Ev & El). rewrite El, Ev. auto. Qed.
Print Assumptions C42_element_size_refuted.

(* ----- C43: messages decode back to themselves -------------------------------------------------- *)
(* What the sender built, with the length field filled in. *)
Definition as_sent (x : Msg1) : Msg1 := mkMsg1 (chdr_with_length (m_header x) (nlen (msg1_octets x) - 8)) (m_fields x).
(* Full statement: for every well-formed message that fits the length field. What holds: if it
   carries no APN restriction, and not both a charging gateway address and an element with a
   code from 148 to 218. *)
Theorem C43_roundtrip_partial : forall code L T m x, In (code, L, T) messages1 -> wf_msg1 code L x ->
  nlen (msg1_octets x) <= 65535 -> ~ has_code1 x 149 ->
  (has_code1 x 251 -> forall t, 148 <= t <= 218 -> ~ has_code1 x t) ->
  msg1_unmarshal T m (msg1_marshal x []) = Ok (as_sent x).
Proof.
  intros code L T m x Hin Hw Hn H149 Hg. apply (msg1_roundtrip code L T (messages1_checked _ _ _ Hin) m x Hw); [|exact H149|exact Hn].
  exact (gw_ascending code L T x Hin Hw Hg).
Qed.
Print Assumptions C43_roundtrip_partial.
(* Exactly these survive: any other well-formed message is rejected by the decoder of its own kind. *)
Theorem C43_apn_restriction_refuted : forall code L T m x, In (code, L, T) messages1 -> wf_msg1 code L x ->
  nlen (msg1_octets x) <= 65535 -> has_code1 x 149 -> forall y, msg1_unmarshal T m (msg1_marshal x []) <> Ok y.
Proof. intros code L T m x Hin Hw Hn H149 y Hy. destruct (msg1_lost code L T m x y Hin Hw Hn Hy) as [_ H]. contradiction. Qed.
Print Assumptions C43_apn_restriction_refuted.
Theorem C43_charging_gateway_refuted : forall code L T m x t, In (code, L, T) messages1 -> wf_msg1 code L x ->
  nlen (msg1_octets x) <= 65535 -> has_code1 x 251 -> 148 <= t <= 218 -> has_code1 x t ->
  forall y, msg1_unmarshal T m (msg1_marshal x []) <> Ok y.
Proof.
  intros code L T m x t Hin Hw Hn Hg Ht Hc y Hy. destruct (msg1_lost code L T m x y Hin Hw Hn Hy) as [H _].
  exact (gw_not_ascending code L T x t Hin Hw Hg Ht Hc H).
Qed.
Print Assumptions C43_charging_gateway_refuted.

Definition sample_create : Msg1 := mkMsg1 (mkCHdr 16 0 0 (Some 1) None None)
  (fill1 CreatePDPContextRequest_L
    [("imsi", e_imsi); ("teid_data", e_teid 16 7); ("teid_control", e_teid 17 8); ("nsapi", e_nsapi 5); ("linked_nsapi", e_nsapi 6);
     ("end_user_address", e_eua); ("apn", e_apn); ("sgsn_ip_control", e_gsn 1); ("sgsn_ip_user", e_gsn 2);
     ("msisdn", e_msisdn); ("qos", e_qos); ("apn_ambr", e_ambr); ("private_extension", e_pe)]%string).
Definition sample_response (given : list (string * ie1)) : Msg1 := mkMsg1 (mkCHdr 17 0 9 (Some 1) None None)
  (fill1 CreatePDPContextResponse_L (("cause", e_cause 128)%string :: given)).
Ltac fields_ok := repeat (constructor; [first [reflexivity | split; [reflexivity|];
  match goal with |- wf_ie1 ?i => exact (proj1 (Forall_forall _ _) sample_elements i ltac:(cbn; tauto)) end]|]); try constructor.
(* no_gap by computation *)
Definition no_gapb (L : list field1) (fs : list (option ie1)) : bool :=
  forallb (fun j => forallb (fun i =>
    match nth_error L i, nth_error L j, nth_error fs j, nth_error fs i with
    | Some f, Some g, Some (Some _), Some None => negb (f_code f =? f_code g)
    | _, _, _, _ => true end) (seq 0 j)) (seq 0 (length L)).
Lemma no_gapb_ok L fs : no_gapb L fs = true -> no_gap L fs.
Proof.
  intros H i j f g x Hij Hf Hg E Hx Hn. unfold no_gapb in H. rewrite forallb_forall in H.
  assert (Hj : (j < length L)%nat) by (apply nth_error_Some; congruence).
  specialize (H j ltac:(apply in_seq; lia)). rewrite forallb_forall in H. specialize (H i ltac:(apply in_seq; lia)).
  rewrite Hf, Hg, Hx, Hn, E, N.eqb_refl in H. discriminate.
Qed.
Example sample_create_wf : wf_msg1 16 CreatePDPContextRequest_L sample_create.
Proof.
  split; [reflexivity|]. split; [repeat split|]. split; [|apply no_gapb_ok; vm_compute; reflexivity].
  unfold sample_create, fill1, CreatePDPContextRequest_L. cbn [m_fields map]. fields_ok.
Qed.
Example C43_case : nlen (msg1_octets sample_create) = 108 /\ ~ has_code1 sample_create 149 /\ ~ has_code1 sample_create 251 /\
  msg1_unmarshal CreatePDPContextRequest_T Release (msg1_marshal sample_create []) = Ok (as_sent sample_create).
Proof. repeat split; try (vm_compute; intuition discriminate); vm_compute; reflexivity. Qed.
Example C43_restriction_case : let x := sample_response [("apn_restriction", e_restriction)%string] in
  wf_msg1 17 CreatePDPContextResponse_L x /\ has_code1 x 149.
Proof.
  split; [|cbn; tauto]. split; [reflexivity|]. split; [repeat split|]. split; [|apply no_gapb_ok; vm_compute; reflexivity].
  unfold sample_response, fill1, CreatePDPContextResponse_L. cbn [m_fields map]. fields_ok.
Qed.
Example C43_gateway_case : let x := sample_response [("charging_gw_addr", e_gw 1); ("apn_ambr", e_ambr)]%string in
  wf_msg1 17 CreatePDPContextResponse_L x /\ has_code1 x 251 /\ has_code1 x 198.
Proof.
  split; [|cbn; tauto]. split; [reflexivity|]. split; [repeat split|]. split; [|apply no_gapb_ok; vm_compute; reflexivity].
  unfold sample_response, fill1, CreatePDPContextResponse_L. cbn [m_fields map]. fields_ok.
Qed.

(* the four messages with a layout of their own *)
Theorem C43_version_not_supported : forall m h, wf_chdr h -> c_msgtype h = 3 -> nlen (Vns_marshal h []) <= 65543 ->
  Vns_unmarshal m (Vns_marshal h []) = Ok (chdr_with_length h (nlen (Vns_marshal h []) - 8)).
Proof.
  intros m h Hw Ht Hn. assert (E : nlen (Vns_marshal h []) = nlen (chdr_marshal h)).
  { unfold Vns_marshal, nlen. cbn [app]. rewrite set_length_len. reflexivity. }
  rewrite E in *. apply vns_roundtrip; assumption.
Qed.
Print Assumptions C43_version_not_supported.
Theorem C43_echo_request : forall m x, wf_chdr (ceq_header x) -> c_msgtype (ceq_header x) = 1 ->
  wf_opt (fun p => wf_ie1 (I1_Pe p)) (ceq_pe x) -> nlen (CEchoReq_marshal x []) <= 65543 ->
  CEchoReq_unmarshal m (CEchoReq_marshal x [])
  = Ok (mkCEchoReq (chdr_with_length (ceq_header x) (nlen (CEchoReq_marshal x []) - 8)) (ceq_pe x)).
Proof. exact cecho_req_roundtrip. Qed.
Print Assumptions C43_echo_request.
Theorem C43_echo_response : forall m x, wf_chdr (cer_header x) -> c_msgtype (cer_header x) = 2 ->
  wf_ie1 (I1_Recovery (cer_recovery x)) -> wf_opt (fun p => wf_ie1 (I1_Pe p)) (cer_pe x) -> nlen (CEchoResp_marshal x []) <= 65543 ->
  CEchoResp_unmarshal m (CEchoResp_marshal x [])
  = Ok (mkCEchoResp (chdr_with_length (cer_header x) (nlen (CEchoResp_marshal x []) - 8)) (cer_recovery x) (cer_pe x)).
Proof. exact cecho_resp_roundtrip. Qed.
Print Assumptions C43_echo_response.
Theorem C43_supported_extension_headers : forall m x, wf_chdr (cs_header x) -> c_msgtype (cs_header x) = 31 ->
  tlv_t (cs_list x) = 141 -> tlv_length (cs_list x) = nlen (tlv_v (cs_list x)) -> nlen (tlv_v (cs_list x)) <= 253 ->
  nlen (CSup_marshal x []) <= 65535 ->
  CSup_unmarshal m (CSup_marshal x [])
  = Ok (mkCSup (chdr_with_length (cs_header x) (nlen (CSup_marshal x []) - 8)) (cs_list x)).
Proof. intros m x Hw Ht H1 H2 H3 Hn. apply csup_roundtrip; try assumption. repeat split; assumption. Qed.
Print Assumptions C43_supported_extension_headers.
Example C43_four_cases :
  CEchoReq_marshal (mkCEchoReq (mkCHdr 1 0 0 (Some 5) None None) (Some (mkTlv 255 5 (mkPeV 10415 [1; 2; 3])))) [] =
    [50; 1; 0; 12; 0; 0; 0; 0; 0; 5; 0; 0; 255; 0; 5; 40; 175; 1; 2; 3] /\
  CEchoResp_marshal (mkCEchoResp (mkCHdr 2 0 0 (Some 5) None None) (mkTv 14 9) None) [] = [50; 2; 0; 6; 0; 0; 0; 0; 0; 5; 0; 0; 14; 9] /\
  CSup_marshal (mkCSup (mkCHdr 31 0 0 (Some 5) None None) (mkTlv 141 2 [192; 193])) [] = [50; 31; 0; 8; 0; 0; 0; 0; 0; 5; 0; 0; 141; 2; 192; 193].
Proof. repeat split. Qed.

(* ----- C44: the message type is checked ---------------------------------------------------------- *)
Theorem C44_type_checked : forall code L T m b h, In (code, L, T) messages1 -> chdr_unmarshal m b = Ok h -> c_msgtype h <> code ->
  msg1_unmarshal T m b = Err MessageIncorrectMessageType.
Proof.
  intros code L T m b h Hin Hh Hne. unfold msg1_unmarshal. rewrite Hh. cbn [bind].
  rewrite (tab_code code L T (messages1_checked _ _ _ Hin)). destruct (N.eqb_spec (c_msgtype h) code); [contradiction|reflexivity].
Qed.
Print Assumptions C44_type_checked.
Theorem C44_type_checked_others : forall m b h, chdr_unmarshal m b = Ok h ->
  (c_msgtype h <> 3 -> Vns_unmarshal m b = Err MessageIncorrectMessageType) /\
  (c_msgtype h <> 1 -> CEchoReq_unmarshal m b = Err MessageIncorrectMessageType) /\
  (c_msgtype h <> 2 -> CEchoResp_unmarshal m b = Err MessageIncorrectMessageType) /\
  (c_msgtype h <> 31 -> CSup_unmarshal m b = Err MessageIncorrectMessageType).
Proof.
  intros m b h Hh. unfold Vns_unmarshal, CEchoReq_unmarshal, CEchoResp_unmarshal, CSup_unmarshal. rewrite Hh. cbn [bind].
  unfold C_VERSION_NOT_SUPPORTED, ECHO_REQUEST, ECHO_RESPONSE, SUPPORTED_EXTENSION_HEADERS_NOTIFICATION.
  repeat split; intros Hne; match goal with |- context [c_msgtype h =? ?c] => destruct (N.eqb_spec (c_msgtype h) c) end; try contradiction; reflexivity.
Qed.
Print Assumptions C44_type_checked_others.
Example C44_case : chdr_unmarshal Debug [50; 20; 0; 4; 0; 0; 0; 1; 0; 1; 0; 0] = Ok (mkCHdr 20 4 1 (Some 1) None None).
Proof. reflexivity. Qed.

(* ----- C45: the declared length -------------------------------------------------------------------- *)
Theorem C45_truncated_rejected_partial : forall code L T m b h, In (code, L, T) messages1 ->
  chdr_unmarshal m b = Ok h -> c_msgtype h = code -> c_length h <= 65527 ->
  nlen b < 8 + c_length h -> msg1_unmarshal T m b = Err MessageLengthError.
Proof.
  intros code L T m b h Hin Hh Ht Hl Hb. unfold msg1_unmarshal. rewrite Hh. cbn [bind].
  rewrite (tab_code code L T (messages1_checked _ _ _ Hin)), Ht, N.eqb_refl. cbn [negb]. rewrite add16_small by lia. cbn [bind].
  destruct (Nat.leb_spec (N.to_nat (c_length h + 8)) (length b)); [unfold nlen in Hb; lia|reflexivity].
Qed.
Print Assumptions C45_truncated_rejected_partial.
(* Full statement: the above for every length. False in release builds: 8 is added modulo 65536. *)
Theorem C45_truncated_accepted_refuted : exists b h x, bytes b /\ chdr_unmarshal Release b = Ok h /\
  nlen b < 8 + c_length h /\ msg1_unmarshal DeletePDPContextResponse_T Release b = Ok x.
Proof.
  exists [50; 21; 255; 255; 0; 0; 0; 1; 0; 1; 0; 0; 1; 128]. exists (mkCHdr 21 65535 1 (Some 1) None None).
  eexists. split; [repeat constructor|]. split; [vm_compute; reflexivity|]. split; [reflexivity|vm_compute; reflexivity].
Qed.
Print Assumptions C45_truncated_accepted_refuted.
(* Full statement: octets after the declared length have no influence. False: they are decoded
   as elements. *)
Theorem C45_trailing_ignored_refuted : exists b r, bytes (b ++ r) /\ forall m,
  (exists x, msg1_unmarshal DeletePDPContextResponse_T m b = Ok x) /\
  (forall y, msg1_unmarshal DeletePDPContextResponse_T m (b ++ r) <> Ok y).
Proof.
  exists [50; 21; 0; 6; 0; 0; 0; 1; 0; 1; 0; 0; 1; 128], [7]. split; [repeat constructor|]. intros m.
  split; [eexists; destruct m; reflexivity|]. intros y. destruct m; discriminate.
Qed.
Print Assumptions C45_trailing_ignored_refuted.
(* The echo messages and the version notification do not compare the length with the packet at all. *)
Theorem C45_echo_length_unchecked_refuted : exists b, bytes b /\ (length b < 8 + 200)%nat /\ forall m,
  CEchoReq_unmarshal m b = Ok (mkCEchoReq (mkCHdr 1 200 0 (Some 5) None None) None).
Proof. exists [50; 1; 0; 200; 0; 0; 0; 0; 0; 5; 0; 0]. split; [repeat constructor|]. split; [cbn; lia|]. intros []; reflexivity. Qed.
Print Assumptions C45_echo_length_unchecked_refuted.

(* ----- C46: mandatory elements ---------------------------------------------------------------------- *)
(* the packet has at least as many elements of a code as the message has mandatory fields of it *)
Definition enough (L : list field1) (l : list (N * ie1)) : Prop :=
  forall t, (length (filter (fun f => f_mandatory f && (f_code f =? t)%N) L) <= length (occ t l))%nat.
Lemma in_occ t l : In t (map fst l) -> (1 <= length (occ t l))%nat.
Proof.
  induction l as [|[u i] l IH]; [contradiction|]. unfold occ. cbn [map fst filter]. destruct (N.eqb_spec u t); [cbn; lia|].
  intros [E|H]; [contradiction|]. apply IH, H.
Qed.
(* at most one mandatory field of each code *)
Definition one_each (L : list field1) : bool :=
  forallb (fun g => (length (filter (fun f => f_mandatory f && (f_code f =? f_code g)%N) L) <=? 1)%nat) L.
Lemma one_each_le L t : one_each L = true -> (length (filter (fun f => f_mandatory f && (f_code f =? t)%N) L) <= 1)%nat.
Proof.
  intros H. destruct (filter _ L) as [|g r] eqn:E; [cbn; lia|].
  assert (Hg : In g (filter (fun f => f_mandatory f && (f_code f =? t)%N) L)) by (rewrite E; left; reflexivity).
  apply filter_In in Hg as [Hg Hb]. apply andb_true_iff in Hb as [_ Hb]. apply N.eqb_eq in Hb. subst t.
  unfold one_each in H. rewrite forallb_forall in H. specialize (H g Hg). rewrite E in H. apply Nat.leb_le. exact H.
Qed.
Theorem C46_mandatory_enforced : forall code L T m b x, In (code, L, T) messages1 ->
  L <> CreatePDPContextRequest_L -> L <> UpdatePDPContextRequest_L -> msg1_unmarshal T m b = Ok x ->
  exists n l, chdr_len m (m_header x) = Ok n /\ reads m b n l /\ enough L l.
Proof.
  intros code L T m b x Hin H1 H2 Hok. destruct (msg1_accepted code L T (messages1_checked _ _ _ Hin) m b x Hok) as (n & l & _ & _ & _ & Hn & Hr & _ & _ & Hm & _).
  exists n, l. split; [exact Hn|]. split; [exact Hr|]. intros t.
  assert (Ho : one_each L = true).
  { cbn [messages1 In] in Hin. repeat (destruct Hin as [E|Hin]; [injection E as <- <- <-; try contradiction; reflexivity|]). contradiction. }
  pose proof (one_each_le L t Ho) as Hle. destruct (filter _ L) as [|g r] eqn:E; [cbn; lia|].
  assert (Hg : In g (filter (fun f => f_mandatory f && (f_code f =? t)%N) L)) by (rewrite E; left; reflexivity).
  apply filter_In in Hg as [Hg Hb]. apply andb_true_iff in Hb as [Hmg Hb]. apply N.eqb_eq in Hb. subst t.
  pose proof (in_occ _ _ (Hm g Hg Hmg)). lia.
Qed.
Print Assumptions C46_mandatory_enforced.
(* Full statement: the above for the two other messages, which have two mandatory SGSN
   addresses. What holds for them: every mandatory code occurs. *)
Theorem C46_mandatory_codes_partial : forall code L T m b x, In (code, L, T) messages1 -> msg1_unmarshal T m b = Ok x ->
  exists n l, chdr_len m (m_header x) = Ok n /\ reads m b n l /\
    forall f, In f L -> f_mandatory f = true -> In (f_code f) (map fst l).
Proof.
  intros code L T m b x Hin Hok. destruct (msg1_accepted code L T (messages1_checked _ _ _ Hin) m b x Hok) as (n & l & _ & _ & _ & Hn & Hr & _ & _ & Hm & _).
  exists n, l. auto.
Qed.
Print Assumptions C46_mandatory_codes_partial.
(* One SGSN address is enough for both decoders; the other one is made up (0.0.0.0). *)
Definition one_address (type : N) : list N :=
  [48; type; 0; 21; 0; 0; 0; 1; 16; 0; 0; 0; 7; 20; 5; 133; 0; 4; 192; 168; 0; 1; 135; 0; 4; 2; 1; 2; 3].
Theorem C46_two_addresses_refuted : forall m,
  (exists x, msg1_unmarshal CreatePDPContextRequest_T m (one_address 16) = Ok x /\
     nth_error (m_fields x) 14 = Some (Some (e_gsn 1)) /\ nth_error (m_fields x) 15 = Some (Some (I1_Gsn (mkTlv 133 4 (V4 0 0 0 0))))) /\
  (exists x, msg1_unmarshal UpdatePDPContextRequest_T m (one_address 18) = Ok x /\
     nth_error (m_fields x) 9 = Some (Some (e_gsn 1)) /\ nth_error (m_fields x) 10 = Some (Some (I1_Gsn (mkTlv 133 4 (V4 0 0 0 0))))).
Proof. intros []; (split; eexists; (split; [vm_compute; reflexivity|split; reflexivity])). Qed.
Print Assumptions C46_two_addresses_refuted.
(* A packet that lacks a mandatory code, and is in order otherwise, is reported as such. *)
Theorem C46_missing_reported : forall code L T m b h n l f, In (code, L, T) messages1 ->
  chdr_unmarshal m b = Ok h -> c_msgtype h = code -> c_length h <= 65527 -> 8 + c_length h <= nlen b ->
  chdr_len m h = Ok n -> reads m b n l -> StronglySorted N.le (map fst l) ->
  Forall (fun t => In t (map f_code L)) (map fst l) -> (forall t, (length (occ t l) <= 255)%nat) ->
  In f L -> f_mandatory f = true -> ~ In (f_code f) (map fst l) ->
  msg1_unmarshal T m b = Err MessageMandatoryIEMissing.
Proof.
  intros code L T m b h n l f Hin Hh Ht Hl Hb Hn Hr Hs HF Ho Hf Hm Hno.
  apply (msg1_missing code L T (messages1_checked _ _ _ Hin) m b h n l (c_length h + 8) f); try assumption.
  - apply add16_small. lia.
  - unfold nlen in Hb. lia.
Qed.
Print Assumptions C46_missing_reported.
Example C46_missing_case : msg1_unmarshal DeletePDPContextResponse_T Debug [48; 21; 0; 4; 0; 0; 0; 1; 132; 0; 1; 9] = Err MessageMandatoryIEMissing.
Proof. reflexivity. Qed.
(* Echo Response carries Recovery, Supported Extension Headers Notification the list. *)
Theorem C46_echo_response : forall m b x, CEchoResp_unmarshal m b = Ok x ->
  chdr_unmarshal m b = Ok (cer_header x) /\ c_msgtype (cer_header x) = 2 /\
  exists n v, chdr_len m (cer_header x) = Ok n /\ nth_error b n = Some 14 /\ nth_error b (n + 1) = Some v /\ cer_recovery x = mkTv 14 v.
Proof. exact cecho_resp_accepted. Qed.
Print Assumptions C46_echo_response.
Theorem C46_supported_extension_headers : forall m b x, CSup_unmarshal m b = Ok x ->
  chdr_unmarshal m b = Ok (cs_header x) /\ c_msgtype (cs_header x) = 31 /\
  (exists s, add16 (E := GTPV1Error) m (c_length (cs_header x)) 8 = Ok s /\ (N.to_nat s <= length b)%nat) /\
  exists n l, chdr_len m (cs_header x) = Ok n /\ nth_error b n = Some 141 /\ nth_error b (n + 1) = Some l /\
    cs_list x = mkTlv 141 l (skipn (n + 2) b).
Proof. exact csup_accepted. Qed.
Print Assumptions C46_supported_extension_headers.
Example C46_four_cases : (exists x, CEchoResp_unmarshal Debug [50; 2; 0; 6; 0; 0; 0; 0; 0; 5; 0; 0; 14; 9] = Ok x) /\
  (exists x, CSup_unmarshal Debug [50; 31; 0; 8; 0; 0; 0; 0; 0; 5; 0; 0; 141; 2; 192; 193] = Ok x).
Proof. split; eexists; reflexivity. Qed.

(* ----- C47: order and known elements ------------------------------------------------------------------ *)
Theorem C47_ascending_and_known : forall code L T m b x, In (code, L, T) messages1 -> msg1_unmarshal T m b = Ok x ->
  exists n l, chdr_len m (m_header x) = Ok n /\ reads m b n l /\
    StronglySorted N.le (map fst l) /\ Forall (fun t => exists f, In f L /\ f_code f = t) (map fst l).
Proof.
  intros code L T m b x Hin Hok. destruct (msg1_accepted code L T (messages1_checked _ _ _ Hin) m b x Hok) as (n & l & _ & _ & _ & Hn & Hr & Hs & HF & _).
  exists n, l. split; [exact Hn|]. split; [exact Hr|]. split; [exact Hs|].
  eapply Forall_impl; [|exact HF]. intros t Ht. apply in_map_iff in Ht as (f & E & Hf). eauto.
Qed.
Print Assumptions C47_ascending_and_known.

(* ----- C48: which occurrence a field holds ------------------------------------------------------------- *)
(* The n-th field of a code holds the n-th element of that code; further ones are dropped. *)
Theorem C48_occurrences_debug : forall code L T b x, In (code, L, T) messages1 -> msg1_unmarshal T Debug b = Ok x ->
  exists n l, chdr_len Debug (m_header x) = Ok n /\ reads Debug b n l /\ stored L l (m_fields x).
Proof.
  intros code L T b x Hin Hok. destruct (msg1_accepted code L T (messages1_checked _ _ _ Hin) Debug b x Hok) as (n & l & _ & _ & _ & Hn & Hr & _ & _ & _ & Hd & Hst).
  exists n, l. split; [exact Hn|]. split; [exact Hr|]. apply Hst, Hd. reflexivity.
Qed.
Print Assumptions C48_occurrences_debug.
(* Full statement: the above in release builds. What holds: if no code occurs more than 255 times. *)
Theorem C48_occurrences_release_partial : forall code L T m b x, In (code, L, T) messages1 -> msg1_unmarshal T m b = Ok x ->
  exists n l, chdr_len m (m_header x) = Ok n /\ reads m b n l /\
    ((forall t, (length (occ t l) <= 255)%nat) -> stored L l (m_fields x)).
Proof.
  intros code L T m b x Hin Hok. destruct (msg1_accepted code L T (messages1_checked _ _ _ Hin) m b x Hok) as (n & l & _ & _ & _ & Hn & Hr & _ & _ & _ & _ & Hst).
  exists n, l. auto.
Qed.
Print Assumptions C48_occurrences_release_partial.
(* The count is an octet: after 256 NSAPIs the second field is written once more. *)
Definition many_nsapis : list N :=
  [48; 16; 0; 13; 0; 0; 0; 1; 16; 0; 0; 0; 7; 20; 5; 20; 6] ++ concat (repeat [20; 7] 254) ++ [20; 9] ++
  [133; 0; 4; 192; 168; 0; 1; 135; 0; 4; 2; 1; 2; 3].
Theorem C48_wraps_refuted : bytes many_nsapis /\
  (exists x, msg1_unmarshal CreatePDPContextRequest_T Release many_nsapis = Ok x /\
     nth_error (m_fields x) 6 = Some (Some (e_nsapi 5)) /\ nth_error (m_fields x) 7 = Some (Some (e_nsapi 9))) /\
  msg1_unmarshal CreatePDPContextRequest_T Debug many_nsapis = Panic.
Proof.
  split; [apply Forall_forall; assert (H : forallb (fun x => x <? 256) many_nsapis = true) by (vm_compute; reflexivity);
          rewrite forallb_forall in H; intros x Hx; apply N.ltb_lt, H, Hx|].
  split; [eexists; split; [vm_compute; reflexivity|split; reflexivity]|vm_compute; reflexivity].
Qed.
Print Assumptions C48_wraps_refuted.
Example C48_case : exists x, msg1_unmarshal CreatePDPContextRequest_T Debug
    [48; 16; 0; 25; 0; 0; 0; 1; 16; 0; 0; 0; 7; 20; 5; 20; 6; 20; 8; 133; 0; 4; 192; 168; 0; 1; 135; 0; 4; 2; 1; 2; 3] = Ok x /\
  nth_error (m_fields x) 6 = Some (Some (e_nsapi 5)) /\ nth_error (m_fields x) 7 = Some (Some (e_nsapi 6)).
Proof. eexists. split; [vm_compute; reflexivity|split; reflexivity]. Qed.

(* ----- C49: exactly what is accepted --------------------------------------------------------------------- *)
Theorem C49_accepts_iff : forall code L T b, In (code, L, T) messages1 -> bytes b ->
  (exists x, msg1_unmarshal T Debug b = Ok x) <->
  exists h n l, chdr_unmarshal Debug b = Ok h /\ c_msgtype h = code /\ c_length h <= 65527 /\ 8 + c_length h <= nlen b /\
    chdr_len Debug h = Ok n /\ reads Debug b n l /\ StronglySorted N.le (map fst l) /\
    (forall t, In t (map fst l) -> exists f, In f L /\ f_code f = t) /\
    (forall f, In f L -> f_mandatory f = true -> In (f_code f) (map fst l)) /\
    (forall t, (length (occ t l) <= 255)%nat).
Proof.
  intros code L T b Hin Hby. pose proof (messages1_checked _ _ _ Hin) as HT. split.
  - intros (x & Hx). destruct (msg1_accepted code L T HT Debug b x Hx) as (n & l & Hh & Ht & (s & Hs & Hle) & Hn & Hr & Hss & HF & Hm & Ho & _).
    exists (m_header x), n, l. split; [exact Hh|]. split; [exact Ht|].
    pose proof (c_length_u16 Debug b _ Hby Hh) as Hu. unfold add16, ov in Hs.
    destruct (N.ltb_spec (c_length (m_header x) + 8) 65536); [|discriminate]. injection Hs as <-.
    split; [lia|]. split; [unfold nlen; lia|]. do 3 (split; [assumption|]). split; [|split; [exact Hm|apply Ho; reflexivity]].
    intros t Ht'. rewrite Forall_forall in HF. specialize (HF t Ht'). apply in_map_iff in HF as (f & E & Hf). eauto.
  - intros (h & n & l & Hh & Ht & Hl & Hb & Hn & Hr & Hss & HF & Hm & Ho).
    destruct (msg1_accepts code L T HT Debug b h n l (c_length h + 8)) as (fs & E & _); try assumption; eauto.
    + apply add16_small. lia.
    + unfold nlen in Hb. lia.
    + apply Forall_forall. intros t Ht'. destruct (HF t Ht') as (f & Hf & <-). apply in_map, Hf.
Qed.
Print Assumptions C49_accepts_iff.
(* What a field of an accepted packet holds is determined by the packet ([reads] has one result). *)
Theorem C49_reading_unique : forall m b p l l', reads m b p l -> reads m b p l' -> l = l'.
Proof. intros m b p l l' H H'. exact (reads_det m b p l H l' H'). Qed.
Print Assumptions C49_reading_unique.

(* ----- C50: crash freedom ---------------------------------------------------------------------------------- *)
Theorem C50_header_partial : forall m b, good_chain b -> returns (chdr_unmarshal m b).
Proof. exact chdr_returns. Qed.
Print Assumptions C50_header_partial.
Theorem C50_element_partial : forall m t k s, code_kind t = Some k -> harmless (t :: s) ->
  returns (ie1_unmarshal k m (t :: s)) /\ forall i, ie1_unmarshal k m (t :: s) = Ok i -> exists n, ie1_len m i = Ok n /\ (2 <= n)%nat.
Proof. exact element_fine. Qed.
Print Assumptions C50_element_partial.
(* Full statement: for every [b]. What holds: if the extension headers form a chain, what could be
   the start of an element is harmless, and no length comes near the limits. *)
Theorem C50_message_partial : forall code L T m b, In (code, L, T) messages1 ->
  good_chain b -> declared (skipn 1 b) <= 65527 -> (forall p, (8 <= p)%nat -> harmless (skipn p b)) ->
  (m = Debug -> (length b <= 518)%nat) ->
  (L = UpdatePDPContextRequest_L -> forall p, (8 <= p)%nat -> nth_error b p = Some 133 -> gsn_shaped (skipn p b)) ->
  returns (msg1_unmarshal T m b).
Proof.
  intros code L T m b Hin Hc Hl Hh Hd Hg. apply (msg1_returns code L T (messages1_checked _ _ _ Hin) m b Hh Hd); [|exact Hc|exact Hl].
  intros a Ha Ea. cbn [messages1 In] in Hin.
  repeat (destruct Hin as [E|Hin]; [injection E as <- <- <-;
    first [ split; [|exact (Hg eq_refl)]; cbn [t_arms UpdatePDPContextRequest_T In] in Ha;
            repeat (destruct Ha as [<-|Ha]; [first [discriminate Ea|reflexivity]|]); contradiction Ha
          | exfalso; revert Ha Ea; cbn [t_arms In]; intros Ha Ea; repeat (destruct Ha as [<-|Ha]; [discriminate Ea|]); contradiction Ha ]|]).
  contradiction.
Qed.
Print Assumptions C50_message_partial.
Theorem C50_others_partial : forall m b, good_chain b ->
  returns (Vns_unmarshal m b) /\
  ((length b = 8 \/ 12 <= length b)%nat -> (forall p, (8 <= p)%nat -> pe_place (skipn p b)) -> returns (CEchoReq_unmarshal m b)) /\
  ((forall p, (8 <= p)%nat -> pe_place (skipn p b)) -> returns (CEchoResp_unmarshal m b)) /\
  (declared (skipn 1 b) <= 65527 -> (length b = 8 \/ 12 <= length b)%nat ->
   (forall p, (8 <= p)%nat -> nth_error b p = Some 141 -> exists l, nth_error b (p + 1) = Some l /\ l <= 253) -> returns (CSup_unmarshal m b)).
Proof.
  intros m b Hc. split; [apply vns_returns, Hc|]. split; [intros; apply cecho_req_returns; assumption|].
  split; [intros; apply cecho_resp_returns; assumption|intros; apply csup_returns; assumption].
Qed.
Print Assumptions C50_others_partial.
(* a packet that meets every condition: cause, TEID, end user address, access point name *)
Definition harmless_packet : list N :=
  [48; 29; 0; 20; 0; 0; 0; 1; 1; 128; 17; 0; 0; 0; 9; 128; 0; 2; 241; 33; 131; 0; 5; 2; 110; 101; 1; 116].
Lemma harmless_low t s : t < 128 -> harmless (t :: s).
Proof. intros H. cbn [harmless]. repeat split; intros; lia. Qed.
Example C50_harmless_case : (forall p, (8 <= p)%nat -> harmless (skipn p harmless_packet)) /\ good_chain harmless_packet /\
  exists x, msg1_unmarshal PDUNotificationRejectRequest_T Debug harmless_packet = Ok x.
Proof.
  split; [|split; [intros b0 H Hb; vm_compute in H; injection H as <-; discriminate Hb|eexists; vm_compute; reflexivity]].
  intros p Hp. do 8 (destruct p as [|p]; [lia|]). clear Hp. unfold harmless_packet. cbn [skipn].
  let rec walk n := match n with 0%nat => idtac | S ?k => destruct p as [|p]; [cbn [skipn]; try (apply harmless_low; lia)|cbn [skipn]; walk k] end in walk 20%nat.
  all: try (destruct p; exact I).
  all: cbn; repeat split; intros; try lia.
  exists [[110; 101]; [116]]. reflexivity.
Qed.
Example C50_case : let b := msg1_marshal sample_create [] in
  good_chain b /\ declared (skipn 1 b) <= 65527 /\ (length b <= 518)%nat.
Proof.
  split; [|split; [vm_compute; discriminate|vm_compute; lia]]. intros b0 H Hb. vm_compute in H. injection H as <-. discriminate Hb.
Qed.
(* Each of these packets crashes the decoder in debug and in release builds. *)
Definition crashes {A} (f : mode -> list N -> res A) (b : list N) : Prop := bytes b /\ forall m, f m b = Panic.
Theorem C50_crashes_refuted :
  (* echo request: sequence number flag with two octets *)
  crashes CEchoReq_unmarshal [50; 1; 0; 4; 0; 0; 0; 0; 1; 2] /\
  (* extension header flag, nothing after the last extension header *)
  crashes chdr_unmarshal [52; 16; 0; 8; 0; 0; 0; 0; 0; 0; 0; 192; 1; 0; 0] /\
  (* end user address that ends after one octet *)
  crashes (msg1_unmarshal PDUNotificationRequest_T) [48; 27; 0; 4; 0; 0; 0; 1; 128; 0; 1; 241] /\
  (* access point name with a label that is too long *)
  crashes (msg1_unmarshal PDUNotificationRequest_T) [48; 27; 0; 5; 0; 0; 0; 1; 131; 0; 2; 9; 65] /\
  (* MSISDN of one octet *)
  crashes (msg1_unmarshal CreatePDPContextRequest_T) [48; 16; 0; 4; 0; 0; 0; 1; 134; 0; 1; 145] /\
  (* back-off time that ends after its length *)
  crashes (msg1_unmarshal CreatePDPContextResponse_T) [48; 17; 0; 3; 0; 0; 0; 1; 202; 0; 1] /\
  (* private extension that ends after one octet *)
  crashes (msg1_unmarshal DeletePDPContextResponse_T) [48; 21; 0; 4; 0; 0; 0; 1; 255; 0; 1; 9] /\
  (* SGSN address of five octets *)
  crashes (msg1_unmarshal UpdatePDPContextRequest_T) [48; 18; 0; 8; 0; 0; 0; 1; 133; 0; 5; 1; 2; 3; 4; 5].
Proof. repeat (split; [split; [repeat constructor|intros []; vm_compute; reflexivity]|]). split; [repeat constructor|intros []; vm_compute; reflexivity]. Qed.
Print Assumptions C50_crashes_refuted.
(* In debug builds a large length, of the message or an element, does as well. *)
Theorem C50_debug_overflow_refuted :
  msg1_unmarshal DeletePDPContextResponse_T Debug [48; 21; 255; 248; 0; 0; 0; 1] = Panic /\
  msg1_unmarshal DeletePDPContextResponse_T Debug [48; 21; 0; 4; 0; 0; 0; 1; 132; 255; 253; 0] = Panic.
Proof. split; vm_compute; reflexivity. Qed.
Print Assumptions C50_debug_overflow_refuted.

(* ----- C51: termination -------------------------------------------------------------------------------------- *)
Theorem C51_header_debug : forall b, chdr_unmarshal Debug b <> Diverge.
Proof. exact chdr_debug_terminates. Qed.
Print Assumptions C51_header_debug.
Theorem C51_message_debug : forall T b, msg1_unmarshal T Debug b <> Diverge.
Proof. intros T b. apply msg1_terminates; [exact (chdr_debug_terminates b)|left; reflexivity]. Qed.
Print Assumptions C51_message_debug.
Theorem C51_others_debug : forall b, Vns_unmarshal Debug b <> Diverge /\ CEchoReq_unmarshal Debug b <> Diverge /\
  CEchoResp_unmarshal Debug b <> Diverge /\ CSup_unmarshal Debug b <> Diverge.
Proof. intros b. apply four_terminate. exact (chdr_debug_terminates b). Qed.
Print Assumptions C51_others_debug.
(* Full statement: the above in release builds. What holds: if the extension headers form a chain
   and no length is above 65532. *)
Theorem C51_message_release_partial : forall T b, good_chain b -> (forall p, (8 <= p)%nat -> declared (skipn p b) <= 65532) ->
  msg1_unmarshal T Release b <> Diverge.
Proof.
  intros T b Hc Hl. apply msg1_terminates; [|right; exact Hl]. intros E. pose proof (chdr_returns Release b Hc) as H. rewrite E in H. exact H.
Qed.
Print Assumptions C51_message_release_partial.
Theorem C51_others_release_partial : forall b, good_chain b ->
  Vns_unmarshal Release b <> Diverge /\ CEchoReq_unmarshal Release b <> Diverge /\
  CEchoResp_unmarshal Release b <> Diverge /\ CSup_unmarshal Release b <> Diverge.
Proof. intros b Hc. apply four_terminate. intros E. pose proof (chdr_returns Release b Hc) as H. rewrite E in H. exact H. Qed.
Print Assumptions C51_others_release_partial.
(* Release builds: extended common flags with length 65533 are never left, however many
   iterations one waits for. *)
Definition endless_flags : list N := [48; 20; 0; 4; 0; 0; 0; 1; 193; 255; 253; 0].
Theorem C51_endless_loop_refuted : bytes endless_flags /\ msg1_unmarshal DeletePDPContextRequest_T Release endless_flags = Diverge /\
  forall fuel inc c fs, inc <= 193 -> msg1_loop DeletePDPContextRequest_T Release fuel endless_flags 8 inc c fs = Diverge.
Proof.
  split; [repeat constructor|]. split; [vm_compute; reflexivity|]. induction fuel as [|fuel IH]; intros inc c fs Hi; [reflexivity|]. cbn [msg1_loop].
  change (length endless_flags <=? 8)%nat with false. cbv iota. change (at_ endless_flags 8) with (@Ok GTPV1Error _ 193). cbn [bind].
  destruct (N.ltb_spec 193 inc); [lia|].
  destruct (find_arm (t_arms DeletePDPContextRequest_T) 193) as [a|] eqn:Ea; [|discriminate Ea].
  assert (Ek : a_kind a = K1_ExtCommonFlags) by (vm_compute in Ea; injection Ea as <-; reflexivity). rewrite Ek. clear Ek.
  change (slice_from endless_flags 8) with (@Ok GTPV1Error _ [193; 255; 253; 0]). cbn [bind].
  replace (ie1_unmarshal K1_ExtCommonFlags Release [193; 255; 253; 0])
    with (@Ok GTPV1Error _ (I1_ExtCommonFlags (mkTlv 193 65533 [false; false; false; false; false; false; false; false]))) by (vm_compute; reflexivity).
  assert (Hn : exists n, next_count Release (c 193) = Ok n).
  { destruct (c 193) as [n|]; cbn [next_count]; eauto. unfold add8, ov. destruct (_ <? _); eauto. }
  destruct Hn as (n & ->). cbn [bind].
  replace (ie1_len Release (I1_ExtCommonFlags (mkTlv 193 65533 [false; false; false; false; false; false; false; false])))
    with (@Ok GTPV1Error _ 0%nat) by (vm_compute; reflexivity).
  cbn [bind]. rewrite Nat.add_0_r. apply IH. lia.
Qed.
Print Assumptions C51_endless_loop_refuted.
(* Release builds: an extension header of length 64 is never left. *)
Definition endless_ext : list N := [192; 64; 0; 0].
Theorem C51_endless_extension_refuted : bytes endless_ext /\
  chdr_unmarshal Release ([52; 16; 0; 8; 0; 0; 0; 0; 0; 0; 0] ++ endless_ext) = Diverge /\
  forall fuel data, cext_loop Release fuel endless_ext 0 data = Diverge.
Proof.
  split; [repeat constructor|]. split; [vm_compute; reflexivity|]. induction fuel as [|fuel IH]; intros data; [reflexivity|]. cbn [cext_loop].
  change (slice_from endless_ext 0) with (@Ok GTPV1Error _ [192; 64; 0; 0]). cbn [bind].
  replace (cext_unmarshal Release [192; 64; 0; 0]) with (@Ok GTPV1Error _ (CX_PDCPPDUNumber (mkNumExt 192 64 0))) by (vm_compute; reflexivity).
  cbn [bind cext_len ne_length]. replace (ext_len_of Release 64) with (@Ok GTPV1Error _ 0%nat) by (vm_compute; reflexivity).
  cbn [bind Nat.add]. apply IH.
Qed.
Print Assumptions C51_endless_extension_refuted.

(* ----- C52: the length field of an encoded message -------------------------------------------------------------- *)
Lemma set_length_field b : (4 <= length b)%nat -> nlen b - 8 < 65536 ->
  exists a c r, set_length b = a :: c :: (nlen b - 8) / 256 :: (nlen b - 8) mod 256 :: r.
Proof.
  intros H4 Hn. unfold set_length. rewrite (N.mod_small (nlen b - 8) 65536) by exact Hn.
  assert (E : ((nlen b - 8) / 256) mod 256 = (nlen b - 8) / 256) by (apply N.mod_small, N.div_lt_upper_bound; lia). rewrite E.
  set (x := (nlen b - 8) / 256). set (y := (nlen b - 8) mod 256). clearbody x y.
  destruct b as [|a [|c [|d [|e r]]]]; cbn [length] in H4; try lia. cbn [set_nth]. eauto.
Qed.
Theorem C52_length_field : forall x, nlen (msg1_marshal x []) - 8 < 65536 -> exists a c r,
  msg1_marshal x [] = a :: c :: (nlen (msg1_marshal x []) - 8) / 256 :: (nlen (msg1_marshal x []) - 8) mod 256 :: r.
Proof.
  intros x H. assert (E : nlen (msg1_marshal x []) = nlen (msg1_octets x)) by (unfold msg1_marshal, nlen; rewrite set_length_len; reflexivity).
  rewrite E in *. unfold msg1_marshal. cbn [app]. apply set_length_field; [|exact H].
  unfold msg1_octets. rewrite app_length. pose proof (chdr_marshal_ge8 (m_header x)). lia.
Qed.
Print Assumptions C52_length_field.
Theorem C52_length_field_others :
  (forall h, let b := Vns_marshal h [] in nlen b - 8 < 65536 -> exists a c r, b = a :: c :: (nlen b - 8) / 256 :: (nlen b - 8) mod 256 :: r) /\
  (forall x, let b := CEchoReq_marshal x [] in nlen b - 8 < 65536 -> exists a c r, b = a :: c :: (nlen b - 8) / 256 :: (nlen b - 8) mod 256 :: r) /\
  (forall x, let b := CEchoResp_marshal x [] in nlen b - 8 < 65536 -> exists a c r, b = a :: c :: (nlen b - 8) / 256 :: (nlen b - 8) mod 256 :: r) /\
  (forall x, let b := CSup_marshal x [] in nlen b - 8 < 65536 -> exists a c r, b = a :: c :: (nlen b - 8) / 256 :: (nlen b - 8) mod 256 :: r).
Proof.
  assert (H : forall h p, let b := set_length (chdr_marshal h ++ p) in nlen b - 8 < 65536 ->
    exists a c r, b = a :: c :: (nlen b - 8) / 256 :: (nlen b - 8) mod 256 :: r).
  { intros h p. cbn zeta. assert (E : nlen (set_length (chdr_marshal h ++ p)) = nlen (chdr_marshal h ++ p)) by (unfold nlen; rewrite set_length_len; reflexivity).
    rewrite E. intros Hn. apply set_length_field; [|exact Hn]. rewrite app_length. pose proof (chdr_marshal_ge8 h). lia. }
  split; [|split; [|split]]; intros x; cbn zeta.
  - unfold Vns_marshal. cbn [app]. rewrite <- (app_nil_r (chdr_marshal x)). apply H.
  - apply H.
  - apply H.
  - apply H.
Qed.
Print Assumptions C52_length_field_others.
Example C52_case : nlen (msg1_marshal sample_create []) = 108 /\ firstn 4 (msg1_marshal sample_create []) = [50; 16; 0; 100].
Proof. split; vm_compute; reflexivity. Qed.

(* ----- C53: message types ---------------------------------------------------------------------------------------- *)
(* The decoder of each message wants the type that TS 29.060 table 1 gives it, ... *)
Theorem C53_type_codes : forall code L T m b x, In (code, L, T) messages1 -> msg1_unmarshal T m b = Ok x -> nth_error b 1 = Some code.
Proof.
  intros code L T m b x Hin Hok. destruct (msg1_accepted code L T (messages1_checked _ _ _ Hin) m b x Hok) as (n & l & Hh & Ht & _).
  destruct (chdr_inv m b _ Hh) as (b0 & l1 & l2 & t1 & t2 & t3 & t4 & r & -> & _). cbn. rewrite Ht. reflexivity.
Qed.
Print Assumptions C53_type_codes.
Theorem C53_type_codes_others : forall m b,
  (forall x, Vns_unmarshal m b = Ok x -> nth_error b 1 = Some 3) /\ (forall x, CEchoReq_unmarshal m b = Ok x -> nth_error b 1 = Some 1) /\
  (forall x, CEchoResp_unmarshal m b = Ok x -> nth_error b 1 = Some 2) /\ (forall x, CSup_unmarshal m b = Ok x -> nth_error b 1 = Some 31).
Proof.
  intros m b. assert (H : forall h c, chdr_unmarshal m b = Ok h -> c_msgtype h = c -> nth_error b 1 = Some c).
  { intros h c Hh <-. destruct (chdr_inv m b _ Hh) as (b0 & l1 & l2 & t1 & t2 & t3 & t4 & r & -> & _). reflexivity. }
  repeat split; intros x Hx.
  - apply vns_accepted in Hx as [Hh Ht]. eauto.
  - apply cecho_req_accepted in Hx as [Hh Ht]. eauto.
  - apply cecho_resp_accepted in Hx as (Hh & Ht & _). eauto.
  - apply csup_accepted in Hx as (Hh & Ht & _). eauto.
Qed.
Print Assumptions C53_type_codes_others.
(* ... so no packet is accepted as two messages of different type. *)
Theorem C53_types_exclusive : forall c1 L1 T1 c2 L2 T2 m b x y, In (c1, L1, T1) messages1 -> In (c2, L2, T2) messages1 ->
  msg1_unmarshal T1 m b = Ok x -> msg1_unmarshal T2 m b = Ok y -> c1 = c2.
Proof.
  intros c1 L1 T1 c2 L2 T2 m b x y H1 H2 Hx Hy. pose proof (C53_type_codes _ _ _ _ _ _ H1 Hx) as E1. pose proof (C53_type_codes _ _ _ _ _ _ H2 Hy) as E2. congruence.
Qed.
Print Assumptions C53_types_exclusive.

(* ----- C15: encoding into a buffer that already holds octets -------------------------------------------------------- *)
Theorem C15_gtpc_appends_partial : forall x buffer i, i <> 2%nat -> i <> 3%nat ->
  nth_error (msg1_marshal x buffer) i = nth_error (buffer ++ msg1_octets x) i.
Proof. intros x buffer i H2 H3. unfold msg1_marshal. apply set_length_other; assumption. Qed.
Print Assumptions C15_gtpc_appends_partial.
(* Full statement: msg1_marshal x buffer = buffer ++ msg1_marshal x []. False for every message
   and every buffer of four octets or more with other third and fourth octets. *)
Theorem C15_gtpc_appends_refuted : forall x a b rest, nlen (a :: b :: 255 :: 255 :: rest ++ msg1_octets x) - 8 < 65535 ->
  msg1_marshal x (a :: b :: 255 :: 255 :: rest) <> (a :: b :: 255 :: 255 :: rest) ++ msg1_marshal x [].
Proof.
  intros x a b rest Hn E. unfold msg1_marshal in E at 1.
  assert (Hn' : nlen ((a :: b :: 255 :: 255 :: rest) ++ msg1_octets x) - 8 < 65536) by (cbn [app]; lia).
  destruct (set_length_field ((a :: b :: 255 :: 255 :: rest) ++ msg1_octets x)) as (u & v & r & Es); [cbn [app length]; lia|exact Hn'|].
  rewrite Es in E. cbn [app] in E. injection E as _ _ E1 E2 _. cbn [app] in E1, E2.
  remember (nlen (a :: b :: 255 :: 255 :: rest ++ msg1_octets x) - 8) as k eqn:Ek.
  pose proof (N.div_mod k 256 ltac:(lia)). lia.
Qed.
Print Assumptions C15_gtpc_appends_refuted.

(* ----- C59: the MS time zone ------------------------------------------------------------------ *)
(* TS 29.060 7.7.52 takes the octet from TS 23.040 9.2.3.11: quarters of an hour as two decimal digits, the units
   in the upper half, sign and tens in the lower half. Of the zones the standard can express, +13:15, -02:00 and
   0 are the only ones sent so. *)
Definition zone1_std (z : Z) : N :=
  16 * (Z.to_N (Z.abs z) mod 10) + (if (z <? 0)%Z then 8 else 0) + Z.to_N (Z.abs z) / 10.
Lemma zone1_sweep : forallb (fun a =>
  Bool.eqb (0 + a =? 16 * (a mod 10) + 0 + a / 10) ((a =? 0) || (a =? 53)) &&
  Bool.eqb (128 + a =? 16 * (a mod 10) + 8 + a / 10) (a =? 8)) (upto 80) = true.
Proof. vm_compute. reflexivity. Qed.
Theorem C59_gtpv1_time_zone_refuted : forall x, wf_ie1 (I1_Tz x) -> (-79 <= tz_zone (tlv_v x) <= 79)%Z ->
  (ie1_marshal (I1_Tz x) = [153; 0; 2; zone1_std (tz_zone (tlv_v x)); tz_dst (tlv_v x)]
   <-> tz_zone (tlv_v x) = 0%Z \/ tz_zone (tlv_v x) = 53%Z \/ tz_zone (tlv_v x) = (-8)%Z).
Proof.
  intros x W Hz. rewrite C41_element_octets by exact W. destruct W as (Ht & _). cbn [ie1_t]. rewrite Ht.
  unfold ie1_wire. cbn [ie1_value]. cbv zeta. unfold zone1_std. set (z := tz_zone (tlv_v x)) in *. set (a := Z.to_N (Z.abs z)).
  assert (A : a < 80) by (subst a; lia). pose proof (sweep 80 _ zone1_sweep a A) as S. cbv beta in S.
  apply andb_true_iff in S. destruct S as [S1 S2]. apply Bool.eqb_prop in S1, S2.
  assert (E : forall p q d, [153; 0; 2; p; d] = [153; 0; 2; q; d] <-> (p =? q) = true).
  { intros p q d. rewrite N.eqb_eq. split; [intros X; injection X; auto|intros ->; reflexivity]. }
  match goal with |- ?l = _ <-> _ => match l with context[[?p; tz_dst (tlv_v x)]] => change l with [153; 0; 2; p; tz_dst (tlv_v x)] end end.
  rewrite E. destruct (Z.ltb_spec z 0).
  - rewrite S2, N.eqb_eq. subst a. lia.
  - rewrite S1, orb_true_iff, !N.eqb_eq. subst a. lia.
Qed.
Print Assumptions C59_gtpv1_time_zone_refuted.
Example C59_gtpv1_witness : wf_ie1 (I1_Tz (mkTlv 153 2 (mkTz 4 1))) /\
  ie1_marshal (I1_Tz (mkTlv 153 2 (mkTz 4 1))) = [153; 0; 2; 4; 1] /\ zone1_std 4 = 64.
Proof. split; [|split; vm_compute; reflexivity]. repeat split; vm_compute; try reflexivity; try discriminate. Qed.
