(* V1CMsgSpec.v - what a user relies on in the GTPv1-C messages, stated without the message
   codec: the elements of every message (TS 29.060 7.2-7.5) and what it means that a packet
   carries them. *)
From Verif Require Import Base.
From Verif Require Export V1CSpec.
From Coq Require Import String Sorted.
Local Open Scope N_scope.

(* A field of a message struct: its name, the type code of its element, and whether the
   specification makes it mandatory. Fields are listed in struct order. *)
Record field1 := mkField1 { f_name : string; f_code : N; f_mandatory : bool }.
Notation M name code := (mkField1 name code true).
Notation O name code := (mkField1 name code false).
Local Open Scope string_scope.

Definition CreatePDPContextRequest_L : list field1 :=
  [ O "imsi" 2; O "rai" 3; O "recovery" 14; O "selectionmode" 15; M "teid_data" 16
  ; O "teid_control" 17; M "nsapi" 20; O "linked_nsapi" 20; O "charging_char" 26
  ; O "trace_ref" 27; O "trace_type" 28; O "end_user_address" 128; O "apn" 131; O "pco" 132
  ; M "sgsn_ip_control" 133; M "sgsn_ip_user" 133; O "msisdn" 134; M "qos" 135; O "tft" 137
  ; O "trigger_id" 142; O "omc_id" 143; O "common_flags" 148; O "apn_restriction" 149
  ; O "rat_type" 151; O "uli" 152; O "ms_timezone" 153; O "imei" 154; O "camel_cic" 155
  ; O "add_trace_info" 162; O "correlation_id" 183; O "evolved_alloc" 191
  ; O "ext_common_flags" 193; O "user_csg_info" 194; O "apn_ambr" 198; O "signalling_prio" 203
  ; O "cnose" 216; O "mapped_ue_usage_type" 223; O "up_func_selection_flags" 224
  ; O "private_extension" 255 ].
Definition CreatePDPContextResponse_L : list field1 :=
  [ M "cause" 1; O "reordering_req" 8; O "recovery" 14; O "teid_data" 16; O "teid_control" 17
  ; O "nsapi" 20; O "charging_id" 127; O "end_user_address" 128; O "pco" 132
  ; O "ggsn_ip_control" 133; O "ggsn_ip_user" 133; O "alt_ggsn_ip_control" 133
  ; O "alt_ggsn_ip_user" 133; O "qos" 135; O "charging_gw_addr" 251
  ; O "alt_charging_gw_addr" 251; O "common_flags" 148; O "apn_restriction" 149
  ; O "ms_info_change" 181; O "bearer_ctrl_mode" 184; O "evolved_alloc" 191
  ; O "ext_common_flags" 193; O "csg_info_report" 195; O "apn_ambr" 198
  ; O "ggsn_backoff_time" 202; O "ext_common_flags_ii" 218; O "private_extension" 255 ].
Definition UpdatePDPContextRequest_L : list field1 :=
  [ O "imsi" 2; O "rai" 3; O "recovery" 14; M "teid_data" 16; O "teid_control" 17; M "nsapi" 20
  ; O "trace_ref" 27; O "trace_type" 28; O "pco" 132; M "sgsn_ip_control" 133
  ; M "sgsn_ip_user" 133; O "alt_sgsn_ip_control" 133; O "alt_sgsn_ip_user" 133; M "qos" 135
  ; O "tft" 137; O "trigger_id" 142; O "omc_id" 143; O "common_flags" 148; O "rat_type" 151
  ; O "uli" 152; O "ms_timezone" 153; O "imei" 154; O "add_trace_info" 162; O "dtf" 182
  ; O "evolved_alloc" 191; O "ext_common_flags" 193; O "user_csg_info" 194; O "apn_ambr" 198
  ; O "signalling_prio" 203; O "cnose" 216; O "private_extension" 255 ].
Definition UpdatePDPContextRequestGGSN_L : list field1 :=
  [ O "imsi" 2; O "recovery" 14; M "nsapi" 20; O "end_user_address" 128; O "pco" 132; O "qos" 135
  ; O "tft" 137; O "common_flags" 148; O "apn_restriction" 149; O "ms_info_change" 181
  ; O "dtf" 182; O "bearer_ctrl_mode" 184; O "evolved_alloc" 191; O "ext_common_flags" 193
  ; O "user_csg_info" 195; O "apn_ambr" 198; O "private_extension" 255 ].
Definition UpdatePDPContextResponse_L : list field1 :=
  [ M "cause" 1; O "recovery" 14; O "teid_data" 16; O "teid_control" 17; O "charging_id" 127
  ; O "pco" 132; O "ggsn_ip_control" 133; O "ggsn_ip_user" 133; O "alt_ggsn_ip_control" 133
  ; O "alt_ggsn_ip_user" 133; O "qos" 135; O "charging_gw_addr" 251
  ; O "alt_charging_gw_addr" 251; O "common_flags" 148; O "apn_restriction" 149
  ; O "ms_info_change" 181; O "bearer_ctrl_mode" 184; O "evolved_alloc" 191
  ; O "csg_info_report" 195; O "apn_ambr" 198; O "private_extension" 255 ].
Definition UpdatePDPContextResponseGGSN_L : list field1 :=
  [ M "cause" 1; O "recovery" 14; O "teid_data" 16; O "pco" 132; O "sgsn_ip_user" 133; O "qos" 135
  ; O "uli" 152; O "ms_timezone" 153; O "dtf" 182; O "evolved_alloc" 191; O "apn_ambr" 198
  ; O "private_extension" 255 ].
Definition DeletePDPContextRequest_L : list field1 :=
  [ O "cause" 1; O "teardown" 19; M "nsapi" 20; O "pco" 132; O "uli" 152; O "ms_timezone" 153
  ; O "ext_common_flags" 193; O "uli_timestamp" 214; O "private_extension" 255 ].
Definition DeletePDPContextResponse_L : list field1 :=
  [ M "cause" 1; O "pco" 132; O "uli" 152; O "ms_timezone" 153; O "uli_timestamp" 214
  ; O "private_extension" 255 ].
Definition InitiatePDPContextActivationRequest_L : list field1 :=
  [ M "linked_nsapi" 20; O "pco" 132; M "qos" 135; O "tft" 137; M "correlation_id" 183
  ; O "evolved_alloc" 191; O "private_extension" 255 ].
Definition InitiatePDPContextActivationResponse_L : list field1 :=
  [ M "cause" 1; O "pco" 132; O "private_extension" 255 ].
Definition PDUNotificationRequest_L : list field1 :=
  [ M "imsi" 2; M "teid_control" 17; M "end_user_address" 128; M "apn" 131; O "pco" 132
  ; M "ggsn_ip_control" 133; O "private_extension" 255 ].
Definition PDUNotificationResponse_L : list field1 :=
  [ M "cause" 1; O "private_extension" 255 ].
Definition PDUNotificationRejectRequest_L : list field1 :=
  [ M "cause" 1; M "teid_control" 17; M "end_user_address" 128; M "apn" 131; O "pco" 132
  ; O "private_extension" 255 ].
Definition PDUNotificationRejectResponse_L : list field1 :=
  [ M "cause" 1; O "private_extension" 255 ].
Definition MSInfoChangeNotificationRequest_L : list field1 :=
  [ O "imsi" 2; O "linked_nsapi" 20; M "rat_type" 151; O "uli" 152; O "imei" 154
  ; O "ext_common_flags" 193; O "user_csg_info" 194; O "private_extension" 255 ].
Definition MSInfoChangeNotificationResponse_L : list field1 :=
  [ M "cause" 1; O "imsi" 2; O "linked_nsapi" 20; O "imei" 154; O "ms_info_change" 181
  ; O "csg_info_report" 195; O "private_extension" 255 ].

Definition messages1 : list (N * list field1 * table1) :=
  [ (16, CreatePDPContextRequest_L, CreatePDPContextRequest_T)
  ; (17, CreatePDPContextResponse_L, CreatePDPContextResponse_T)
  ; (18, UpdatePDPContextRequest_L, UpdatePDPContextRequest_T)
  ; (18, UpdatePDPContextRequestGGSN_L, UpdatePDPContextRequestGGSN_T)
  ; (19, UpdatePDPContextResponse_L, UpdatePDPContextResponse_T)
  ; (19, UpdatePDPContextResponseGGSN_L, UpdatePDPContextResponseGGSN_T)
  ; (20, DeletePDPContextRequest_L, DeletePDPContextRequest_T)
  ; (21, DeletePDPContextResponse_L, DeletePDPContextResponse_T)
  ; (22, InitiatePDPContextActivationRequest_L, InitiatePDPContextActivationRequest_T)
  ; (23, InitiatePDPContextActivationResponse_L, InitiatePDPContextActivationResponse_T)
  ; (27, PDUNotificationRequest_L, PDUNotificationRequest_T)
  ; (28, PDUNotificationResponse_L, PDUNotificationResponse_T)
  ; (29, PDUNotificationRejectRequest_L, PDUNotificationRejectRequest_T)
  ; (30, PDUNotificationRejectResponse_L, PDUNotificationRejectResponse_T)
  ; (128, MSInfoChangeNotificationRequest_L, MSInfoChangeNotificationRequest_T)
  ; (129, MSInfoChangeNotificationResponse_L, MSInfoChangeNotificationResponse_T) ].

Local Open Scope N_scope.

(* ------------------------------------------------------------------------- *)
(* Values a sender may build *)

(* every field holds a well-formed element of its code; a mandatory one is there *)
Definition field_ok (f : field1) (v : option ie1) : Prop :=
  match v with
  | Some i => ie1_t i = f_code f /\ wf_ie1 i
  | None => f_mandatory f = false
  end.
(* of several fields with one code, the earlier ones are used first *)
Definition no_gap (L : list field1) (fs : list (option ie1)) : Prop :=
  forall i j f g x, (i < j)%nat -> nth_error L i = Some f -> nth_error L j = Some g -> f_code f = f_code g ->
    nth_error fs j = Some (Some x) -> nth_error fs i <> Some None.
Definition wf_msg1 (code : N) (L : list field1) (x : Msg1) : Prop :=
  c_msgtype (m_header x) = code /\ wf_chdr (m_header x) /\
  Forall2 field_ok L (m_fields x) /\ no_gap L (m_fields x).

(* the elements that are present, in struct order *)
Definition present (x : Msg1) : list ie1 :=
  flat_map (fun v => match v with Some i => [i] | None => [] end) (m_fields x).
Definition ascending (x : Msg1) : Prop := StronglySorted N.le (map ie1_t (present x)).
Definition has_code1 (x : Msg1) (t : N) : Prop := In t (map ie1_t (present x)).

(* ------------------------------------------------------------------------- *)
(* Packets *)

(* the element decoder for a type code *)
Definition code_kind (t : N) : option kind1 :=
  if t =? 1 then Some K1_Cause else if t =? 2 then Some K1_Imsi else if t =? 3 then Some K1_Rai
  else if t =? 8 then Some K1_Reordering else if t =? 14 then Some K1_Recovery
  else if t =? 15 then Some K1_SelectionMode else if t =? 16 then Some K1_Teid
  else if t =? 17 then Some K1_Teid else if t =? 19 then Some K1_Teardown
  else if t =? 20 then Some K1_Nsapi else if t =? 26 then Some K1_ChargingChar
  else if t =? 27 then Some K1_TraceReference else if t =? 28 then Some K1_TraceType
  else if t =? 127 then Some K1_ChargingId else if t =? 128 then Some K1_Eua
  else if t =? 131 then Some K1_Apn else if t =? 132 then Some K1_Pco
  else if t =? 133 then Some K1_Gsn else if t =? 134 then Some K1_Msisdn
  else if t =? 135 then Some K1_Qos else if t =? 137 then Some K1_Tft
  else if t =? 142 then Some K1_TriggerId else if t =? 143 then Some K1_OmcId
  else if t =? 148 then Some K1_CommonFlags else if t =? 149 then Some K1_ApnRestriction
  else if t =? 151 then Some K1_RatType else if t =? 152 then Some K1_Uli
  else if t =? 153 then Some K1_Tz else if t =? 154 then Some K1_Imei
  else if t =? 155 then Some K1_Camel else if t =? 162 then Some K1_Ati
  else if t =? 181 then Some K1_MsInfoChange else if t =? 182 then Some K1_DirectTunnel
  else if t =? 183 then Some K1_CorrelationId else if t =? 184 then Some K1_BearerControlMode
  else if t =? 191 then Some K1_Earp else if t =? 193 then Some K1_ExtCommonFlags
  else if t =? 194 then Some K1_Uci else if t =? 195 then Some K1_CsgInfo
  else if t =? 198 then Some K1_Ambr else if t =? 202 then Some K1_Backoff
  else if t =? 203 then Some K1_Spi else if t =? 214 then Some K1_UliTs
  else if t =? 216 then Some K1_Cnose else if t =? 218 then Some K1_ExtCommonFlagsII
  else if t =? 223 then Some K1_Mueut else if t =? 224 then Some K1_Upfsif
  else if t =? 251 then Some K1_ChargingGw else if t =? 255 then Some K1_Pe
  else None.

(* [reads m b p l]: from position [p] to the end of [b] there are the elements [l], each
   with its type octet, each decoded by the decoder of its type and as long as it says. *)
Inductive reads (m : mode) (b : list N) : nat -> list (N * ie1) -> Prop :=
| reads_end p : (List.length b <= p)%nat -> reads m b p []
| reads_more p t k i n l :
    nth_error b p = Some t -> code_kind t = Some k ->
    ie1_unmarshal k m (skipn p b) = Ok i -> ie1_len m i = Ok n ->
    reads m b (p + n) l -> reads m b p ((t, i) :: l).

(* the elements of type [t], in order *)
Definition occ (t : N) (l : list (N * ie1)) : list ie1 := map snd (filter (fun p => fst p =? t) l).
(* how many fields before the [j]th have code [t] *)
Definition rank (L : list field1) (t : N) (j : nat) : nat :=
  List.length (filter (fun f => f_code f =? t) (firstn j L)).

(* A field with code [t] that is the n-th of its code holds the n-th element of type [t];
   if there is none, an optional field is empty (a mandatory one keeps its default value). *)
Definition stored (L : list field1) (l : list (N * ie1)) (fs : list (option ie1)) : Prop :=
  List.length fs = List.length L /\
  forall j f, nth_error L j = Some f ->
    match nth_error (occ (f_code f) l) (rank L (f_code f) j) with
    | Some i => nth_error fs j = Some (Some i)
    | None => f_mandatory f = false -> nth_error fs j = Some None
    end.
