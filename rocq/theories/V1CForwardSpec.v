(* V1CForwardSpec.v - forwarding of received GTPv1-C elements and messages: a gateway decodes a packet and
   sends what it decoded. *)
From Verif Require Import Base Octets Labels.
From Verif Require Export V1CMsgReadSpec.
Local Open Scope N_scope.

(* the value, with the number of octets it takes as its length *)
Definition with_size {A} (size : A -> N) (x : Tlv A) : Tlv A := mkTlv (tlv_t x) (size (tlv_v x)) (tlv_v x).
Definition with_true_length (i : ie1) : ie1 :=
  match i with
  | I1_Cause x => I1_Cause x
  | I1_Imsi x => I1_Imsi x
  | I1_Rai x => I1_Rai x
  | I1_Reordering x => I1_Reordering x
  | I1_Recovery x => I1_Recovery x
  | I1_SelectionMode x => I1_SelectionMode x
  | I1_Teid x => I1_Teid x
  | I1_Teardown x => I1_Teardown x
  | I1_Nsapi x => I1_Nsapi x
  | I1_ChargingChar x => I1_ChargingChar x
  | I1_TraceReference x => I1_TraceReference x
  | I1_TraceType x => I1_TraceType x
  | I1_ChargingId x => I1_ChargingId x
  | I1_Eua x => I1_Eua (with_size eua_size x)
  | I1_Apn x => I1_Apn (with_size name_size x)
  | I1_Pco x => I1_Pco (with_size nlen x)
  | I1_Gsn x => I1_Gsn (with_size ip_size x)
  | I1_Msisdn x => I1_Msisdn (with_size (fixed 9) x)
  | I1_Qos x => I1_Qos (with_size (fun v => 1 + nlen (qos_qos v)) x)
  | I1_Tft x => I1_Tft (with_size nlen x)
  | I1_TriggerId x => I1_TriggerId (with_size nlen x)
  | I1_OmcId x => I1_OmcId (with_size nlen x)
  | I1_CommonFlags x => I1_CommonFlags (with_size (fixed 1) x)
  | I1_ApnRestriction x => I1_ApnRestriction (with_size (fixed 1) x)
  | I1_RatType x => I1_RatType (with_size (fixed 1) x)
  | I1_Uli x => I1_Uli (with_size (fixed 8) x)
  | I1_Tz x => I1_Tz (with_size (fixed 2) x)
  | I1_Imei x => I1_Imei (with_size (fixed 8) x)
  | I1_Camel x => I1_Camel (with_size nlen x)
  | I1_Ati x => I1_Ati (with_size (fixed 9) x)
  | I1_MsInfoChange x => I1_MsInfoChange (with_size (fixed 1) x)
  | I1_DirectTunnel x => I1_DirectTunnel (with_size (fixed 1) x)
  | I1_CorrelationId x => I1_CorrelationId (with_size (fixed 1) x)
  | I1_BearerControlMode x => I1_BearerControlMode (with_size (fixed 1) x)
  | I1_Earp x => I1_Earp (with_size (fixed 1) x)
  | I1_ExtCommonFlags x => I1_ExtCommonFlags (with_size (fixed 1) x)
  | I1_Uci x => I1_Uci (with_size (fixed 8) x)
  | I1_CsgInfo x => I1_CsgInfo (with_size (fixed 1) x)
  | I1_Ambr x => I1_Ambr (with_size (fixed 8) x)
  | I1_Backoff x => I1_Backoff (with_size (fixed 1) x)
  | I1_Spi x => I1_Spi (with_size (fixed 1) x)
  | I1_UliTs x => I1_UliTs (with_size (fixed 4) x)
  | I1_Cnose x => I1_Cnose (with_size (fixed 1) x)
  | I1_ExtCommonFlagsII x => I1_ExtCommonFlagsII (with_size (fixed 1) x)
  | I1_Mueut x => I1_Mueut (with_size (fixed 2) x)
  | I1_Upfsif x => I1_Upfsif (with_size (fixed 1) x)
  | I1_ChargingGw x => I1_ChargingGw (with_size ip_size x)
  | I1_Pe x => I1_Pe (with_size (fun v => 2 + nlen (pev_value v)) x)
  end.

(* The received values that this sender can send again: numbers of fifteen or sixteen digits, CSG IDs of
   27 bits, names of ASCII characters, and private extensions that fit the length field. *)
Definition resendable (i : ie1) : Prop :=
  match i with
  | I1_Imsi x => 15 <= nlen (tv_v x)
  | I1_Imei x => 15 <= nlen (tlv_v x)
  | I1_Msisdn x => 15 <= nlen (ms_digits (tlv_v x))
  | I1_Uci x => uci_csgid (tlv_v x) < 134217728
  | I1_Apn x => Forall (fun c => c < 128) (tlv_v x)
  | I1_Pe x => 2 + nlen (pev_value (tlv_v x)) <= 65532
  | _ => True
  end.
(* the extension headers of a known type have one unit of four octets *)
Definition resendable_ext (e : CExt) : Prop :=
  match e with
  | CX_NoMore => False
  | CX_PDCPPDUNumber x | CX_SuspendRequest x | CX_SuspendResponse x | CX_MBMSSupportIndication x | CX_MSInfoChangeReporting x => ne_length x = 1
  | CX_Unknown _ => True
  end.
Definition resendable_header (h : CHdr) : Prop := forall xs, c_ext h = Some xs -> Forall resendable_ext xs.
Definition resendable_message (x : Msg1) : Prop :=
  resendable_header (m_header x) /\ (forall i, In (Some i) (m_fields x) -> resendable i) /\
  ~ has_code1 x 149 /\ (has_code1 x 251 -> forall t, 148 <= t <= 218 -> ~ has_code1 x t).
(* the message with the lengths of what it says *)
Definition with_true_lengths (x : Msg1) : Msg1 :=
  mkMsg1 (m_header x) (map (option_map with_true_length) (m_fields x)).
