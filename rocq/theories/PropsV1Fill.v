(* PropsV1Fill.v - C100 for GTPv1-C: the length that a program puts into an element or a header does not change what is
   sent; the type is sent as given, except that of the restart counter. *)
From Verif Require Import Base BaseFacts V1U V1CHdr V1CIe V1CKind V1CMsg.
Local Open Scope N_scope.

(* The element with another number in its length field, if it has one. *)
Definition put_length1 {A} (n : N) (x : Tlv A) : Tlv A := mkTlv (tlv_t x) n (tlv_v x).
Definition with_length1 (n : N) (i : ie1) : ie1 :=
  match i with
  | I1_Cause x => I1_Cause x
  | I1_Imsi x => I1_Imsi x
  | I1_Rai x => I1_Rai x
  | I1_Reordering x => I1_Reordering x
  | I1_Recovery x => I1_Recovery x
  | I1_SelectionMode x => I1_SelectionMode x
  | I1_Teid x => I1_Teid x
  | I1_Teardown x => I1_Teardown x
  | I1_Nsapi x => I1_Nsapi x
  | I1_ChargingChar x => I1_ChargingChar x
  | I1_TraceReference x => I1_TraceReference x
  | I1_TraceType x => I1_TraceType x
  | I1_ChargingId x => I1_ChargingId x
  | I1_Eua x => I1_Eua (put_length1 n x)
  | I1_Apn x => I1_Apn (put_length1 n x)
  | I1_Pco x => I1_Pco (put_length1 n x)
  | I1_Gsn x => I1_Gsn (put_length1 n x)
  | I1_Msisdn x => I1_Msisdn (put_length1 n x)
  | I1_Qos x => I1_Qos (put_length1 n x)
  | I1_Tft x => I1_Tft (put_length1 n x)
  | I1_TriggerId x => I1_TriggerId (put_length1 n x)
  | I1_OmcId x => I1_OmcId (put_length1 n x)
  | I1_CommonFlags x => I1_CommonFlags (put_length1 n x)
  | I1_ApnRestriction x => I1_ApnRestriction (put_length1 n x)
  | I1_RatType x => I1_RatType (put_length1 n x)
  | I1_Uli x => I1_Uli (put_length1 n x)
  | I1_Tz x => I1_Tz (put_length1 n x)
  | I1_Imei x => I1_Imei (put_length1 n x)
  | I1_Camel x => I1_Camel (put_length1 n x)
  | I1_Ati x => I1_Ati (put_length1 n x)
  | I1_MsInfoChange x => I1_MsInfoChange (put_length1 n x)
  | I1_DirectTunnel x => I1_DirectTunnel (put_length1 n x)
  | I1_CorrelationId x => I1_CorrelationId (put_length1 n x)
  | I1_BearerControlMode x => I1_BearerControlMode (put_length1 n x)
  | I1_Earp x => I1_Earp (put_length1 n x)
  | I1_ExtCommonFlags x => I1_ExtCommonFlags (put_length1 n x)
  | I1_Uci x => I1_Uci (put_length1 n x)
  | I1_CsgInfo x => I1_CsgInfo (put_length1 n x)
  | I1_Ambr x => I1_Ambr (put_length1 n x)
  | I1_Backoff x => I1_Backoff (put_length1 n x)
  | I1_Spi x => I1_Spi (put_length1 n x)
  | I1_UliTs x => I1_UliTs (put_length1 n x)
  | I1_Cnose x => I1_Cnose (put_length1 n x)
  | I1_ExtCommonFlagsII x => I1_ExtCommonFlagsII (put_length1 n x)
  | I1_Mueut x => I1_Mueut (put_length1 n x)
  | I1_Upfsif x => I1_Upfsif (put_length1 n x)
  | I1_ChargingGw x => I1_ChargingGw (put_length1 n x)
  | I1_Pe x => I1_Pe (put_length1 n x)
  end.

(* Two elements that differ at most in their length fields; two messages that differ at most in those and in the length in
   the header. *)
Definition but_length1 (i i' : option ie1) : Prop :=
  match i, i' with Some i, Some i' => exists n, i' = with_length1 n i | None, None => True | _, _ => False end.
Definition but_lengths1 (x x' : Msg1) : Prop :=
  (exists n, m_header x' = mkCHdr (c_msgtype (m_header x)) n (c_teid (m_header x)) (c_sqn (m_header x)) (c_npdu (m_header x))
                                  (c_ext (m_header x))) /\
  Forall2 but_length1 (m_fields x) (m_fields x').

Theorem C100_v1_element_length : forall n i, ie1_marshal (with_length1 n i) = ie1_marshal i.
Proof. intros n i. destruct i as []. all: reflexivity. Qed.
Print Assumptions C100_v1_element_length.

Lemma but_length1_octets f f' : Forall2 but_length1 f f' ->
  concat (map (opt_bytes ie1_marshal) f') = concat (map (opt_bytes ie1_marshal) f).
Proof.
  induction 1 as [|i i' f f' H _ IH]; [reflexivity|]. cbn [map concat]. rewrite IH. f_equal.
  destruct i, i'; cbn [but_length1] in H; try contradiction; [|reflexivity]. destruct H as [n ->]. apply C100_v1_element_length.
Qed.

Theorem C100_v1_message : forall x x', but_lengths1 x x' -> msg1_marshal x' [] = msg1_marshal x [].
Proof.
  intros [h f] [h' f'] [[n E] F]. cbn [m_header m_fields] in *. subst h'. unfold msg1_marshal, msg1_octets. cbn [m_header m_fields].
  rewrite (but_length1_octets _ _ F). reflexivity.
Qed.
Print Assumptions C100_v1_message.

(* Every element is sent with the type in its type field, but the restart counter, always sent with its own type 14. *)
Theorem C100_v1_type_sent : forall i, nth 0 (ie1_marshal i) 0 = match i with I1_Recovery _ => 14 | _ => ie1_t i end.
Proof. intros i. destruct i as []. all: reflexivity. Qed.
Print Assumptions C100_v1_type_sent.

(* A delete response: cause 128 and a protocol configuration of two octets, with any lengths. *)
Example C100_v1_case : forall n k,
  msg1_marshal (mkMsg1 (mkCHdr 21 k 7 (Some 9) None None) [Some (I1_Cause (mkTv 1 128)); Some (I1_Pco (mkTlv 132 n [5; 6]))]) [] =
  [50; 21; 0; 11; 0; 0; 0; 7; 0; 9; 0; 0; 1; 128; 132; 0; 2; 5; 6].
Proof. intros n k. reflexivity. Qed.
