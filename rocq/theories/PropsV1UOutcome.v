(* PropsV1UOutcome.v - C98 for GTP-U: every octet string is either a message, or refused for a reason that its octets show, or
   fatal to the receiver, and never two of these (builds with overflow checks). What is a message is said with V1UWireSpec.v,
   what is refused or fatal with V1UErrSpec.v. *)
From Verif Require Import BaseFacts V1USpec V1UFacts V1USafety V1USafety2 V1USafety3 V1UWireSpec V1UErrSpec.
From Verif Require PropsV1UWire PropsV1UErr PropsV1COutcome.
From Coq Require Import Sorted.
Local Open Scope N_scope.
Notation one_outcome := PropsV1COutcome.one_outcome.
Notation refused_as := PropsV1UErr.refused_as.
Notation crashes_as := PropsV1UErr.crashes_as.

(* user data *)
Theorem C98_gpdu : forall b, bytes b -> one_outcome
  (fun x => exists h data rest, header_is b h (data ++ rest) /\ msgtype h = 255 /\ h_length h <= 65527 /\
     nlen b = 8 + h_length h + nlen rest /\ x = mkGpdu h data)
  (refused_as 255 (fun h _ e => e = MessageLengthError /\ h_length h <= 65527 /\ nlen b < h_length h + 8) b)
  (crashes_as 255 (fun h r => 65527 < h_length h \/ (h_length h + 8 <= nlen b /\ h_length h + 8 + nlen r < nlen b)) b).
Proof.
  intros b Hb. apply (PropsV1COutcome.settled (Gpdu_unmarshal Debug b)).
  - apply (PropsV1UErr.C95_no_other_outcome b Hb).
  - intros x. exact (PropsV1UWire.C56_gpdu b x Hb).
  - exact (proj1 (PropsV1UErr.C95_gpdu b Hb)).
  - exact (proj2 (PropsV1UErr.C95_gpdu b Hb)).
Qed.
Print Assumptions C98_gpdu.

(* Echo Request (1) and End Marker (254) *)
Theorem C98_echo_request_end_marker_u : forall mt b, bytes b -> one_outcome
  (fun x => exists h r p, header_is b h r /\ msgtype h = mt /\
     (if h_length h <? nlen b then private_opt r p else p = None) /\ x = mkSimple h p)
  (refused_as mt (fun _ _ _ => False) b)
  (crashes_as mt (fun h r => h_length h < nlen b /\ private_crashes r) b).
Proof.
  intros mt b Hb. apply (PropsV1COutcome.settled (Simple_unmarshal mt Debug b)).
  - apply (PropsV1UErr.C95_no_other_outcome b Hb).
  - intros x. exact (PropsV1UWire.C56_echo_request_end_marker mt b x Hb).
  - exact (proj1 (PropsV1UErr.C95_echo_request_end_marker mt b Hb)).
  - exact (proj2 (PropsV1UErr.C95_echo_request_end_marker mt b Hb)).
Qed.
Print Assumptions C98_echo_request_end_marker_u.

Theorem C98_echo_response_u : forall b, bytes b -> one_outcome
  (fun x => exists h v r p, header_is b h (14 :: v :: r) /\ msgtype h = 2 /\ h_length h + 4 < nlen b /\
     private_opt r p /\ x = mkEchoResp h (mkRec 14 v) p)
  (refused_as 2 (fun h r e =>
     (e = MessageLengthError /\ nlen b <= h_length h + 4) \/
     (h_length h + 4 < nlen b /\
       ((e = MessageMandatoryIEMissing /\ hd 0 r <> 14) \/ (e = IEInvalidLength /\ r = [14])))) b)
  (crashes_as 2 (fun h r => h_length h + 4 < nlen b /\ exists v q, r = 14 :: v :: q /\ private_crashes q) b).
Proof.
  intros b Hb. apply (PropsV1COutcome.settled (EchoResponse_unmarshal Debug b)).
  - apply (PropsV1UErr.C95_no_other_outcome b Hb).
  - intros x. exact (PropsV1UWire.C56_echo_response b x Hb).
  - exact (proj1 (PropsV1UErr.C95_echo_response b Hb)).
  - exact (proj2 (PropsV1UErr.C95_echo_response b Hb)).
Qed.
Print Assumptions C98_echo_response_u.

Theorem C98_supported_extension_headers_u : forall b, bytes b -> one_outcome
  (fun x => exists h k l, header_is b h (141 :: k :: l) /\ msgtype h = 31 /\ h_length h <= 65527 /\
     h_length h + 8 <= nlen b /\ 1 <= k <= 253 /\ k <= nlen l /\ x = mkSup h (mkEhtl 141 k l))
  (refused_as 31 (fun h r e => h_length h <= 65527 /\
     ((e = MessageLengthError /\ nlen b < h_length h + 8) \/
      (h_length h + 8 <= nlen b /\
        ((e = MessageMandatoryIEMissing /\ (r = [] \/ exists k l, r = 141 :: k :: l /\ k <= 253 /\ (k = 0 \/ nlen l < k))) \/
         (e = MessageInvalidMessageFormat /\ exists t l, r = t :: l /\ t <> 141))))) b)
  (crashes_as 31 (fun h r => 65527 < h_length h \/
     (h_length h + 8 <= nlen b /\ (r = [141] \/ exists k l, r = 141 :: k :: l /\ 254 <= k))) b).
Proof.
  intros b Hb. apply (PropsV1COutcome.settled (SupExtNotif_unmarshal Debug b)).
  - apply (PropsV1UErr.C95_no_other_outcome b Hb).
  - intros x. exact (PropsV1UWire.C56_supported_extension_headers b x Hb).
  - exact (proj1 (PropsV1UErr.C95_supported_extension_headers b Hb)).
  - exact (proj2 (PropsV1UErr.C95_supported_extension_headers b Hb)).
Qed.
Print Assumptions C98_supported_extension_headers_u.

Theorem C98_error_indication : forall b, bytes b -> one_outcome
  (fun x => exists h r l t g, header_is b h r /\ msgtype h = 26 /\ h_length h <= 65527 /\ h_length h + 8 <= nlen b /\
     carries r l /\ StronglySorted N.le (map ucode l) /\
     (length (teids l) <= 255 /\ length (gsns l) <= 255 /\ length (pes l) <= 255)%nat /\
     hd_error (teids l) = Some t /\ hd_error (gsns l) = Some g /\
     x = mkErrInd h t g (hd_error (pes l)))
  (refused_as 26 (fun h r e => h_length h <= 65527 /\
     ((e = MessageLengthError /\ nlen b < h_length h + 8) \/
      (h_length h + 8 <= nlen b /\ exists l q, starts r l q /\ walked l /\
        (stops l q (Some e) \/
         (q = [] /\ e = MessageMandatoryIEMissing /\ (teids l = [] \/ gsns l = [])))))) b)
  (crashes_as 26 (fun h r => 65527 < h_length h \/
     (h_length h + 8 <= nlen b /\ exists l q, starts r l q /\ walked l /\ stops l q None)) b).
Proof.
  intros b Hb. apply (PropsV1COutcome.settled (ErrorIndication_unmarshal Debug b)).
  - apply (PropsV1UErr.C95_no_other_outcome b Hb).
  - intros x. exact (PropsV1UWire.C56_error_indication b x Hb).
  - exact (proj1 (PropsV1UErr.C95_error_indication b Hb)).
  - exact (proj2 (PropsV1UErr.C95_error_indication b Hb)).
Qed.
Print Assumptions C98_error_indication.

(* All three occur: user data of three octets, the same with a length that is too large by one, and with a length of 65528. *)
Example C98_u_cases :
  (exists x, Gpdu_unmarshal Debug [48; 255; 0; 3; 0; 0; 0; 9; 1; 2; 3] = Ok x) /\
  Gpdu_unmarshal Debug [48; 255; 0; 4; 0; 0; 0; 9; 1; 2; 3] = Err MessageLengthError /\
  Gpdu_unmarshal Debug [48; 255; 255; 248; 0; 0; 0; 9; 1; 2; 3] = Panic.
Proof. split; [eexists|split]; vm_compute; reflexivity. Qed.
