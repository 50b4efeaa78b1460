(* PropsV1COutcome.v - C98: every octet string is either a GTPv1-C message, or refused for a reason that its octets show, or
   fatal to the receiver, and never two of these (builds with overflow checks). The three are specified apart from each other
   and from the decoders: what is a message in V1CMsgReadSpec.v, what is refused in V1CHdrErrSpec.v, what is fatal in
   V1CrashSpec.v. *)
From Verif Require Import BaseFacts V1CHdr V1CMsg V1CMsgSpec V1CMsgReadSpec V1CErrSpec V1CHdrErrSpec V1CrashSpec.
From Verif Require PropsV1C PropsV1CRead PropsV1CHdrErr PropsV1Crash.
Local Open Scope N_scope.

(* Exactly one: a message, and only one; a fault, and only one error for it; or a crash. *)
Definition one_outcome {A} (says : A -> Prop) (refused : GTPV1Error -> Prop) (fatal : Prop) : Prop :=
  ((exists! x, says x) /\ (forall e, ~ refused e) /\ ~ fatal) \/
  ((forall x, ~ says x) /\ (exists! e, refused e) /\ ~ fatal) \/
  ((forall x, ~ says x) /\ (forall e, ~ refused e) /\ fatal).

Lemma settled {A} (r : res A) says refused fatal : r <> Diverge -> (forall x, r = Ok x <-> says x) -> (forall e, r = Err e <-> refused e) -> (r = Panic <-> fatal) ->
  one_outcome says refused fatal.
Proof.
  intros ND HS HR HF. unfold one_outcome. destruct r as [x|e| |]; [left|right; left|right; right|contradiction]; (split; [|split]).
  - exists x. split; [apply HS; reflexivity|]. intros y Hy. apply HS in Hy. apply Ok_inj in Hy. exact Hy.
  - intros e He. apply HR in He. discriminate.
  - intros H. apply HF in H. discriminate.
  - intros x Hx. apply HS in Hx. discriminate.
  - exists e. split; [apply HR; reflexivity|]. intros y Hy. apply HR in Hy. injection Hy as <-. reflexivity.
  - intros H. apply HF in H. discriminate.
  - intros x Hx. apply HS in Hx. discriminate.
  - intros e He. apply HR in He. discriminate.
  - apply HF. reflexivity.
Qed.

(* the sixteen messages made of elements *)
Theorem C98_table_messages : forall code L T b, In (code, L, T) messages1 -> bytes b ->
  one_outcome (message_says code L b) (PropsV1CHdrErr.refused_as code (table_message_wrong code L b) b) (message_c_crashes code (map f_code L) Debug b).
Proof.
  intros code L T b HI Hb. apply (settled (msg1_unmarshal T Debug b)).
  - apply PropsV1C.C51_message_debug.
  - intros x. apply PropsV1CRead.C60_message_reading; assumption.
  - intros e. apply PropsV1CHdrErr.C96_table_messages. exact HI.
  - apply PropsV1Crash.C72_message_c; assumption.
Qed.
Print Assumptions C98_table_messages.

Theorem C98_version_not_supported : forall b, bytes b ->
  one_outcome (version_not_supported_says b) (PropsV1CHdrErr.refused_as 3 (fun _ _ _ => False) b) (header_c_crashes Debug b).
Proof.
  intros b Hb. apply (settled (Vns_unmarshal Debug b)); [apply PropsV1C.C51_others_debug|intros x; apply PropsV1CRead.C60_version_not_supported, Hb|
    intros e; apply PropsV1CHdrErr.C96_version_not_supported|apply PropsV1Crash.C72_version_not_supported].
Qed.
Print Assumptions C98_version_not_supported.
Theorem C98_echo_request : forall b, bytes b ->
  one_outcome (echo_request_says b) (PropsV1CHdrErr.refused_as 1 (fun _ _ _ => False) b) (echo_request_c_crashes Debug b).
Proof.
  intros b Hb. apply (settled (CEchoReq_unmarshal Debug b)); [apply PropsV1C.C51_others_debug|intros x; apply PropsV1CRead.C60_echo_request, Hb|
    intros e; apply PropsV1CHdrErr.C96_echo_request|apply PropsV1Crash.C72_echo_request_c, Hb].
Qed.
Print Assumptions C98_echo_request.
Theorem C98_echo_response : forall b, bytes b ->
  one_outcome (echo_response_says b) (PropsV1CHdrErr.refused_as 2 (echo_response_wrong b) b) (echo_response_c_crashes Debug b).
Proof.
  intros b Hb. apply (settled (CEchoResp_unmarshal Debug b)); [apply PropsV1C.C51_others_debug|intros x; apply PropsV1CRead.C60_echo_response, Hb|
    intros e; apply PropsV1CHdrErr.C96_echo_response|apply PropsV1Crash.C72_echo_response_c, Hb].
Qed.
Print Assumptions C98_echo_response.
Theorem C98_supported_extension_headers : forall b, bytes b ->
  one_outcome (supported_headers_says b) (PropsV1CHdrErr.refused_as 31 (supported_headers_wrong b) b) (extensions_c_crashes Debug b).
Proof.
  intros b Hb. apply (settled (CSup_unmarshal Debug b)); [apply PropsV1C.C51_others_debug|intros x; apply PropsV1CRead.C60_supported_headers, Hb|
    intros e; apply PropsV1CHdrErr.C96_supported_extension_headers|apply PropsV1Crash.C72_extensions_c, Hb].
Qed.
Print Assumptions C98_supported_extension_headers.

(* and this outcome is what the receiver gets: the message, the error or the crash, in every build but for the crashes of
   builds with overflow checks (C63) *)
Theorem C98_received : forall code L T b, In (code, L, T) messages1 -> bytes b ->
  (forall m x, message_says code L b x -> msg1_unmarshal T m b = Ok x) /\
  (forall m e, PropsV1CHdrErr.refused_as code (table_message_wrong code L b) b e -> msg1_unmarshal T m b = Err e) /\
  (message_c_crashes code (map f_code L) Debug b -> msg1_unmarshal T Debug b = Panic).
Proof.
  intros code L T b HI Hb. split; [|split].
  - intros m x H. exact (PropsV1CRead.C60_message_reading_any_build code L T m b x HI Hb H).
  - intros m e H. exact (proj2 (proj2 (proj2 (proj2 (PropsV1CHdrErr.C96_any_build m b e)))) code L T HI H).
  - apply PropsV1Crash.C72_message_c; assumption.
Qed.
Print Assumptions C98_received.

(* All three occur: delete PDP context responses. *)
Example C98_cases : In (21, DeletePDPContextResponse_L, DeletePDPContextResponse_T) messages1 /\
  (exists x, message_says 21 DeletePDPContextResponse_L [48; 21; 0; 2; 0; 0; 0; 9; 1; 128] x) /\
  PropsV1CHdrErr.refused_as 21 (table_message_wrong 21 DeletePDPContextResponse_L [48; 21; 0; 3; 0; 0; 0; 9; 1; 128]) [48; 21; 0; 3; 0; 0; 0; 9; 1; 128] MessageLengthError /\
  message_c_crashes 21 (map f_code DeletePDPContextResponse_L) Debug [48; 21; 255; 248; 0; 0; 0; 9; 1; 128].
Proof.
  assert (HI : In (21, DeletePDPContextResponse_L, DeletePDPContextResponse_T) messages1) by (unfold messages1; repeat (first [left; reflexivity|right])).
  split; [exact HI|]. split; [|split].
  - eexists. apply (PropsV1CRead.C60_message_reading _ _ _ _ _ HI); [repeat constructor|]. vm_compute. reflexivity.
  - apply (PropsV1CHdrErr.C96_table_messages _ _ _ _ _ HI). vm_compute. reflexivity.
  - apply (PropsV1Crash.C72_message_c _ _ _ _ _ HI); [repeat constructor|]. vm_compute. reflexivity.
Qed.
