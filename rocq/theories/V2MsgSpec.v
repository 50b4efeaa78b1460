(* V2MsgSpec.v - what it means for a message to be well formed, and which IEs of a list end up in which
   field. No reference to the tables of arms. *)
From Coq Require Import String.
From Verif Require Import Base.
From Verif Require Export V2Msg V2DecSpec.
Local Open Scope N_scope.

(* how many IEs a field holds: a plain field, an Option, a Vec *)
Inductive arity := One | Opt | Many.
(* which of the IEs received a field keeps *)
Inductive keep := KeepFirst | KeepLast | KeepAll.

(* A field of a message: its name in the struct, the kind of IE it holds, how many, the instances it
   accepts, the instance required to be present if the field is mandatory, and which IEs it keeps. *)
Record field_spec := field {
  f_name : string; f_kind : kind; f_arity : arity; f_ins : list ins_cond; f_req : option ins_cond; f_keep : keep }.
Definition layout := list field_spec.

Definition inst_in (c : ins_cond) (n : N) : Prop :=
  match c with InsIs k => n = k | InsBelow k => n < k | InsAny => True end.

(* the IE is one of those the field is for *)
Definition belongs (f : field_spec) (e : ie) : Prop :=
  kind_of e = f_kind f /\ exists c, In c (f_ins f) /\ inst_in c (ie_instance e).

(* the IE is one the field cannot do without *)
Definition satisfies (f : field_spec) (c : ins_cond) (e : ie) : Prop :=
  kind_of e = f_kind f /\ inst_in c (ie_instance e).

(* the contents of a field: the right IEs, the right number, the mandatory one among them *)
Definition holds (f : field_spec) (v : list ie) : Prop :=
  Forall (belongs f) v /\
  match f_arity f with One => length v = 1%nat | Opt => (length v <= 1)%nat | Many => True end /\
  (forall c, f_req f = Some c -> Exists (satisfies f c) v).

Definition conforms (L : layout) (x : list (list ie)) : Prop := Forall2 holds L x.

(* The sub-list of l of the elements that satisfy P *)
Inductive sublist {A} (P : A -> Prop) : list A -> list A -> Prop :=
| sub_nil : sublist P [] []
| sub_in x l s : P x -> sublist P l s -> sublist P (x :: l) (x :: s)
| sub_out x l s : ~ P x -> sublist P l s -> sublist P (x :: l) s.

(* the first of a list, or nothing *)
Definition head_of {A} (l : list A) : list A := match l with [] => [] | x :: _ => [x] end.

(* What a field must contain after decoding the IEs l: the first IE of the right kind and instance for a
   single-valued field, all of them in order for a Vec. *)
Definition received (f : field_spec) (l : list ie) (v : list ie) : Prop :=
  exists s, sublist (belongs f) l s /\
    v = match f_arity f with Many => s | One | Opt => head_of s end.

(* no IE of the list will do for a mandatory field *)
Definition missing (f : field_spec) (l : list ie) : Prop :=
  exists c, f_req f = Some c /\ forall e, In e l -> ~ satisfies f c e.

(* ------------------------------------------------------------------------- *)
(* On the wire *)

(* the fields of the fixed part of a packet *)
Definition teid_bit (b : list N) : bool := N.testbit (nth 0 b 0) 3.
Definition type_octet (b : list N) : N := nth 1 b 0.
Definition declared_length (b : list N) : N := nth 2 b 0 * 256 + nth 3 b 0.

(* the header with another length field *)
Definition with_length (h : Gtpv2Header) (n : N) : Gtpv2Header :=
  mkHdr2 (h2_msgtype h) (h2_piggyback h) (h2_prio h) n (h2_teid h) (h2_sqn h).

(* the octets of a header counted by the length field *)
Definition hdr_size (h : Gtpv2Header) : N := match h2_teid h with Some _ => 8 | None => 4 end.

(* the octets of a message counted by the length field *)
Definition counted (x : message) : N := hdr_size (msg_header x) + nlen (concat (map ie_marshal (concat (msg_fields x)))).

(* The packet b has the header h, is of the type of d and long enough, and its IEs decode to l. *)
Definition carries (d : message_def) (m : mode) (b : list N) (h : Gtpv2Header) (l : list ie) : Prop :=
  h2_unmarshal b = Ok h /\ h2_msgtype h = md_type d /\
  match md_start d with
  | None => l = []
  | Some s => (s <= N.to_nat (h2_length h) + 4 /\ N.to_nat (h2_length h) + 4 <= length b)%nat /\
              decoder m (firstn (N.to_nat (h2_length h) + 4 - s) (skipn s b)) = Ok l
  end.

(* The messages without a TEID in their header (3GPP TS 29.274, 5.5.2). *)
Definition without_teid : list string := ["EchoRequest"; "EchoResponse"; "VersionNotSupported"]%string.

(* A message of the kind d with the fields L that can be sent: the type code is that of the message, the
   header numbers fit their fields, there is a TEID exactly if the message kind has one (and a message
   priority only with it), the fields hold what the layout says and every IE is well formed. *)
Definition well_formed (d : message_def) (L : layout) (x : message) : Prop :=
  let h := msg_header x in
  h2_msgtype h = md_type d /\ h2_sqn h < 16777216 /\
  (forall p, h2_prio h = Some p -> p < 16) /\ (forall t, h2_teid h = Some t -> t < 4294967296) /\
  (h2_teid h = None <-> In (md_name d) without_teid) /\ (h2_teid h = None -> h2_prio h = None) /\
  conforms L (msg_fields x) /\ Forall (Forall (fun e => ie_wf e /\ routed e)) (msg_fields x).

(* 3GPP TS 29.274, table 6.1-1: the message type codes of the messages of this library. *)
Definition assigned_types : list (string * N) := [
  ("EchoRequest", 1); ("EchoResponse", 2); ("VersionNotSupported", 3);
  ("CreateSessionRequest", 32); ("CreateSessionResponse", 33); ("ModifyBearerRequest", 34);
  ("ModifyBearerResponse", 35); ("DeleteSessionRequest", 36); ("DeleteSessionResponse", 37);
  ("ChangeNotificationRequest", 38); ("ChangeNotificationResponse", 39); ("RemoteUeReportNotification", 40);
  ("RemoteUeReportAcknowledge", 41); ("ModifyBearerCommand", 64); ("ModifyBearerFailureInd", 65);
  ("DeleteBearerCommand", 66); ("DeleteBearerFailureInd", 67); ("BearerResourceCommand", 68);
  ("BearerResourceFailureInd", 69); ("DownlinkDataNotificationFailureIndication", 70); ("TraceSessionActivation", 71);
  ("TraceSessionDeactivation", 72); ("StopPagingIndication", 73); ("CreateBearerRequest", 95);
  ("CreateBearerResponse", 96); ("UpdateBearerRequest", 97); ("UpdateBearerResponse", 98);
  ("DeleteBearerRequest", 99); ("DeleteBearerResponse", 100); ("DeletePdnConnectionSetRequest", 101);
  ("DeletePndConnectionSetResponse", 102); ("PgwDownlinkTriggeringNotification", 103); ("PgwDownlinkTriggeringAcknowledge", 104);
  ("IdentificationRequest", 128); ("IdentificationResponse", 129); ("ContextRequest", 130);
  ("ContextResponse", 131); ("ContextAcknowledge", 132); ("ForwardRelocationRequest", 133);
  ("ForwardRelocationResponse", 134); ("ForwardRelocationCompleteNotification", 135); ("ForwardRelocationCompleteAcknowledge", 136);
  ("ForwardAccessContextNotification", 137); ("ForwardAccessContextAcknowledge", 138); ("RelocationCancelRequest", 139);
  ("RelocationCancelResponse", 140); ("DetachNotification", 149); ("DetachAcknowledge", 150);
  ("CsPagingIndication", 151); ("RanInformationRelay", 152); ("AlertMmeNotification", 153);
  ("AlertMmeAcknowledge", 154); ("UeActivityNotification", 155); ("UeActivityAcknowledge", 156);
  ("IsrStatusIndication", 157); ("UeRegistrationQueryRequest", 158); ("UeRegistrationQueryResponse", 159);
  ("CreateForwardingTunnelRequest", 160); ("CreateForwardingTunnelResponse", 161); ("SuspendNotification", 162);
  ("SuspendAcknowledge", 163); ("ResumeNotification", 164); ("ResumeAcknowledge", 165);
  ("CreateIndirectDataForwardingTunnelRequest", 166); ("CreateIndirectDataForwardingTunnelResponse", 167); ("DeleteIndirectDataForwardingTunnelRequest", 168);
  ("DeleteIndirectDataForwardingTunnelResponse", 169); ("ReleaseAccessBearersRequest", 170); ("ReleaseAccessBearersResponse", 171);
  ("DownlinkDataNotification", 176); ("DownlinkDataNotificationAcknowledge", 177); ("PgwRestartNotification", 179);
  ("PgwRestartNotificationAcknowledge", 180); ("UpdatePdnConnectionSetRequest", 200); ("UpdatePndConnectionSetResponse", 201);
  ("ModifyAccessBearersRequest", 211); ("ModifyAccessBearersResponse", 212); ("MbmsSessionStartRequest", 231);
  ("MbmsSessionStartResponse", 232); ("MbmsSessionUpdateRequest", 233); ("MbmsSessionUpdateResponse", 234);
  ("MbmsSessionStopRequest", 235); ("MbmsSessionStopResponse", 236)]%string.
