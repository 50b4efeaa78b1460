(* V2ErrSpec.v - what an error returned by the GTPv2-C decoders says about the octets. Written from TS 29.274 7.7 (a
   malformed element is identified by its type) and from V2ListSpec.v, without the decoders of the model. *)
From Coq Require Import String.
From Verif Require Import BaseFacts V2Base V2ListSpec V2WireSpec V2MsgSpec V2MsgReadSpec.
Import ListNotations.
Local Open Scope N_scope.

(* [names t e]: the error [e] says that the length, or the contents, of an element of type [t] is wrong *)
Definition names (t : N) (e : GTPV2Error) : Prop := e = IEInvalidLength t \/ e = IEIncorrect t.

(* [reported t e]: the error for an element that begins with the type octet [t] and cannot be read. It names [t].
   REMARK: some types are reported otherwise. A trace reference (115) is reported as a serving network (83), a TWAN
   identifier (169) as an action indication (168), and a location cut short in a user location (86) and an element of
   unknown type that is longer than the octets left as type 0. *)
Definition unknown_type (t : N) : Prop := ~ In t (map fst catalogue).
Definition reported (t : N) (e : GTPV2Error) : Prop :=
  if t =? 115 then e = IEInvalidLength 83
  else if t =? 169 then names 168 e
  else if t =? 86 then names 86 e \/ e = IEIncorrect 0
  else names t e \/ unknown_type t /\ e = IEInvalidLength 0.

(* [stops_with s e]: reading the octets [s] as elements stops at one that cannot be read, and [e] reports it. It is
   the first such element; inside a grouped element it is the member. *)
Inductive stops_with : list N -> GTPV2Error -> Prop :=
| stop_later s x n e : head_says s x n -> stops_with (skipn n s) e -> stops_with s e
| stop_here t q e : (forall x n, ~ head_says (t :: q) x n) -> reported t e -> stops_with (t :: q) e
| stop_member t a b c q x f e : kind_of_code t = (x, Group f) -> fits (256 * a + b) q = true ->
    stops_with (firstn (N.to_nat (256 * a + b)) q) e -> stops_with (t :: a :: b :: c :: q) e.

(* The error for a header that cannot be read: the version in the top three bits of the first octet is not 2, the
   length is 0, or there are fewer octets (or a smaller length) than the header has. *)
Inductive header_reports : list N -> GTPV2Error -> Prop :=
| hr_short b : nlen b < 8 -> header_reports b (MessageInvalidLength 0)
| hr_version b : 8 <= nlen b -> number_at b 0 1 / 32 <> 2 -> header_reports b HeaderVersionNotSupported
| hr_zero b : 8 <= nlen b -> number_at b 0 1 / 32 = 2 -> bit_at (number_at b 0 1) 3 = false ->
    number_at b 2 2 = 0 -> header_reports b HeaderInvalidLength
| hr_length b : 8 <= nlen b -> number_at b 0 1 / 32 = 2 -> bit_at (number_at b 0 1) 3 = false ->
    0 < number_at b 2 2 < 4 -> header_reports b (MessageInvalidLength 0)
| hr_teid b : 8 <= nlen b -> number_at b 0 1 / 32 = 2 -> bit_at (number_at b 0 1) 3 = true ->
    nlen b < 12 \/ number_at b 2 2 < 8 -> header_reports b (MessageInvalidLength 0).

(* Why a message is refused. REMARK: the octets after the header of a Version Not Supported Indication are not looked at;
   an Identification Response without a cause is not refused; the error for a missing element of four messages carries
   another type. *)
Definition misnaming : list string :=
  ["CreateForwardingTunnelResponse"; "CreateIndirectDataForwardingTunnelResponse"; "ForwardRelocationRequest"; "MbmsSessionStartRequest"]%string.
Inductive refused (name : string) (code : N) (L : layout) (b : list N) : GTPV2Error -> Prop :=
| rf_header e : header_reports b e -> refused name code L b e
| rf_type h : header_says b h -> h2_msgtype h <> code -> refused name code L b MessageIncorrectMessageType
| rf_octets h : name <> "VersionNotSupported"%string -> header_says b h -> h2_msgtype h = code ->
    nlen b < h2_length h + 4 -> refused name code L b MessageInvalidMessageFormat
| rf_element h s e : name <> "VersionNotSupported"%string -> header_says b h -> h2_msgtype h = code -> element_octets name b h s -> stops_with s e ->
    refused name code L b e
| rf_missing h s l f t : name <> "VersionNotSupported"%string -> name <> "IdentificationResponse"%string ->
    header_says b h -> h2_msgtype h = code -> element_octets name b h s -> octets_say s l ->
    In f L -> missing f l -> (~ In name misnaming -> forall x, kind_of x = f_kind f -> has_code x t) ->
    refused name code L b (MessageMandatoryIEMissing t).
