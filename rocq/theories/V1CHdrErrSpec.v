(* V1CHdrErrSpec.v - which octets are not a GTPv1-C header or one of the messages with a decoder of
   their own, and for what reason, written independently of the decoders of the model. The cases
   that stop the program are in V1CrashSpec.v; [chain_refused] is that of GTP-U (V1UErrSpec.v). *)
From Verif Require Import Base V1USpec V1UErrSpec.
From Coq Require Import Sorted.
From Verif Require Export V1CMsgReadSpec V1CErrSpec.
Local Open Scope N_scope.

(* the octets that are read: up to the last field whose flag is set *)
Definition needed (b0 : N) : N :=
  if flag_E b0 then 12 else if flag_PN b0 then 11 else if flag_S b0 then 10 else 8.
Inductive cheader_refused : list N -> GTPV1Error -> Prop :=
| c_refused_short b : nlen b < 8 -> cheader_refused b HeaderInvalidLength
| c_refused_version b0 r : 7 <= nlen r -> ~ gtp_version b0 -> cheader_refused (b0 :: r) HeaderVersionNotSupported
| c_refused_optional b0 r : gtp_version b0 -> 8 <= nlen (b0 :: r) < needed b0 -> cheader_refused (b0 :: r) HeaderInvalidLength
| c_refused_extensions b0 t l1 l2 a b c d s1 s2 n q : gtp_version b0 -> flag_E b0 = true -> chain_refused q ->
    cheader_refused (b0 :: t :: l1 :: l2 :: a :: b :: c :: d :: s1 :: s2 :: n :: q) ExtHeaderInvalidLength.

(* [p] is where the octets after the header [h] begin, as the receiver counts them. *)
Inductive echo_response_wrong (b : list N) (h : CHdr) (p : nat) : GTPV1Error -> Prop :=
| er_length : nlen b <= c_length h + 4 -> echo_response_wrong b h p MessageLengthError
| er_none : c_length h + 4 < nlen b -> (length b <= p)%nat -> echo_response_wrong b h p MessageMandatoryIEMissing
| er_other t r : c_length h + 4 < nlen b -> skipn p b = t :: r -> t <> 14 -> echo_response_wrong b h p MessageMandatoryIEMissing
| er_cut : c_length h + 4 < nlen b -> skipn p b = [14] -> echo_response_wrong b h p IEInvalidLength.
Inductive supported_headers_wrong (b : list N) (h : CHdr) (p : nat) : GTPV1Error -> Prop :=
| sh_length : c_length h <= 65527 -> nlen b < 8 + c_length h -> supported_headers_wrong b h p MessageLengthError
| sh_none : 8 + c_length h <= nlen b -> c_length h <= 65527 -> p = length b -> supported_headers_wrong b h p MessageMandatoryIEMissing
| sh_other t r : 8 + c_length h <= nlen b -> c_length h <= 65527 -> skipn p b = t :: r -> t <> 141 ->
    supported_headers_wrong b h p MessageInvalidMessageFormat
| sh_cut l v : 8 + c_length h <= nlen b -> c_length h <= 65527 -> skipn p b = 141 :: l :: v -> l <= 253 -> nlen v < l ->
    supported_headers_wrong b h p MessageMandatoryIEMissing.

(* The sixteen messages made of elements, with the fields [L]. [l] are the elements before [q]: they
   are known, in ascending order and at most 255 of a type. *)
Definition known_elements (L : list field1) (l : list (N * ie1)) : Prop :=
  StronglySorted N.le (map fst l) /\ (forall t, In t (map fst l) -> In t (map f_code L)) /\
  forall t, (length (occ t l) <= 255)%nat.
(* [f] is the field for the element of type [t] after [n] others of this type: the [n]th of these
   fields, or the last one when there are not so many. *)
Definition field_for (L : list field1) (t : N) (n : nat) (f : field1) : Prop :=
  exists j, nth_error L j = Some f /\ f_code f = t /\
    (rank L t j = n \/
     (rank L t j < n)%nat /\ forall j' f', nth_error L j' = Some f' -> f_code f' = t -> (j' <= j)%nat).
Inductive elements_wrong (code : N) (L : list field1) (b : list N) (p : nat) : GTPV1Error -> Prop :=
| ew_order l q t u : reads_to Debug b p l q -> known_elements L l -> nth_error b q = Some t ->
    In u (map fst l) -> t < u -> elements_wrong code L b p MessageInvalidMessageFormat
| ew_unknown l q t : reads_to Debug b p l q -> known_elements L l -> nth_error b q = Some t ->
    ~ In t (map f_code L) -> elements_wrong code L b p MessageInvalidMessageFormat
| ew_element l q t k e f e' : reads_to Debug b p l q -> known_elements L l -> nth_error b q = Some t ->
    (forall u, In u (map fst l) -> u <= t) -> code_kind t = Some k -> ie1_unmarshal k Debug (skipn q b) = Err e ->
    field_for L t (length (occ t l)) f -> report code f = Ok e' -> elements_wrong code L b p e'
| ew_missing l f : reads Debug b p l -> known_elements L l -> In f L -> f_mandatory f = true ->
    ~ In (f_code f) (map fst l) -> elements_wrong code L b p MessageMandatoryIEMissing.
Definition table_message_wrong (code : N) (L : list field1) (b : list N) (h : CHdr) (p : nat) (e : GTPV1Error) : Prop :=
  c_length h <= 65527 /\
  if nlen b <? 8 + c_length h then e = MessageLengthError else elements_wrong code L b p e.
