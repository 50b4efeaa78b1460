(* V2MsgReadSpec.v - what received octets mean as a GTPv2-C message (TS 29.274, clauses 5.1 to 5.5 and 7):
   the header, where the elements are, and which of them each field holds. Elements and sequences of
   elements are in V2ReadSpec.v and V2ListSpec.v; the fields of the messages are the layouts of V2MsgLayouts.v. *)
From Coq Require Import String.
From Verif Require Import Base.
From Verif Require Export V2MsgSpec V2ListSpec.
Local Open Scope N_scope.

(* The number in the n octets from octet i on, counted from 0. *)
Definition number_at (b : list N) (i n : nat) : N := base256 (firstn n (skipn i b)).

(* The header. Octet 0: version in the upper three bits, then piggybacking, TEID present, message priority
   present. The length does not count the first four octets.
   REMARK: a packet needs eight octets, twelve if there is a TEID. *)
Definition header_says (b : list N) (h : Gtpv2Header) : Prop :=
  let flags := number_at b 0 1 in
  flags / 32 = 2 /\
  h2_piggyback h = bit_at flags 4 /\
  h2_msgtype h = number_at b 1 1 /\
  h2_length h = number_at b 2 2 /\
  if bit_at flags 3
  then 12 <= nlen b /\ 8 <= h2_length h /\
       h2_teid h = Some (number_at b 4 4) /\ h2_sqn h = number_at b 8 3 /\
       h2_prio h = (if bit_at flags 2 then Some (number_at b 11 1 / 16) else None)
  else 8 <= nlen b /\ 4 <= h2_length h /\
       h2_teid h = None /\ h2_sqn h = number_at b 4 3 /\ h2_prio h = None.

(* Where the elements begin: after the header the message is defined with.
   REMARK: this does not depend on whether the packet has a TEID. *)
Definition elements_from (name : string) : nat :=
  if existsb (String.eqb name) without_teid then 8 else 12.

(* The octets of the elements: up to the end given by the length. *)
Definition element_octets (name : string) (b : list N) (h : Gtpv2Header) (s : list N) : Prop :=
  exists pre post, b = pre ++ s ++ post /\ List.length pre = elements_from name /\
    nlen pre + nlen s = h2_length h + 4.

(* What a field holds of the elements l: those it is for; of several the first, the last or all. *)
Definition field_holds (f : field_spec) (l v : list ie) : Prop :=
  exists s, sublist (belongs f) l s /\
    v = match f_keep f with KeepFirst => head_of s | KeepLast => head_of (rev s) | KeepAll => s end.

(* REMARK: an Identification Response without a cause is taken for one with cause 0. *)
Definition assumed_cause : ie := IE_Cause (mkIe 2 2 0 (mkCause 0 false false false None)).
Definition fields_say (name : string) (L : layout) (l : list ie) (x : list (list ie)) : Prop :=
  if String.eqb name "IdentificationResponse" then
    match L, x with
    | f :: L', v :: x' =>
        (field_holds f l v /\ v <> [] \/ field_holds f l [] /\ v = [assumed_cause]) /\
        Forall2 (fun f v => field_holds f l v) L' x'
    | _, _ => False
    end
  else (forall f, In f L -> ~ missing f l) /\ Forall2 (fun f v => field_holds f l v) L x.

(* REMARK: the octets after the header of a Version Not Supported Indication are not looked at. *)
Definition message_says (name : string) (code : N) (L : layout) (b : list N) (x : message) : Prop :=
  header_says b (msg_header x) /\ h2_msgtype (msg_header x) = code /\
  if String.eqb name "VersionNotSupported" then msg_fields x = []
  else exists s l, element_octets name b (msg_header x) s /\ octets_say s l /\ fields_say name L l (msg_fields x).
