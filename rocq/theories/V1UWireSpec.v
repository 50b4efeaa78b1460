(* V1UWireSpec.v - GTP-U on the wire (TS 29.281 5, 7 and 8), written with arithmetic on octets
   and independently of the encoders and decoders of the model: what a header or message looks
   like when sent, and what received octets mean. *)
From Verif Require Import Base V1USpec.
From Verif Require Export V1U Octets.
From Coq Require Import Sorted.
Local Open Scope N_scope.

(* ------------------------------------------------------------------------- *)
(* Sending *)

Definition ext_wire (e : ExtensionHeader) : list N :=
  match e with
  | NoMoreExtensionHeaders => []
  | EH_PDCPPDUNumber x | EH_UDPPort x => [ne_type x; ne_length x] ++ oct2 (ne_value x)
  | EH_LongPDCPPDUNumber x => [ne_type x; ne_length x] ++ oct3 (ne_value x) ++ [0; 0; 0]
  | EH_Sci x => [ne_type x; ne_length x; ne_value x; 0]
  | EH_RanContainer x | EH_XwRanContainer x | EH_NrRanContainer x
  | EH_PduSessionContainer x | EH_Unknown x => [be_type x; be_length x] ++ be_container x
  end.
(* version 1, protocol type 1, flags E, S, PN; message type; length; TEID; and, when any of the
   three flags is set, sequence number, N-PDU number and the extension headers up to a next-type
   octet of 0. The length is a parameter: encoding fills it in. *)
Definition hdr_wire (h : Gtpv1Header) (len : N) : list N :=
  [48 + 4 * given (extension_headers h) + 2 * given (sequence_number h) + given (npdu_number h); msgtype h] ++
  oct2 len ++ oct4 (teid h) ++
  match extension_headers h, sequence_number h, npdu_number h with
  | None, None, None => []
  | _, _, _ => oct2 (or0 (sequence_number h)) ++ [or0 (npdu_number h)] ++
               concat (map ext_wire (match extension_headers h with Some l => l | None => [] end)) ++ [0]
  end.
(* a header and the octets after it: the length counts everything after the first eight *)
Definition msg_wire (h : Gtpv1Header) (body : list N) : list N :=
  hdr_wire h (nlen (hdr_wire h 0 ++ body) - 8) ++ body.

Definition teid_wire (x : Teid) : list N := 16 :: oct4 (te_teid x).
Definition recovery_wire (x : Recovery) : list N := [14; rec_value x].
Definition gsn_wire (x : GsnAddress) : list N :=
  match gsn_ip x with V4 a b c d => [133; 0; 4; a; b; c; d] | V6 o => [133; 0; 16] ++ o end.
Definition pe_wire (x : PrivateExtension) : list N :=
  [255] ++ oct2 (2 + nlen (pe_value x)) ++ oct2 (pe_id x) ++ pe_value x.
Definition ehtl_wire (x : ExtensionHeaderTypeList) : list N := [141; nlen (ehtl_list x)] ++ ehtl_list x.
Definition opt_wire {A} (f : A -> list N) (o : option A) : list N := match o with Some x => f x | None => [] end.

(* ------------------------------------------------------------------------- *)
(* Receiving *)

(* the number in the third and fourth octet *)
Definition length_field (b : list N) : N :=
  match b with _ :: _ :: a :: c :: _ => 256 * a + c | _ => 0 end.

(* the extension header of type [t] and length octet [l] with the octets [w] after it *)
Definition ext_meaning (t l : N) (v w : list N) : ExtensionHeader :=
  let o i := nth i w 0 in
  if t =? 192 then EH_PDCPPDUNumber (mkNumExt 192 l (256 * o 0%nat + o 1%nat))
  else if t =? 64 then EH_UDPPort (mkNumExt 64 l (256 * o 0%nat + o 1%nat))
  else if (t =? 3) || (t =? 130) then
    EH_LongPDCPPDUNumber (mkNumExt t l (65536 * o 0%nat + 256 * o 1%nat + o 2%nat))
  else if t =? 32 then EH_Sci (mkNumExt 32 l (o 0%nat))
  else if t =? 129 then EH_RanContainer (mkBlobExt 129 l v)
  else if t =? 131 then EH_XwRanContainer (mkBlobExt 131 l v)
  else if t =? 132 then EH_NrRanContainer (mkBlobExt 132 l v)
  else if t =? 133 then EH_PduSessionContainer (mkBlobExt 133 l v)
  else EH_Unknown (mkBlobExt t l v).
(* [chain_is b l r]: [b] starts with the extension headers [l] and the terminating 0, and goes on
   with [r]. A number is taken from the first octets after the length, whatever the length. *)
Inductive chain_is : list N -> list ExtensionHeader -> list N -> Prop :=
| chain_is_end r : chain_is (0 :: r) [] r
| chain_is_more t l v q xs r :
    t <> 0 -> 1 <= l <= 63 -> nlen v + 2 = 4 * l -> chain_is q xs r ->
    chain_is (t :: l :: v ++ q) (ext_meaning t l v (v ++ q) :: xs) r.

(* [header_is b h r]: [b] starts with the header [h], as this receiver reads it, and goes on with
   [r]. When PN or E is set without S, all three optional fields are read. *)
Inductive header_is : list N -> Gtpv1Header -> list N -> Prop :=
| header_short b0 t l1 l2 a b c d r :
    b0 / 32 = 1 -> N.testbit b0 4 = true -> 256 * l1 + l2 <> 0 ->
    flag_S b0 = false -> flag_PN b0 = false -> flag_E b0 = false ->
    header_is (b0 :: t :: l1 :: l2 :: a :: b :: c :: d :: r)
      (mkHdr t (256 * l1 + l2) (16777216 * a + 65536 * b + 256 * c + d) None None None) r
| header_long b0 t l1 l2 a b c d s1 s2 n x q xs r :
    b0 / 32 = 1 -> N.testbit b0 4 = true -> 256 * l1 + l2 <> 0 ->
    flag_S b0 || flag_PN b0 || flag_E b0 = true ->
    (if walks_extensions b0 then chain_is (x :: q) xs r else q = r) ->
    header_is (b0 :: t :: l1 :: l2 :: a :: b :: c :: d :: s1 :: s2 :: n :: x :: q)
      (mkHdr t (256 * l1 + l2) (16777216 * a + 65536 * b + 256 * c + d) (Some (256 * s1 + s2))
         (if flag_S b0 && negb (flag_PN b0) then None else Some n)
         (if walks_extensions b0 then Some xs else None)) r.

(* The elements of an Error Indication. *)
Inductive uelem := UT (x : Teid) | UG (x : GsnAddress) | UP (x : PrivateExtension).
Definition ucode (e : uelem) : N := match e with UT _ => 16 | UG _ => 133 | UP _ => 255 end.
Definition teids (l : list uelem) : list Teid := flat_map (fun e => match e with UT x => [x] | _ => [] end) l.
Definition gsns (l : list uelem) : list GsnAddress := flat_map (fun e => match e with UG x => [x] | _ => [] end) l.
Definition pes (l : list uelem) : list PrivateExtension := flat_map (fun e => match e with UP x => [x] | _ => [] end) l.

(* [private_at s x]: [s] starts with a private extension that this receiver reads as [x]: the
   value runs to the end of the packet, whatever the length. The type octet is free here. *)
Definition private_at (s : list N) (x : PrivateExtension) : Prop :=
  exists t l1 l2 i1 i2 v, s = t :: l1 :: l2 :: i1 :: i2 :: v /\
    1 <= 256 * l1 + l2 <= 65532 /\ 256 * l1 + l2 + 3 <= nlen s /\
    x = mkPe 255 (256 * l1 + l2) (256 * i1 + i2) v.
(* [carries s l]: from the start of [s] to its end there are the elements [l]. *)
Inductive carries : list N -> list uelem -> Prop :=
| carries_end : carries [] []
| carries_teid a b c d r l : carries r l ->
    carries (16 :: a :: b :: c :: d :: r) (UT (mkTeid 16 (16777216 * a + 65536 * b + 256 * c + d)) :: l)
| carries_v4 a b c d r l : carries r l ->
    carries (133 :: 0 :: 4 :: a :: b :: c :: d :: r) (UG (mkGsn 133 4 (V4 a b c d)) :: l)
| carries_v6 o r l : length o = 16%nat -> carries r l ->
    carries (133 :: 0 :: 16 :: o ++ r) (UG (mkGsn 133 16 (V6 o)) :: l)
| carries_pe s x l : private_at s x -> hd 0 s = 255 ->
    carries (skipn (N.to_nat (pe_length x) + 3) s) l -> carries s (UP x :: l).

(* An optional private extension at [s]: absent when the octets do not amount to one. *)
Definition private_opt (s : list N) (o : option PrivateExtension) : Prop :=
  match o with
  | Some x => private_at s x
  | None => match s with
            | _ :: l1 :: l2 :: r => 256 * l1 + l2 = 0 \/ (256 * l1 + l2 <= 65532 /\ nlen s < 256 * l1 + l2 + 3)
            | _ => True
            end
  end.
