(* V1CMsgReadSpec.v - what received octets mean as a GTPv1-C message: the header, the elements after
   it and the fields of the message, written with arithmetic only. *)
From Verif Require Import Base Octets.
From Verif Require Export V1CReadSpec V1CMsgSpec V1CSafeSpec.
From Coq Require Import Sorted.
Local Open Scope N_scope.

(* ------------------------------------------------------------------------- *)
(* The header (TS 29.060 6) *)

(* the extension header of type [t] and length octet [l]: [v] are the octets it says it has *)
Definition cext_meaning (t l : N) (v : list N) : CExt :=
  let number := mkNumExt t l (256 * nth 0 v 0 + nth 1 v 0) in
  if t =? 192 then CX_PDCPPDUNumber number
  else if t =? 193 then CX_SuspendRequest number
  else if t =? 194 then CX_SuspendResponse number
  else if t =? 1 then CX_MBMSSupportIndication number
  else if t =? 2 then CX_MSInfoChangeReporting number
  else CX_Unknown (mkBlobExt t l v).
(* [cchain_is b l r]: [b] starts with the extension headers [l] and the terminating 0, and goes on
   with [r]. The length counts units of four octets, with the type and the length octet. *)
Inductive cchain_is : list N -> list CExt -> list N -> Prop :=
| cchain_end r : cchain_is (0 :: r) [] r
| cchain_more t l v q xs r :
    t <> 0 -> 1 <= l <= 63 -> nlen v + 2 = 4 * l -> cchain_is q xs r ->
    cchain_is (t :: l :: v ++ q) (cext_meaning t l v :: xs) r.

(* [header_says b h p]: [b] starts with the header [h], and its elements begin at [p]. A field is read
   when its flag is set. The four optional octets may be cut off after the last one that is read. *)
Definition header_says (b : list N) (h : CHdr) (p : nat) : Prop :=
  exists b0 l1 l2 t1 t2 t3 t4 r,
    b = b0 :: c_msgtype h :: l1 :: l2 :: t1 :: t2 :: t3 :: t4 :: r /\
    b0 / 32 = 1 /\ bit_of b0 4 = true /\
    c_length h = 256 * l1 + l2 /\ c_teid h = 16777216 * t1 + 65536 * t2 + 256 * t3 + t4 /\
    (if bit_of b0 1 then exists s1 s2 r', r = s1 :: s2 :: r' /\ c_sqn h = Some (256 * s1 + s2) else c_sqn h = None) /\
    (if bit_of b0 0 then exists s1 s2 n r', r = s1 :: s2 :: n :: r' /\ c_npdu h = Some n else c_npdu h = None) /\
    (if bit_of b0 2 then
       exists s1 s2 n r' xs q, r = s1 :: s2 :: n :: r' /\ cchain_is r' xs q /\ c_ext h = Some xs /\ p = (length b - length q)%nat
     else c_ext h = None /\ p = if bit_of b0 1 || bit_of b0 0 then 12%nat else 8%nat).

(* ------------------------------------------------------------------------- *)
(* The elements *)

(* the size this receiver gives to the elements of a fixed size; APN restriction has two octets more *)
Definition fixed_sizes : list (N * N) :=
  [(1, 2); (2, 9); (3, 7); (8, 2); (14, 2); (15, 2); (16, 5); (17, 5); (19, 2); (20, 2); (26, 3); (27, 3); (28, 3);
   (127, 5); (149, 2); (151, 4); (152, 11); (153, 5); (154, 11); (162, 12); (181, 4); (183, 4); (184, 4); (191, 4);
   (194, 11); (198, 11); (203, 4); (214, 7); (216, 4); (223, 5); (224, 4)].
(* where the next element begins: after the fixed size, or after the octets that the length says *)
Definition next_after (t : N) (s : list N) : option N :=
  match find (fun e => fst e =? t) fixed_sizes with
  | Some e => Some (snd e)
  | None => if declared s <=? 65532 then Some (3 + declared s) else None
  end.
(* [holds b p l]: from [p] to the end of [b] there are the elements [l]. *)
Inductive holds (b : list N) : nat -> list (N * ie1) -> Prop :=
| holds_end p : (length b <= p)%nat -> holds b p []
| holds_more p t i n l :
    nth_error b p = Some t -> code_kind t = Some (kind1_of i) ->
    says1 i (skipn p b) -> next_after t (skipn p b) = Some n ->
    holds b (p + N.to_nat n) l -> holds b p ((t, i) :: l).

(* ------------------------------------------------------------------------- *)
(* The message *)

(* As [stored], and a mandatory field without an element of its own (this can only be a second
   GSN address) holds 0.0.0.0. *)
Definition stored_exactly (L : list field1) (l : list (N * ie1)) (fs : list (option ie1)) : Prop :=
  length fs = length L /\
  forall j f, nth_error L j = Some f ->
    nth_error fs j =
      Some match nth_error (occ (f_code f) l) (rank L (f_code f) j) with
           | Some i => Some i
           | None => if f_mandatory f then Some (I1_Gsn (mkTlv 133 4 (V4 0 0 0 0))) else None
           end.
Definition message_says (code : N) (L : list field1) (b : list N) (x : Msg1) : Prop :=
  exists p l, header_says b (m_header x) p /\ holds b p l /\
    c_msgtype (m_header x) = code /\ c_length (m_header x) <= 65527 /\ 8 + c_length (m_header x) <= nlen b /\
    StronglySorted N.le (map fst l) /\
    (forall t, In t (map fst l) -> exists f, In f L /\ f_code f = t) /\
    (forall f, In f L -> f_mandatory f = true -> In (f_code f) (map fst l)) /\
    (forall t, (length (occ t l) <= 255)%nat) /\
    stored_exactly L l (m_fields x).

(* ------------------------------------------------------------------------- *)
(* The messages with a decoder of their own. *)

(* What follows is not read as a private extension, and is ignored: less than three octets, the length
   0, or more octets announced than there are. The type octet is not looked at. *)
Definition no_extension (r : list N) : Prop :=
  nlen r < 3 \/ declared r = 0 \/ (declared r <= 65532 /\ nlen r < 3 + declared r).
Definition trailer_says (o : option (Tlv PeV)) (r : list N) : Prop :=
  match o with Some e => pe_says e r | None => no_extension r end.
Definition version_not_supported_says (b : list N) (h : CHdr) : Prop :=
  c_msgtype h = 3 /\ exists p, header_says b h p.
Definition echo_request_says (b : list N) (x : CEchoReq) : Prop :=
  c_msgtype (ceq_header x) = 1 /\ exists p, header_says b (ceq_header x) p /\
  if c_length (ceq_header x) <? nlen b then (p <= length b)%nat /\ trailer_says (ceq_pe x) (skipn p b) else ceq_pe x = None.
Definition echo_response_says (b : list N) (x : CEchoResp) : Prop :=
  c_msgtype (cer_header x) = 2 /\ c_length (cer_header x) + 4 < nlen b /\
  exists p v r, header_says b (cer_header x) p /\ skipn p b = 14 :: v :: r /\
    cer_recovery x = mkTv 14 v /\ trailer_says (cer_pe x) r.
Definition supported_headers_says (b : list N) (x : CSup) : Prop :=
  c_msgtype (cs_header x) = 31 /\ c_length (cs_header x) <= 65527 /\ 8 + c_length (cs_header x) <= nlen b /\
  exists p l v, header_says b (cs_header x) p /\ skipn p b = 141 :: l :: v /\ cs_list x = mkTlv 141 l v /\
    l <= 253 /\ l <= nlen v.
