(* V1CrashSpec.v - specification: the octets at which decoding a GTPv1 packet stops with a panic instead of returning,
   in debug and in release builds. A debug build panics when 8-bit or 16-bit arithmetic overflows, a release build goes
   on with the remainder. [s] is everything from the type octet of an element to the end of the packet; [declared s] is
   its length field (V1CSafeSpec.v). *)
From Coq Require Import Sorting.Sorted.
From Verif Require Import Base V1CSafeSpec V1CMsgSpec.
Local Open Scope N_scope.

Definition octet (s : list N) (i : nat) : N := nth i s 0.

(* --- extension headers ------------------------------------------------------------------------------------ *)
(* An extension header: type, number of groups of four octets, contents; type 0 ends the chain. *)
Definition ext_size (l : N) : nat := N.to_nat ((4 * l) mod 256).
(* Reading the one at the head of [r]: its type is not there; its length octet is not there; four times the length
   overflows; or it fits but has fewer octets than the contents of its type need. [need t]: the octets of a type with
   fixed contents, None for a container, which needs the two it starts with. *)
Definition ext_overruns (need : N -> option nat) (m : mode) (r : list N) : Prop :=
  r = [] \/
  (octet r 0 <> 0 /\
   (length r = 1%nat \/
    (octet r 1 <> 0 /\
     ((m = Debug /\ 64 <= octet r 1) \/
      ((ext_size (octet r 1) <= length r)%nat /\
       match need (octet r 0) with Some n => (length r < n)%nat | None => ext_size (octet r 1) = 0%nat end))))).
(* The places in a chain where an extension header is read: the start, and behind one that fits. *)
Inductive ext_at (m : mode) : list N -> list N -> Prop :=
| ext_first r : ext_at m r r
| ext_after r s : (2 <= length r)%nat -> octet r 0 <> 0 -> octet r 1 <> 0 -> (m = Debug -> octet r 1 < 64) ->
    (ext_size (octet r 1) <= length r)%nat -> ext_at m (skipn (ext_size (octet r 1)) r) s -> ext_at m r s.
Definition chain_crashes (need : N -> option nat) (m : mode) (r : list N) : Prop := exists s, ext_at m r s /\ ext_overruns need m s.

(* GTPv1-C: PDCP PDU number, suspend request and response, MBMS support, MS info change reporting: 16 bits *)
Definition need_c (t : N) : option nat := if existsb (N.eqb t) [192; 193; 194; 1; 2] then Some 4%nat else None.
(* GTP-U: PDCP PDU number, UDP port: 16 bits; long PDCP PDU number: 18 bits; service class indicator: 8 bits *)
Definition need_u (t : N) : option nat :=
  if existsb (N.eqb t) [192; 64] then Some 4%nat else if existsb (N.eqb t) [3; 130] then Some 5%nat else
  if t =? 32 then Some 3%nat else None.

(* Version 1 and protocol type 1, and the flags: 4 extension headers, 2 sequence number, 1 N-PDU number. *)
Definition header_c_crashes (m : mode) (b : list N) : Prop :=
  (12 <= length b)%nat /\ octet b 0 / 16 = 3 /\ N.testbit (octet b 0) 2 = true /\ chain_crashes need_c m (skipn 11 b).
(* GTP-U refuses length 0 first. A packet with the N-PDU flag and without the sequence number flag is read as if it had
   extension headers. *)
Definition header_u_crashes (m : mode) (b : list N) : Prop :=
  (12 <= length b)%nat /\ octet b 0 / 16 = 3 /\ 256 * octet b 2 + octet b 3 <> 0 /\
  (N.testbit (octet b 0) 2 = true \/ (N.testbit (octet b 0) 1 = false /\ N.testbit (octet b 0) 0 = true)) /\
  chain_crashes need_u m (skipn 11 b).

(* --- information elements --------------------------------------------------------------------------------- *)
(* The length check of most elements: not zero, and length + 3 within the packet. The sum is of 16 bits: in a release
   build it is at most 2 for the lengths above 65532, and within every packet. *)
Definition overlong (s : list N) : Prop := 65533 <= declared s.
Definition length_passes (s : list N) : Prop :=
  (3 <= length s)%nat /\ declared s <> 0 /\ ((3 + N.to_nat (declared s) <= length s)%nat \/ overlong s).
Definition after_check (P : list N -> Prop) (m : mode) (s : list N) : Prop := length_passes s /\ ((m = Debug /\ overlong s) \/ P s).

(* End user address, private extension: the first two octets of the value *)
Definition two_missing (s : list N) : Prop := (length s < 5)%nat.
(* Access point name: labels that do not end where the value ends *)
Definition labels_broken (s : list N) : Prop :=
  (length s < 3 + N.to_nat (declared s))%nat \/ ~ labels_exact (firstn (N.to_nat (declared s)) (skipn 3 s)).
(* MSISDN of numbering plan 1 or 6: eight octets of digits, whatever the length *)
Definition digits_missing (s : list N) : Prop :=
  length s = 3%nat \/ ((octet s 3 mod 16 = 1 \/ octet s 3 mod 16 = 6) /\ (length s < 12)%nat).
(* CAMEL charging container: no length is refused *)
Definition camel_crashes (m : mode) (s : list N) : Prop :=
  (3 <= length s)%nat /\ overlong s /\ (m = Debug \/ (length s < 3 + N.to_nat (declared s))%nat).
(* flags: read without looking at the length, which is added up afterwards *)
Definition flags_crash (m : mode) (s : list N) : Prop := m = Debug /\ (4 <= length s)%nat /\ overlong s.
(* GGSN back-off time: two octets are enough to pass the check, four are read *)
Definition backoff_crashes (m : mode) (s : list N) : Prop := length s = 2%nat \/ length s = 3%nat \/ flags_crash m s.

Definition crash_table1 : list (N * (mode -> list N -> Prop)) := [
  (128, after_check two_missing); (131, after_check labels_broken); (132, after_check overlong);
  (133, after_check (fun _ => False)); (134, after_check digits_missing); (135, after_check overlong);
  (137, after_check overlong); (142, after_check overlong); (143, after_check overlong);
  (148, flags_crash); (155, camel_crashes); (182, flags_crash); (193, flags_crash); (195, flags_crash);
  (202, backoff_crashes); (218, flags_crash); (251, after_check (fun _ => False)); (255, after_check two_missing) ].
(* Decoding the element at the head of [s], or asking the decoded element for its size, panics. *)
Definition element_crashes (m : mode) (s : list N) : Prop := exists P, In (octet s 0, P) crash_table1 /\ P m s.

(* --- messages --------------------------------------------------------------------------------------------- *)
(* From position [p] on the elements with the type octets [l] are decoded, and the next one would start at [q]. *)
Inductive read_up_to (m : mode) (b : list N) : nat -> list N -> nat -> Prop :=
| upto_here p : read_up_to m b p [] p
| upto_more p t k i n l q : nth_error b p = Some t -> code_kind t = Some k -> V1CKind.ie1_unmarshal k m (skipn p b) = Ok i ->
    V1CKind.ie1_len m i = Ok n -> read_up_to m b (p + n) l q -> read_up_to m b p (t :: l) q.

(* A message with the element types [types], its elements read from position [p]. The loop comes to an element of
   type [t] at [q], types in ascending order, all of them types of the message; and
   - decoding it panics, or
   - it is the 256th of its type, counted with 8 bits, or
   - it is the first GSN address of an Update PDP Context Request (message type 18) and is refused, because the error
     handling looks up how many there were. *)
Definition elements_crash (code : N) (types : list N) (m : mode) (b : list N) (p : nat) : Prop :=
  exists l q t, read_up_to m b p l q /\ nth_error b q = Some t /\ StronglySorted N.le (l ++ [t]) /\
    Forall (fun u => In u types) (l ++ [t]) /\
    (element_crashes m (skipn q b) \/
     (m = Debug /\ count_occ N.eq_dec l t = 255%nat /\ exists k i, code_kind t = Some k /\ V1CKind.ie1_unmarshal k m (skipn q b) = Ok i) \/
     (code = 18 /\ t = 133 /\ ~ In 133 l /\ exists e, V1CIe.CGsn_unmarshal m (skipn q b) = Err e)).

(* a private extension *)
Definition private_crashes (m : mode) (s : list N) : Prop := after_check two_missing m s.
(* a list of extension header types: length octet, and length + 2 of 8 bits *)
Definition type_list_crashes (m : mode) (s : list N) : Prop :=
  octet s 0 = 141 /\ (length s = 1%nat \/ (m = Debug /\ 254 <= octet s 1)).

(* --- packets ---------------------------------------------------------------------------------------------- *)
(* The length field of the header plus 8, of 16 bits, is compared with the packet. *)
Definition total_overflows (m : mode) (l : N) : Prop := m = Debug /\ 65528 <= l.
Definition total_fits (l : N) (b : list N) : Prop := (l + 8) mod 65536 <= nlen b.
(* A GTPv1-C packet is read as one of message type [code]: its header is decoded as a header of that type with the
   length field [l], and says that it takes [n] octets. *)
Definition read_c (code : N) (m : mode) (b : list N) (l : N) (n : nat) : Prop :=
  exists h, V1CHdr.chdr_unmarshal m b = Ok h /\ V1CHdr.c_msgtype h = code /\ V1CHdr.c_length h = l /\ V1CHdr.chdr_len m h = Ok n.
Definition read_u (code : N) (m : mode) (b : list N) (l : N) (n : nat) : Prop :=
  exists h, V1U.hdr_unmarshal m b = Ok h /\ V1U.msgtype h = code /\ V1U.h_length h = l /\ V1U.get_header_size m h = Ok n.

(* the messages decoded by a loop over their elements *)
Definition message_c_crashes (code : N) (types : list N) (m : mode) (b : list N) : Prop :=
  header_c_crashes m b \/ exists l n, read_c code m b l n /\
    (total_overflows m l \/ (total_fits l b /\ elements_crash code types m b n)).
(* A header with a sequence number in a packet that ends before it says that it takes 12 octets: the rest of the packet
   starts behind its end. *)
Definition echo_request_c_crashes (m : mode) (b : list N) : Prop :=
  header_c_crashes m b \/ exists l n, read_c 1 m b l n /\ l < nlen b /\ ((length b < n)%nat \/ private_crashes m (skipn n b)).
Definition echo_response_c_crashes (m : mode) (b : list N) : Prop :=
  header_c_crashes m b \/ exists l n, read_c 2 m b l n /\ l + 4 < nlen b /\ (n + 2 < length b)%nat /\ octet b n = 14 /\ private_crashes m (skipn (n + 2) b).
Definition extensions_c_crashes (m : mode) (b : list N) : Prop :=
  header_c_crashes m b \/ exists l n, read_c 31 m b l n /\
    (total_overflows m l \/ (total_fits l b /\ ((length b < n)%nat \/ ((n < length b)%nat /\ type_list_crashes m (skipn n b))))).

(* GTP-U: the header always lies within the packet *)
Definition plain_u_crashes (code : N) (m : mode) (b : list N) : Prop :=
  header_u_crashes m b \/ exists l n, read_u code m b l n /\ l < nlen b /\ private_crashes m (skipn n b).
Definition echo_response_u_crashes (m : mode) (b : list N) : Prop :=
  header_u_crashes m b \/ exists l n, read_u 2 m b l n /\ l + 4 < nlen b /\ (n + 2 < length b)%nat /\ octet b n = 14 /\ private_crashes m (skipn (n + 2) b).
(* TEID, GSN address and private extension are coded as in GTPv1-C *)
Definition error_indication_crashes (m : mode) (b : list N) : Prop :=
  header_u_crashes m b \/ exists l n, read_u 26 m b l n /\
    (total_overflows m l \/ (total_fits l b /\ elements_crash 26 [16; 133; 255] m b n)).
(* the T-PDU goes from the end of the header to the end of the message: a length that ends within the header *)
Definition gpdu_crashes (m : mode) (b : list N) : Prop :=
  header_u_crashes m b \/ exists l n, read_u 255 m b l n /\
    (total_overflows m l \/ (total_fits l b /\ (l + 8) mod 65536 < N.of_nat n)).
Definition extensions_u_crashes (m : mode) (b : list N) : Prop :=
  header_u_crashes m b \/ exists l n, read_u 31 m b l n /\
    (total_overflows m l \/ (total_fits l b /\ (n < length b)%nat /\ type_list_crashes m (skipn n b))).
