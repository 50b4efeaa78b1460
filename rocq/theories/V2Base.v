(* V2Base.v - GTPv2-C errors, header and the parts of src/gtpv2/utils.rs every IE uses. *)
From Verif Require Import Base.
From Verif Require Export Digits Labels.
Local Open Scope N_scope.

(* src/gtpv2/errors.rs 5-22 *)
Inductive GTPV2Error :=
| HeaderInvalidLength | HeaderVersionNotSupported | HeaderFlagError | HeaderTypeMismatch
| MandatoryHeaderFlagError
| IEInvalidLength (t : N) | IEIncorrect (t : N)
| MessageInvalidLength (t : N) | MessageNotSupported | MessageMandatoryIEMissing (t : N)
| MessageOptionalIEIncorrect (t : N) | MessageInvalidMessageFormat
| MessageIncorrectMessageType.

Notation res := (Base.res GTPV2Error).

(* ------------------------------------------------------------------------- *)
(* src/gtpv2/header.rs                                                        *)

(* header.rs 7-9 *)
Definition MANDATORY_HDR_LENGTH : nat := 4.
Definition MIN_HEADER_LENGTH : nat := 8.
Definition MAX_HEADER_LENGTH : nat := 12.

(* header.rs 12-19 *)
Record Gtpv2Header := mkHdr2 {
  h2_msgtype : N; h2_piggyback : bool; h2_prio : option N; h2_length : N;
  h2_teid : option N; h2_sqn : N }.

(* header.rs 106-118 *)
Definition h2_flags (h : Gtpv2Header) : N :=
  let flags := if is_some (h2_prio h) then 4 else 0 in
  let flags := if is_some (h2_teid h) then N.lor flags 8 else flags in
  let flags := if h2_piggyback h then N.lor flags 16 else flags in
  N.lor flags 64.

(* header.rs 37-49, the octets appended. [i << 4] is a u8 shift. *)
Definition h2_marshal (h : Gtpv2Header) : list N :=
  [h2_flags h; h2_msgtype h] ++ enc16 (h2_length h)
  ++ match h2_teid h with Some i => enc32 i | None => [] end
  ++ enc24 (h2_sqn h)
  ++ [match h2_prio h with Some i => (N.shiftl i 4) mod 256 | None => 0 end].

(* header.rs 51-102 *)
Definition h2_unmarshal (b : list N) : res Gtpv2Header :=
  if (MIN_HEADER_LENGTH <=? length b)%nat then
    let? b0 := at_ b 0 in
    if negb (N.shiftr b0 5 =? 2) then Err HeaderVersionNotSupported
    else if N.land (N.shiftr b0 3) 1 =? 0 then
      let pb := negb (N.land (N.shiftr b0 4) 1 =? 0) in
      let? mt := at_ b 1 in let? l1 := at_ b 2 in let? l2 := at_ b 3 in
      let len := be16 l1 l2 in
      if len =? 0 then Err HeaderInvalidLength
      else if len <? 4 then Err (MessageInvalidLength 0)
      else
        let? s1 := at_ b 4 in let? s2 := at_ b 5 in let? s3 := at_ b 6 in
        Ok (mkHdr2 mt pb None len None (be32 0 s1 s2 s3))
    else
      if (MAX_HEADER_LENGTH <=? length b)%nat then
        let pb := negb (N.land (N.shiftr b0 4) 1 =? 0) in
        let? mt := at_ b 1 in let? l1 := at_ b 2 in let? l2 := at_ b 3 in
        let len := be16 l1 l2 in
        if len <? 8 then Err (MessageInvalidLength 0)
        else
          let? t1 := at_ b 4 in let? t2 := at_ b 5 in let? t3 := at_ b 6 in let? t4 := at_ b 7 in
          let? s1 := at_ b 8 in let? s2 := at_ b 9 in let? s3 := at_ b 10 in
          let? p := at_ b 11 in
          let prio := if N.land (N.shiftr b0 2) 1 =? 0 then None else Some (N.shiftr p 4) in
          Ok (mkHdr2 mt pb prio len (Some (be32 t1 t2 t3 t4)) (be32 0 s1 s2 s3))
      else Err (MessageInvalidLength 0)
  else Err (MessageInvalidLength 0).

(* ------------------------------------------------------------------------- *)
(* src/gtpv2/utils.rs                                                         *)

(* utils.rs 193-197: octets 2,3 of the whole buffer := (len - 4) as u16. The usize
   subtraction cannot underflow: every caller has just written a header. *)
Definition set_msg_length (b : list N) : list N :=
  let size := (nlen b - 4) mod 65536 in
  set_nth (set_nth b 2 ((size / 256) mod 256)) 3 (size mod 256).

(* utils.rs 201-205: octets 1,2 := (len - 4) as u16 *)
Definition set_tliv_ie_length (b : list N) : list N :=
  let size := (nlen b - 4) mod 65536 in
  set_nth (set_nth b 1 ((size / 256) mod 256)) 2 (size mod 256).

(* utils.rs 209-215: [(i + 4)] is a u16 addition *)
Definition check_tliv_ie_buffer (m : mode) (len : N) (b : list N) : res bool :=
  if len =? 0 then Ok false
  else let? s := add16 m len 4 in Ok (N.to_nat s <=? length b)%nat.

(* ------------------------------------------------------------------------- *)
(* Information elements. Every IE struct of src/gtpv2/messages/ies has the fields t,
   length and ins plus the fields of its value. The model keeps the first three in one
   record type shared by all IEs and puts the rest in [v]. *)
Record Tliv (A : Type) := mkIe { ie_t : N; ie_length : N; ie_ins : N; ie_v : A }.
Arguments mkIe {A}.
Arguments ie_t {A}.
Arguments ie_length {A}.
Arguments ie_ins {A}.
Arguments ie_v {A}.

(* ies/commons.rs: MIN_IE_SIZE *)
Definition MIN_IE_SIZE : nat := 4.

(* The common body of every IE [marshal]: a fresh buffer_ie gets the type, the length
   field, the instance and the value octets; set_tliv_ie_length fixes the length; the
   buffer_ie is appended. The model of an IE [marshal] is the list of appended octets. *)
Definition tliv (t len ins : N) (v : list N) : list N :=
  set_tliv_ie_length ([t] ++ enc16 len ++ [ins] ++ v).

(* [if buffer.len() >= n { .. } else { Err(e) }] *)
Definition need {A} (b : list N) (n : nat) (e : GTPV2Error) (k : res A) : res A :=
  if (n <=? length b)%nat then k else Err e.

(* Reading length (octets 1,2) and the instance octet 3. *)
Definition hdr4 {A} (b : list N) (k : N -> N -> res A) : res A :=
  let? l1 := at_ b 1 in let? l2 := at_ b 2 in let? i := at_ b 3 in k (be16 l1 l2) i.

(* [if check_tliv_ie_buffer(length, buffer) { k } else { Err(e) }] *)
Definition checked {A} (m : mode) (len : N) (b : list N) (e : GTPV2Error) (k : res A) : res A :=
  let? ok := check_tliv_ie_buffer m len b in if ok then k else Err e.

(* The three forms of [len()] in the IEs: a constant; (length as usize) + 4; and
   (length + 4) as usize, whose addition is on u16. *)
Definition len_const (n : nat) : res nat := Ok n.
Definition len_usize {A} (x : Tliv A) : res nat := Ok (N.to_nat (ie_length x) + 4)%nat.
Definition len_u16 {A} (m : mode) (x : Tliv A) : res nat :=
  let? s := add16 m (ie_length x) 4 in Ok (N.to_nat s).

(* u8 shift left *)
Definition shl8 (x k : N) : N := (N.shiftl x k) mod 256.

(* u16 addition used as a slice bound *)
Definition end16 (m : mode) (len k : N) : res nat := let? s := add16 m len k in Ok (N.to_nat s).

(* n consecutive octets from index k read as one big-endian number: the
   uN::from_be_bytes([buffer[k], .., buffer[k+n-1]]) of the IEs *)
Definition be_at (b : list N) (k n : nat) : res N :=
  let? s := slice b k (k + n) in Ok (be_list 0 s).

(* An IE built by [X { length, ins: buffer[3] & 0x0f, .., ..X::default() }] *)
Definition std {A} (T len ins : N) (v : A) : Tliv A := mkIe T len (N.land ins 15) v.

(* [if b { flags |= v }] and [flags & v == v] for a single-bit v; (b as u8) << k and
   (x >> k) & 1 == 1 are the same with v = 2^k *)
Definition flag (b : bool) (v : N) : N := if b then v else 0.
Definition bit (x v : N) : bool := N.land x v =? v.

(* The common marshal of an IE with type code T and value octets [value v] *)
Definition marshal_ie {A} (T : N) (value : A -> list N) (x : Tliv A) : list N :=
  tliv T (ie_length x) (ie_ins x) (value (ie_v x)).
