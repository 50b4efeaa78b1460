(* V1UErrSpec.v - which octets are not a GTP-U header or message, and for what reason, written
   independently of the decoders of the model. [refused] cases are reported as an error; [crashes]
   cases stop the program (in a build with overflow checks). *)
From Verif Require Import Base V1USpec.
From Verif Require Export V1UWireSpec.
From Coq Require Import Sorted.
Local Open Scope N_scope.

(* Extension headers (from a next-type octet on): after some good ones there is one with length 0
   or one that the packet cuts short. *)
Inductive chain_refused : list N -> Prop :=
| refused_zero_ext t r : t <> 0 -> chain_refused (t :: 0 :: r)
| refused_cut_ext t l r : t <> 0 -> 1 <= l <= 63 -> nlen r + 2 < 4 * l -> chain_refused (t :: l :: r)
| refused_later_ext t l v q : t <> 0 -> 1 <= l <= 63 -> nlen v + 2 = 4 * l -> chain_refused q ->
    chain_refused (t :: l :: v ++ q).
(* After some good ones the packet ends without the terminating 0, or after a type octet, or there
   is one of 64 units or more. *)
Inductive chain_crashes : list N -> Prop :=
| crash_no_end : chain_crashes []
| crash_lone_type t : t <> 0 -> chain_crashes [t]
| crash_long_ext t l r : t <> 0 -> 64 <= l -> chain_crashes (t :: l :: r)
| crash_later_ext t l v q : t <> 0 -> 1 <= l <= 63 -> nlen v + 2 = 4 * l -> chain_crashes q ->
    chain_crashes (t :: l :: v ++ q).

(* version 1 and protocol type 1 *)
Definition gtp_version (b0 : N) : Prop := b0 / 32 = 1 /\ N.testbit b0 4 = true.
Definition some_flag (b0 : N) : bool := flag_S b0 || flag_PN b0 || flag_E b0.

Inductive header_refused : list N -> GTPV1Error -> Prop :=
| refused_short b : nlen b < 8 -> header_refused b HeaderInvalidLength
| refused_version b0 r : 7 <= nlen r -> ~ gtp_version b0 -> header_refused (b0 :: r) HeaderVersionNotSupported
| refused_zero b0 t r : 4 <= nlen r -> gtp_version b0 -> header_refused (b0 :: t :: 0 :: 0 :: r) HeaderInvalidLength
| refused_optional b0 t l1 l2 r : gtp_version b0 -> 256 * l1 + l2 <> 0 -> some_flag b0 = true ->
    4 <= nlen r < 8 -> header_refused (b0 :: t :: l1 :: l2 :: r) HeaderInvalidLength
| refused_extensions b0 t l1 l2 a b c d s1 s2 n q : gtp_version b0 -> 256 * l1 + l2 <> 0 ->
    walks_extensions b0 = true -> chain_refused q ->
    header_refused (b0 :: t :: l1 :: l2 :: a :: b :: c :: d :: s1 :: s2 :: n :: q) ExtHeaderInvalidLength.
Inductive header_crashes : list N -> Prop :=
| crash_extensions b0 t l1 l2 a b c d s1 s2 n x q : gtp_version b0 -> 256 * l1 + l2 <> 0 ->
    walks_extensions b0 = true -> chain_crashes (x :: q) ->
    header_crashes (b0 :: t :: l1 :: l2 :: a :: b :: c :: d :: s1 :: s2 :: n :: x :: q).

(* A private extension at [s] (type octet first) stops the program. *)
Definition private_crashes (s : list N) : Prop :=
  match s with
  | _ :: l1 :: l2 :: v => 65533 <= 256 * l1 + l2 \/ (256 * l1 + l2 = 1 /\ nlen v = 1)
  | _ => False
  end.
(* The octets [q] after the type octet of a GSN address are not an address. *)
Definition address_refused (q : list N) : Prop :=
  match q with
  | l1 :: l2 :: v => let l := 256 * l1 + l2 in l = 0 \/ (l <= 65532 /\ (nlen v < l \/ (l <> 4 /\ l <> 16)))
  | _ => True
  end.

(* [element s e q]: [s] starts with the element [e] of an Error Indication and goes on with [q]. *)
Inductive element : list N -> uelem -> list N -> Prop :=
| el_teid a b c d r : element (16 :: a :: b :: c :: d :: r) (UT (mkTeid 16 (16777216 * a + 65536 * b + 256 * c + d))) r
| el_v4 a b c d r : element (133 :: 0 :: 4 :: a :: b :: c :: d :: r) (UG (mkGsn 133 4 (V4 a b c d))) r
| el_v6 o r : length o = 16%nat -> element (133 :: 0 :: 16 :: o ++ r) (UG (mkGsn 133 16 (V6 o))) r
| el_pe s x : private_at s x -> hd 0 s = 255 -> element s (UP x) (skipn (N.to_nat (pe_length x) + 3) s).
Inductive starts : list N -> list uelem -> list N -> Prop :=
| starts_here q : starts q [] q
| starts_more s e r l q : element s e r -> starts r l q -> starts s (e :: l) q.

Definition in_order (l : list uelem) (t : N) : Prop := Forall (fun e => ucode e <= t) l.
Definition same (t : N) (l : list uelem) : nat := length (filter (fun e => ucode e =? t) l).
(* The elements [l] are in order, with at most 255 of a type. *)
Definition walked (l : list uelem) : Prop :=
  StronglySorted N.le (map ucode l) /\ forall t, (same t l <= 255)%nat.
(* After the elements [l], the octets [q] are no element to go on with: [Some e] is the error for
   that, [None] a crash. *)
Inductive stops (l : list uelem) : list N -> option GTPV1Error -> Prop :=
| stop_order t q : ~ in_order l t -> stops l (t :: q) (Some MessageInvalidMessageFormat)
| stop_unknown t q : in_order l t -> ~ In t [16; 133; 255] -> stops l (t :: q) (Some MessageInvalidMessageFormat)
| stop_teid q : in_order l 16 -> nlen q < 4 -> stops l (16 :: q) (Some MessageMandatoryIEMissing)
| stop_gsn q : in_order l 133 -> address_refused q -> stops l (133 :: q) (Some MessageMandatoryIEMissing)
| stop_pe q : private_opt (255 :: q) None -> stops l (255 :: q) (Some MessageOptionalIEIncorrect)
| crash_gsn l1 l2 q : in_order l 133 -> 65533 <= 256 * l1 + l2 -> stops l (133 :: l1 :: l2 :: q) None
| crash_pe q : private_crashes (255 :: q) -> stops l (255 :: q) None
| crash_many s e r : element s e r -> in_order l (ucode e) -> same (ucode e) l = 255%nat -> stops l s None.
