(* V1HangSpec.v - specification: the octets at which decoding a GTPv1 packet does not come to an end. Debug builds always
   come to an end. In release builds a sum of 16 bits that overflows, or a product of 8 bits, gives the remainder; an
   element or an extension header whose size comes out as 0 is read again and again. *)
From Coq Require Import Sorting.Sorted.
From Verif Require Import Base V1CSafeSpec V1CMsgSpec V1CrashSpec.
Local Open Scope N_scope.

(* An extension header that says it has a multiple of 256 octets, and is long enough for contents of its type. A
   container is not: it crashes (V1CrashSpec.v). *)
Definition ext_repeats (need : N -> option nat) (r : list N) : Prop :=
  octet r 0 <> 0 /\ octet r 1 <> 0 /\ octet r 1 mod 64 = 0 /\ exists n, need (octet r 0) = Some n /\ (n <= length r)%nat.
Definition chain_hangs (need : N -> option nat) (m : mode) (r : list N) : Prop :=
  m = Release /\ exists s, ext_at m r s /\ ext_repeats need s.
Definition header_c_hangs (m : mode) (b : list N) : Prop :=
  (12 <= length b)%nat /\ octet b 0 / 16 = 3 /\ N.testbit (octet b 0) 2 = true /\ chain_hangs need_c m (skipn 11 b).
Definition header_u_hangs (m : mode) (b : list N) : Prop :=
  (12 <= length b)%nat /\ octet b 0 / 16 = 3 /\ 256 * octet b 2 + octet b 3 <> 0 /\
  (N.testbit (octet b 0) 2 = true \/ (N.testbit (octet b 0) 1 = false /\ N.testbit (octet b 0) 0 = true)) /\
  chain_hangs need_u m (skipn 11 b).

(* An element with the length field 65533. Its size is the sum of that and 3. *)
Definition name_full (s : list N) : Prop := 65536 <= nlen s /\ labels_exact (firstn (N.to_nat 65533) (skipn 3 s)).
Definition repeat_table1 : list (N * (list N -> Prop)) := [
  (131, name_full);                                                                           (* access point name *)
  (134, fun s => (12 <= length s)%nat /\ (octet s 3 mod 16 = 1 \/ octet s 3 mod 16 = 6));     (* MSISDN *)
  (148, fun s => (4 <= length s)%nat); (155, fun s => 65536 <= nlen s);                       (* common flags; CAMEL *)
  (182, fun s => (4 <= length s)%nat); (193, fun s => (4 <= length s)%nat);                   (* direct tunnel; extended flags *)
  (195, fun s => (4 <= length s)%nat); (202, fun s => (4 <= length s)%nat);                   (* CSG reporting; back-off time *)
  (218, fun s => (4 <= length s)%nat); (255, fun s => (5 <= length s)%nat) ].                 (* extended flags II; private extension *)
Definition element_repeats (m : mode) (s : list N) : Prop :=
  m = Release /\ declared s = 65533 /\ exists P, In (octet s 0, P) repeat_table1 /\ P s.

(* The loop comes to such an element, types in ascending order, all of them types of the message. *)
Definition elements_hang (types : list N) (m : mode) (b : list N) (p : nat) : Prop :=
  exists l q t, read_up_to m b p l q /\ nth_error b q = Some t /\ StronglySorted N.le (l ++ [t]) /\
    Forall (fun u => In u types) (l ++ [t]) /\ element_repeats m (skipn q b).
Definition message_c_hangs (code : N) (types : list N) (m : mode) (b : list N) : Prop :=
  header_c_hangs m b \/ exists l n, read_c code m b l n /\ total_fits l b /\ elements_hang types m b n.
Definition error_indication_hangs (m : mode) (b : list N) : Prop :=
  header_u_hangs m b \/ exists l n, read_u 26 m b l n /\ total_fits l b /\ elements_hang [16; 133; 255] m b n.
