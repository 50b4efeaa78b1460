(* V2HangSpec.v - specification: the octets at which decoding a GTPv2-C packet does not come to an end. Debug builds
   always come to an end. In release builds the sum of 16 bits that gives the size of some elements is taken modulo
   65536; the size of an element that declares 65532 octets then comes out as 0, and it is read again and again.
   [declared], [value_of], [oct], [labels_fit] and [grouped_codes] are in V2WireSpec.v, [fits], [flag_at], [lof] and
   [if_set] in V2CrashSpec.v. *)
From Verif Require Import Base V2Base V2Common V2WireSpec V2CrashSpec.
From Verif Require V2Decoder.
Local Open Scope N_scope.

(* All the octets that are declared are there: never so in a packet. *)
Definition complete (s : list N) : Prop := 65536 <= nlen s.
(* Extended Trace Information: PLMN, trace id, events, network elements, depth, interfaces, address *)
Definition trace_readable (s : list N) : Prop :=
  let c1 := (11 + lof s 10)%nat in let c2 := (c1 + 1 + lof s c1)%nat in let c3 := (c2 + 2 + lof s (c2 + 1))%nat in
  (oct s c3 = 4 /\ (c3 + 5 <= length s)%nat) \/ (oct s c3 = 16 /\ (c3 + 17 <= length s)%nat).
(* FQ-CSID: four or, for kind 1, sixteen octets of address, and the identifiers *)
Definition csids_readable (s : list N) : Prop :=
  oct s 4 < 48 /\ (5 + (if (oct s 4 / 16 =? 1)%N then 16 else 4) + 2 * N.to_nat (oct s 4 mod 16)%N <= length s)%nat.
Definition repeat_table : list (N * (list N -> Prop)) := [
  (71, fun s => complete s /\ labels_fit (value_of s));                                       (* APN *)
  (136, fun s => complete s /\ labels_fit (value_of s));                                      (* FQDN *)
  (87, fun s => 64 <= oct s 4 /\ (9 + if_set (flag_at s 4 7) 4 + if_set (flag_at s 4 6) 16 <= length s)%nat); (* F-TEID *)
  (116, fun s => (5 <= length s)%nat /\ (oct s 4 < 2 -> complete s));                         (* Complete Request Message *)
  (118, fun s => (5 <= length s)%nat /\ (oct s 4 <> 0 -> complete s));                        (* F-Container *)
  (132, csids_readable);                                                                      (* FQ-CSID *)
  (151, complete);                                                                            (* local distinguished name *)
  (193, fun s => oct s 4 < 3 /\ (5 + 4 * N.to_nat (oct s 4) <= length s)%nat);                (* Remote UE IP Information *)
  (205, trace_readable) ].
Definition repeats (s : list N) : Prop := declared s = 65532 /\ exists P, In (oct s 0, P) repeat_table /\ P s.

(* The positions at which an element is read while [b] is decoded. As [looked_at] of V2CrashSpec.v, but a group that
   declares more than 65531 octets is never looked into: it is refused or crashes. *)
Inductive comes_to (m : mode) : list N -> list N -> Prop :=
| come_here b : b <> [] -> comes_to m b b
| come_next b e n s : V2Decoder.decode_one (V2Decoder.decoder m) m b = Ok e -> V2Decoder.ie_len m e = Ok n ->
    comes_to m (skipn n b) s -> comes_to m b s
| come_inside b s : In (oct b 0) grouped_codes -> fits b -> declared b <= 65531 -> comes_to m (value_of b) s -> comes_to m b s.

(* Decoding the elements of [b] does not come to an end. *)
Definition elements_hang (m : mode) (b : list N) : Prop := m = Release /\ exists s, comes_to m b s /\ repeats s.
