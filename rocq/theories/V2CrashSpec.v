(* V2CrashSpec.v - specification: the octets at which the decoder of a GTPv2-C information element stops with a
   panic instead of returning. [s] is everything from the type octet of the element to the end of the buffer. Only
   the positions the code looks at and the number of octets there are matter; the values that are read are not
   mentioned. [declared], [value_of], [oct], [labels_fit] and [grouped_codes] are in V2WireSpec.v. *)
From Verif Require Import Base V2Base V2Common V2WireSpec.
From Verif Require V2Decoder.
Local Open Scope N_scope.

(* The octets the length field announces are there, and there is at least one. *)
Definition fits (s : list N) : Prop := 1 <= declared s /\ (4 + N.to_nat (declared s) <= length s)%nat.
Definition flag_at (s : list N) (c : nat) (i : N) : bool := N.testbit (oct s c) i.
Definition lof (s : list N) (c : nat) : nat := N.to_nat (oct s c).
Definition if_set (b : bool) (n : nat) : nat := if b then n else 0%nat.

(* --- walking through an element field by field ---------------------------------------------------------- *)
(* A step starts at a position and ends at the next one, or the element is refused with an error, or an octet is
   used that is not there. *)
Inductive look := On (c : nat) | Refused | Overrun.
Definition step := list N -> nat -> look.
Fixpoint walk (l : list step) (s : list N) (c : nat) : look :=
  match l with
  | [] => On c
  | f :: r => match f s c with On c' => walk r s c' | x => x end
  end.
(* [n] octets that are checked; octets that are only used if they are there; one octet that is not checked *)
Definition insist (n : nat) : step := fun s c => if (c + n <=? length s)%nat then On (c + n) else Refused.
Definition maybe (n : nat) : step := fun s c => if (c + n <=? length s)%nat then On (c + n) else On c.
Definition trust : step := fun s c => if (c <? length s)%nat then On (S c) else Overrun.
Definition only_if (b : bool) (f : step) : step := fun s c => if b then f s c else On c.
(* a length octet, which is not checked, and that many octets, which are; without them the next field starts [z]
   octets further on *)
Definition counted (z : nat) : step := fun s c =>
  if (c <? length s)%nat then
    if oct s c =? 0 then On (c + z) else
    if (c + 1 + lof s c <=? length s)%nat then On (c + 1 + lof s c) else Refused
  else Overrun.
(* the same field inside an authentication vector, where it may be empty *)
Definition string : step := fun s c =>
  if (c <? length s)%nat then
    if (c + 1 + lof s c <=? length s)%nat then On (c + 1 + lof s c) else Refused
  else Overrun.
(* authentication vectors. Quintuplet: RAND, XRES, CK and IK, AUTN; quadruplet: RAND, XRES, AUTN, KASME. A position
   behind the end of the buffer cannot start one. *)
Definition start : step := fun s c => if (c <=? length s)%nat then On c else Overrun.
Definition quintuplet : list step := [start; insist 16; string; insist 32; string].
Definition quadruplet : list step := [start; (fun s c => if (c + 17 <=? length s)%nat then On (c + 16) else Refused); string; string; insist 32].
Definition several (n : N) (v : list step) : step := fun s c =>
  if n <=? 5 then walk (concat (repeat v (N.to_nat n))) s c else Refused.
Definition triplets (n : N) : step := fun s c =>
  if n <=? 5 then insist (28 * N.to_nat n) s c else Refused.
(* an old EPS security context *)
Definition old_context : step := fun s c =>
  if (c <? length s)%nat then insist (if 128 <=? oct s c then 65 else 33) s c else Overrun.
(* the higher bitrates flag: a length octet; if what it counts is there, the octet after it is looked at *)
Definition higher_flag : step := fun s c =>
  if (c <? length s)%nat then
    if (S c + lof s c <=? length s)%nat then
      if (S c <? length s)%nat then On (S c + lof s c) else Overrun
    else On (S c)
  else Overrun.
(* the IOV updates counter is refused unless announced *)
Definition iov_counter (announced : bool) : step := fun s c =>
  if announced && (c <=? length s)%nat then trust s c else Refused.
(* extended access restriction data: length 0 or 1; a length of 0 is not skipped *)
Definition ext_restriction : step := fun s c =>
  if (c <? length s)%nat then
    if oct s c =? 1 then (if (S c <? length s)%nat then On (S (S c)) else Overrun)
    else if oct s c =? 0 then On c else Refused
  else Overrun.
(* APN rate control statuses: read for as long as one can be read *)
Definition u16 (s : list N) (c : nat) : nat := N.to_nat (256 * oct s c + oct s (S c)).
Definition rate_status (s : list N) (c : nat) : look :=
  let n := (length s - c)%nat in
  if (length s <? c)%nat then Overrun else
  if (n <? 2)%nat || (n <? u16 s c + 2)%nat then Refused else
  if (n <? 4)%nat then Overrun else
  let k := u16 s (c + 2) in
  if (n <? k + 24)%nat then Refused else
  On (c + 24 + length (utf8 (utf8_lossy (firstn k (skipn (c + 4) s)))))%nat.
Fixpoint rate_run (fuel : nat) (s : list N) (c : nat) : look :=
  match fuel with
  | O => On c
  | S f => match rate_status s c with On c' => rate_run f s c' | Refused => On c | Overrun => Overrun end
  end.
Definition rate_statuses : step := fun s c =>
  if (c <? length s)%nat then
    if oct s c =? 0 then On c else
    if (S c + lof s c <=? length s)%nat then rate_run (S (length s)) s (S c) else Refused
  else Overrun.
(* the last octet, read if the position is not behind the end *)
Definition last_flags : step := fun s c =>
  if (c <=? length s)%nat then trust s c else On c.

(* --- the elements --------------------------------------------------------------------------------------- *)
(* APN, FQDN, PGW FQDN: the labels do not end with the value; the same behind the octet of APN and Relative Capacity *)
Definition name_overruns (k : nat) (s : list N) : Prop := fits s /\ ~ labels_fit (skipn k (value_of s)).
(* Indication: the length is not compared with the buffer *)
Definition indication_overruns (s : list N) : Prop := (4 <= length s < 4 + N.to_nat (declared s))%nat.
(* ULI: the routing area is counted with seven octets but read with six; another location follows *)
Definition uli_overruns (s : list N) : Prop :=
  fits s /\ flag_at s 4 2 = true /\ 8 <= oct s 4 /\
  length s = (5 + if_set (flag_at s 4 0) 7 + if_set (flag_at s 4 1) 7 + 6)%nat.
(* F-TEID: TEID and the announced addresses *)
Definition fteid_overruns (s : list N) : Prop :=
  fits s /\ (length s < 9 + if_set (flag_at s 4 7) 4 + if_set (flag_at s 4 6) 16)%nat.
(* S103 PDN Data Forwarding Info: address, GRE key, number of bearers; the check of the bearers is one short *)
Definition s103_overruns (s : list N) : Prop :=
  fits s /\ ((oct s 4 = 4 /\ (length s < 14)%nat) \/
             (oct s 4 = 16 /\ (length s = 25 \/ length s = 25 + lof s 25)%nat)).
(* S1-U Data Forwarding Info: address, TEID *)
Definition s1u_overruns (s : list N) : Prop :=
  fits s /\ (length s = 5%nat \/ (oct s 5 = 4 /\ (length s < 14)%nat) \/ (oct s 5 = 16 /\ (22 <= length s < 26)%nat)).
(* Node Number: an empty number, or one longer than the buffer *)
Definition node_number_overruns (s : list N) : Prop := fits s /\ (lof s 4 = 0 \/ length s < 5 + lof s 4)%nat.
(* Paging and Service Information: the policy indicator *)
Definition paging_overruns (s : list N) : Prop := length s = 6%nat /\ oct s 5 = 1.
(* PC5 QoS Flow: two bit rates and the optional range *)
Definition pc5_overruns (s : list N) : Prop := fits s /\ (length s < 14 + if_set (flag_at s 4 0) 1)%nat.
(* Special IE type: the inner type *)
Definition special_overruns (s : list N) : Prop := length s = 5%nat \/ ((6 <= length s)%nat /\ fits s /\ declared s = 1).
(* Private Extension: the enterprise id *)
Definition private_overruns (s : list N) : Prop := (7 <= length s)%nat /\ fits s /\ declared s = 1.
(* Source Identification: a source RNC of fewer than five octets *)
Definition source_overruns (s : list N) : Prop := (13 <= length s < 18)%nat /\ oct s 12 = 1.
(* MBMS IP Multicast Distribution: the octet that starts an address, or the last one, is missing *)
Definition ip_size (k : N) : option nat := if k =? 4 then Some 4%nat else if k =? 80 then Some 16%nat else None.
Definition multicast_overruns (s : list N) : Prop :=
  fits s /\ (8 <= length s)%nat /\
  (length s = 8%nat \/
   exists n1, ip_size (oct s 8) = Some n1 /\
     (length s = (9 + n1)%nat \/
      exists n2, ip_size (oct s (9 + n1)) = Some n2 /\ length s = (10 + n1 + n2)%nat)).
(* Additional MM Context for SRVCC: three fields, an empty one counts two octets *)
Definition srvcc_overruns (s : list N) : Prop := (5 <= length s)%nat /\ walk [counted 2; counted 2; counted 2] s 4 = Overrun.
(* MDT Configuration: the area scope and the flags behind it; the number of PLMNs *)
Definition mdt_overruns (s : list N) : Prop :=
  (15 <= length s)%nat /\
  let c := (15 + lof s 14)%nat in
  ((length s <= c)%nat \/
   (8 <= oct s c < 16 /\
    (length s <= c + 1 + if_set (flag_at s c 0) 1 + if_set (flag_at s c 1) 1 + if_set (flag_at s c 2) 1)%nat)).
(* Presence Reporting Area Action: the numbers of areas; then, when the areas end with the buffer, one more octet *)
Definition low6 (s : list N) (c : nat) : nat := N.to_nat (oct s c mod 64).
Definition praa_overruns (s : list N) : Prop :=
  fits s /\
  ((length s < 14)%nat \/
   length s = (14 + 5 * N.to_nat (oct s 8 / 16) + 6 * (low6 s 9 + low6 s 10)
               + 7 * (low6 s 11 + N.to_nat (oct s 8 mod 16) + low6 s 12 + low6 s 13))%nat).
(* Remote User ID: the IMSI *)
Definition remote_user_overruns (s : list N) : Prop := (6 <= length s < 6 + lof s 5)%nat.
(* Extended Trace Information: the octet that starts the list of network elements, that of the interfaces, or that of
   the address is missing *)
Definition trace_overruns (s : list N) : Prop :=
  (11 <= length s)%nat /\
  let c1 := (11 + lof s 10)%nat in
  (length s = c1 \/
   ((c1 < length s)%nat /\
    let c2 := (c1 + 1 + lof s c1)%nat in
    (length s = (c2 + 1)%nat \/
     ((c2 + 1 < length s)%nat /\ length s = (c2 + 2 + lof s (c2 + 1))%nat)))).
(* Monitoring Event Extension Information: the reference; the check of the identifier is one short *)
Definition monitoring_overruns (s : list N) : Prop := fits s /\ (length s < 10 \/ length s = 9 + lof s 9)%nat.

(* The MM contexts. Octet 4: bit 3 DRX parameter present, bit 4 next hop present; octet 5: number of quintuplets (or
   triplets) in the upper three bits, quadruplets in bits 2 to 4, UE-AMBRs in bits 0 and 1. *)
Definition mm_tail (s : list N) : list step := [counted 2; counted 2; counted 2; trust].
Definition mm_ambrs (s : list N) : list step := [only_if (flag_at s 5 0) (insist 8); only_if (flag_at s 5 1) (insist 8)].
Definition mm_drx (s : list N) : step := only_if (flag_at s 4 3) (maybe 2).
Definition first_count (s : list N) : N := oct s 5 / 32.
Definition second_count (s : list N) : N := oct s 5 / 4 mod 8.
Definition gsm_triplets_overruns (s : list N) : Prop :=
  (20 <= length s)%nat /\
  walk ([triplets (first_count s); mm_drx s] ++ mm_ambrs s ++ mm_tail s ++ [counted 1]) s 15 = Overrun.
Definition gsm_quintuplets_overruns (s : list N) : Prop :=
  (20 <= length s)%nat /\
  walk ([several (first_count s) quintuplet; mm_drx s] ++ mm_ambrs s ++ mm_tail s ++ [counted 1; higher_flag]) s 15 = Overrun.
Definition umts_cipher_overruns (s : list N) : Prop :=
  (40 <= length s)%nat /\
  walk ([several (first_count s) quintuplet; mm_drx s] ++ mm_ambrs s ++ mm_tail s ++
        [counted 2; higher_flag; iov_counter (flag_at s 5 4)]) s 39 = Overrun.
Definition umts_quintuplets_overruns (s : list N) : Prop :=
  (41 <= length s)%nat /\
  walk ([several (first_count s) quintuplet; mm_drx s] ++ mm_ambrs s ++ mm_tail s ++
        [counted 2; higher_flag; iov_counter (flag_at s 5 4); ext_restriction]) s 39 = Overrun.
Definition umts_quadruplets_overruns (s : list N) : Prop :=
  (43 <= length s)%nat /\
  walk ([several (second_count s) quadruplet; several (first_count s) quintuplet; mm_drx s] ++ mm_ambrs s ++ mm_tail s ++
        [counted 1; rate_statuses]) s 39 = Overrun.
Definition eps_overruns (s : list N) : Prop :=
  (46 <= length s)%nat /\
  walk ([several (second_count s) quadruplet; several (first_count s) quintuplet; mm_drx s; only_if (flag_at s 4 4) (maybe 33);
         only_if (flag_at s 6 7) (insist 8); only_if (flag_at s 5 1) (insist 8)] ++ mm_tail s ++
        [only_if (flag_at s 5 0) old_context; counted 1; counted 1; ext_restriction; counted 1; counted 1; rate_statuses;
         counted 1; counted 1; last_flags]) s 45 = Overrun.

Definition crash_table : list (N * (list N -> Prop)) := [
  (71, name_overruns 0); (136, name_overruns 0); (215, name_overruns 0); (184, name_overruns 1);
  (77, indication_overruns); (86, uli_overruns); (87, fteid_overruns); (90, s103_overruns); (91, s1u_overruns);
  (103, gsm_triplets_overruns); (104, umts_cipher_overruns); (105, gsm_quintuplets_overruns);
  (106, umts_quintuplets_overruns); (107, eps_overruns); (108, umts_quadruplets_overruns);
  (129, source_overruns); (142, multicast_overruns); (159, srvcc_overruns); (162, mdt_overruns);
  (175, node_number_overruns); (177, praa_overruns); (186, paging_overruns); (192, remote_user_overruns);
  (205, trace_overruns); (206, monitoring_overruns); (212, pc5_overruns); (254, special_overruns); (255, private_overruns) ].
(* The element at the head of [s] uses octets that are not there. *)
Definition overruns (s : list N) : Prop := exists P, In (oct s 0, P) crash_table /\ P s.

(* The positions at which an element is read while [b] is decoded: the start; what follows an element that was read;
   and the inside of a group whose octets are there. *)
Inductive looked_at (m : mode) : list N -> list N -> Prop :=
| look_here b : b <> [] -> looked_at m b b
| look_next b e n s : V2Decoder.decode_one (V2Decoder.decoder m) m b = Ok e -> V2Decoder.ie_len m e = Ok n ->
    looked_at m (skipn n b) s -> looked_at m b s
| look_inside b s : In (oct b 0) grouped_codes -> fits b -> looked_at m (value_of b) s -> looked_at m b s.
