(* V2LongSpec.v - specification: what an information element does that declares more than 65531 octets, so that the sum
   of the length and the four octets in front of the value does not fit into 16 bits. A debug build panics where the sum
   is computed. A release build goes on with the remainder, which is less than 4, and so takes the octets for complete.
   Together with V2CrashSpec.v this says of all octets whether reading an element of them panics. *)
From Verif Require Import Base V2Base V2Common V2WireSpec V2CrashSpec V2HangSpec.
From Verif Require V2Decoder.
Local Open Scope N_scope.

(* The declared octets are not all there. *)
Definition cut_short (s : list N) : Prop := (length s < 4 + N.to_nat (declared s))%nat.
Definition always (s : list N) : Prop := True.
Definition never (s : list N) : Prop := False.
Definition bad_name (k : nat) (s : list N) : Prop := cut_short s \/ ~ labels_fit (skipn k (value_of s)).
(* Presence Reporting Area Action: where the areas end *)
Definition praa_end (s : list N) : nat :=
  14 + 5 * N.to_nat (oct s 8 / 16)%N + 6 * (low6 s 9 + low6 s 10)
  + 7 * (low6 s 11 + N.to_nat (oct s 8 mod 16)%N + low6 s 12 + low6 s 13).
(* The elements that compute the sum: the number of octets below which they are refused before that, and what makes a
   release build panic. *)
Definition long_table : list (N * (nat * (list N -> Prop))) := [
  (1%N, (5, cut_short)); (219%N, (5, cut_short));                                                 (* IMSI, alternative IMSI *)
  (51%N, (4, always)); (75%N, (4, always)); (76%N, (4, always));                                    (* STN-SR, MEI, MSISDN *)
  (78%N, (4, always)); (197%N, (4, always)); (163%N, (4, cut_short));                               (* PCO, ePCO, APCO *)
  (71%N, (4, bad_name 0)); (136%N, (4, bad_name 0)); (215%N, (4, bad_name 0));                      (* APN, FQDN, PGW FQDN *)
  (184%N, (4, fun s => length s = 4 \/ bad_name 1 s));                                          (* APN and Relative Capacity *)
  (74%N, (4, never)); (132%N, (5, never)); (172%N, (6, never)); (176%N, (5, never)); (213%N, (5, never)); (* IP address, FQ-CSID, RAN/NAS cause, node identifier, SGi tunnel *)
  (79%N, (5, fun s => (oct s 4 = 1%N /\ length s < 9) \/ (oct s 4 = 2%N /\ length s < 22) \/ (oct s 4 = 3%N /\ length s < 26))); (* PAA *)
  (84%N, (4, cut_short)); (85%N, (4, cut_short)); (119%N, (5, cut_short)); (151%N, (4, cut_short));   (* TFT, TAD, F-Cause, LDN *)
  (187%N, (4, cut_short)); (216%N, (4, cut_short));                                               (* integer number, group id *)
  (86%N, (4, fun s => length s = 4 \/ (flag_at s 4 2 = true /\ (8 <= oct s 4)%N /\                  (* ULI *)
        length s = 5 + if_set (flag_at s 4 0) 7 + if_set (flag_at s 4 1) 7 + 6)));
  (87%N, (4, fun s => length s < 9 + if_set (flag_at s 4 7) 4 + if_set (flag_at s 4 6) 16));    (* F-TEID *)
  (90%N, (4, fun s => length s = 4 \/ (oct s 4 = 4%N /\ length s < 14) \/                           (* S103 PDN data forwarding info *)
        (oct s 4 = 16%N /\ (length s = 25 \/ length s = 25 + lof s 25))));
  (91%N, (4, fun s => length s < 6 \/ (oct s 5 = 4%N /\ length s < 14) \/ (oct s 5 = 16%N /\ 22 <= length s < 26))); (* S1-U *)
  (116%N, (5, fun s => (oct s 4 < 2)%N /\ cut_short s)); (118%N, (5, fun s => oct s 4 <> 0%N /\ cut_short s)); (* complete request, F-Container *)
  (125%N, (4, always)); (255%N, (7, always));                                                     (* source RNC PDCP context, private extension *)
  (139%N, (4, fun s => length s = 4));                                                          (* MBMS service area *)
  (142%N, (8, fun s => length s = 8 \/ exists n1, ip_size (oct s 8) = Some n1 /\                (* MBMS IP multicast distribution *)
        (length s = 9 + n1 \/ exists n2, ip_size (oct s (9 + n1)) = Some n2 /\ length s = 10 + n1 + n2)));
  (175%N, (5, fun s => lof s 4 = 0 \/ length s < 5 + lof s 4));                                 (* node number *)
  (177%N, (4, fun s => length s < 14 \/ length s = praa_end s));                                (* presence reporting area action *)
  (193%N, (5, fun s => (oct s 4 = 1%N /\ length s < 9) \/ (oct s 4 = 2%N /\ length s < 13)));       (* remote UE IP information *)
  (206%N, (4, fun s => length s < 10 \/ length s = 9 + lof s 9));                               (* monitoring event extension information *)
  (212%N, (4, fun s => length s < 14 + if_set (flag_at s 4 0) 1));                              (* PC5 QoS flow *)
  (254%N, (5, fun s => length s = 5 \/ cut_short s)) ]%nat.                                     (* special type *)
(* The elements that do not. *)
Definition unchecked_codes : list N :=
  [2; 3; 56; 72; 73; 77; 80; 81; 82; 83; 88; 89; 92; 94; 95; 96; 97; 99; 100; 103; 104; 105; 106; 107; 108; 110;
   111; 112; 113; 114; 115; 117; 120; 121; 123; 124; 126; 127; 128; 129; 131; 133; 134; 135; 137; 138; 140; 141;
   143; 144; 145; 146; 147; 148; 149; 150; 152; 153; 154; 155; 156; 157; 158; 159; 160; 162; 164; 165; 166; 167;
   168; 169; 170; 171; 173; 174; 178; 179; 182; 183; 185; 186; 188; 189; 190; 192; 194; 196; 198; 199; 200; 201;
   202; 203; 204; 205; 207; 210; 211; 217; 218].
(* The element at the head of [s], which declares more than 65531 octets, panics. The groups and the types nothing is
   known about are in none of the lists. *)
Definition long_crashes (m : mode) (s : list N) : Prop :=
  (exists n P, In (oct s 0, (n, P)) long_table /\ (n <= length s)%nat /\ (m = Debug \/ P s)) \/
  (In (oct s 0) unchecked_codes /\ overruns s) \/
  (~ In (oct s 0) (map fst long_table) /\ ~ In (oct s 0) unchecked_codes /\ (4 <= length s)%nat).

(* Reading an element at the head of [s] panics: while its octets are read or, in one case, when its size is computed. *)
Definition element_crashes (m : mode) (s : list N) : Prop :=
  (declared s <= 65531 /\ overruns s) \/
  (65531 < declared s /\ (long_crashes m s \/ (m = Debug /\ oct s 0 = 205 /\ trace_readable s))).
Definition elements_crash (m : mode) (b : list N) : Prop := exists s, comes_to m b s /\ element_crashes m s.
