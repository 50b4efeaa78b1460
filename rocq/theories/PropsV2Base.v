(* PropsV2Base.v - C10 to C13: GTPv2-C header, TBCD digits and PLMN identities.

   Reading aid: [h2_marshal h] is the list of octets Gtpv2Header::marshal appends,
   [h2_unmarshal b] the result of Gtpv2Header::unmarshal on buffer [b];
   strings are lists of character codes (48..57 are '0'..'9'). *)
From Verif Require Import V2BaseFacts.
Local Open Scope N_scope.

(* ------------------------------------------------------------------------- *)
(* C10                                                                        *)

(* With a TEID: every header whose fields fit their wire widths, in front of any octets. *)
Theorem C10_header_roundtrip : forall mt pb prio len teid sqn rest,
  8 <= len < 2 ^ 16 -> teid < 2 ^ 32 -> sqn < 2 ^ 24 ->
  match prio with Some p => p < 16 | None => True end ->
  h2_unmarshal (h2_marshal (mkHdr2 mt pb prio len (Some teid) sqn) ++ rest)
  = Ok (mkHdr2 mt pb prio len (Some teid) sqn).
Proof.
  intros * Hl Ht Hs Hp. apply h2_roundtrip. repeat split; cbn; unfold u16, u32; try lia.
  - intros p ->. exact Hp.
  - intros t [= <-]. exact Ht.
Qed.
Print Assumptions C10_header_roundtrip.

(* Without a TEID there is no room for a priority. *)
Theorem C10_header_roundtrip_no_teid : forall mt pb len sqn rest,
  4 <= len < 2 ^ 16 -> sqn < 2 ^ 24 ->
  h2_unmarshal (h2_marshal (mkHdr2 mt pb None len None sqn) ++ rest)
  = Ok (mkHdr2 mt pb None len None sqn).
Proof.
  intros * Hl Hs. apply h2_roundtrip. repeat split; cbn; unfold u16; try lia; discriminate.
Qed.
Print Assumptions C10_header_roundtrip_no_teid.

(* A priority on a header without TEID is written but never read back. *)
Theorem C10_priority_without_teid_refuted : forall mt pb p len sqn rest,
  p < 16 -> 4 <= len < 2 ^ 16 -> sqn < 2 ^ 24 ->
  h2_unmarshal (h2_marshal (mkHdr2 mt pb (Some p) len None sqn) ++ rest)
  = Ok (mkHdr2 mt pb None len None sqn).
Proof.
  intros * Hp Hl Hs. unfold h2_marshal, h2_unmarshal; cbn [h2_length h2_sqn h2_prio h2_teid h2_msgtype].
  assert (Hsq : forall x, x < 16777216 -> be32 0 ((x / 65536) mod 256) ((x / 256) mod 256) (x mod 256) = x)
    by (intros; unfold be32; lia).
  cbn [enc16 enc32 enc24 app length]. unfold MIN_HEADER_LENGTH, MAX_HEADER_LENGTH. cbn [Nat.leb].
  rewrite !at_cons, !at_0. cbn [bind].
  rewrite Hsq, be16_enc by (unfold u16; lia).
  destruct (N.ltb_spec len 4); [lia|]. destruct (N.eqb_spec len 0); [lia|].
  destruct pb; reflexivity.
Qed.
Print Assumptions C10_priority_without_teid_refuted.

Example C10_witness :
  h2_marshal (mkHdr2 32 true (Some 9) 200 (Some 305419896) 1193046)
  = [92; 32; 0; 200; 18; 52; 86; 120; 18; 52; 86; 144]
  /\ h2_unmarshal ([92; 32; 0; 200; 18; 52; 86; 120; 18; 52; 86; 144] ++ [1; 2])
     = Ok (mkHdr2 32 true (Some 9) 200 (Some 305419896) 1193046).
Proof. split; reflexivity. Qed.

(* ------------------------------------------------------------------------- *)
(* C11                                                                        *)

Theorem C11_header_total : forall b, returns (h2_unmarshal b).
Proof. exact h2_returns. Qed.
Print Assumptions C11_header_total.

(* Exactly which buffers are accepted: version 2 in the top three bits of the first octet,
   8 octets and a length of at least 4, or 12 octets and a length of at least 8 when the T
   flag (bit 3) is set. *)
Theorem C11_header_accepts_iff : forall b, bytes b ->
  ((exists h, h2_unmarshal b = Ok h) <->
   (8 <= length b)%nat /\ nth 0 b 0 / 32 = 2 /\
   let declared := nth 2 b 0 * 256 + nth 3 b 0 in
   if N.testbit (nth 0 b 0) 3 then (12 <= length b)%nat /\ 8 <= declared else 4 <= declared).
Proof.
  intros b Hb. unfold h2_unmarshal, MIN_HEADER_LENGTH, MAX_HEADER_LENGTH.
  destruct (Nat.leb_spec 8 (length b)) as [H|H].
  2:{ split; [intros [h Hh]; discriminate|intros [? _]; lia]. }
  list_split b H. rewrite !at_cons, !at_0. cbn [bind nth]. cbv zeta.
  rewrite N.shiftr_div_pow2. change (2 ^ 5) with 32.
  destruct (N.eqb_spec (x / 32) 2) as [Hv|Hv]; cbn [negb].
  2:{ split; [intros [h Hh]; discriminate|intros (_ & ? & _); contradiction]. }
  assert (Hbit : N.land (N.shiftr x 3) 1 = if N.testbit x 3 then 1 else 0).
  { rewrite N.testbit_odd. change 1 with (N.ones 1) at 1. rewrite N.land_ones. change (2 ^ 1) with 2.
    rewrite <- N.bit0_mod, N.bit0_odd. destruct (N.odd _); reflexivity. }
  rewrite Hbit. fold (be16 x1 x2). destruct (N.testbit x 3); cbn [N.eqb].
  - destruct (Nat.leb_spec 12 (length (x :: x0 :: x1 :: x2 :: x3 :: x4 :: x5 :: x6 :: b))) as [H2|H2].
    + pose proof H2 as H3. cbn [length] in H2. do 8 apply le_S_n in H2. list_split b H2.
      rewrite !at_cons, !at_0. cbn [bind]. destruct (N.ltb_spec (be16 x1 x2) 8).
      * split; [intros [h Hh]; discriminate|intros (_ & _ & _ & ?); lia].
      * split; [intros _; repeat split; auto; cbn [length]; lia|intros _; eexists; reflexivity].
    + split; [intros [h Hh]; discriminate|intros (_ & _ & ? & _); lia].
  - destruct (N.eqb_spec (be16 x1 x2) 0).
    { split; [intros [h Hh]; discriminate|intros (_ & _ & ?); lia]. }
    destruct (N.ltb_spec (be16 x1 x2) 4).
    + split; [intros [h Hh]; discriminate|intros (_ & _ & ?); lia].
    + split; [intros _; repeat split; auto; cbn [length]; lia|intros _; eexists; reflexivity].
Qed.
Print Assumptions C11_header_accepts_iff.

(* What an accepted header says. *)
Theorem C11_header_fields : forall b h, bytes b -> h2_unmarshal b = Ok h ->
  h2_msgtype h = nth 1 b 0 /\ h2_length h = nth 2 b 0 * 256 + nth 3 b 0 /\
  h2_piggyback h = N.testbit (nth 0 b 0) 4 /\
  (h2_teid h <> None <-> N.testbit (nth 0 b 0) 3 = true) /\
  (h2_prio h <> None <-> N.testbit (nth 0 b 0) 3 = true /\ N.testbit (nth 0 b 0) 2 = true).
Proof.
  intros b h Hb. unfold h2_unmarshal, MIN_HEADER_LENGTH, MAX_HEADER_LENGTH.
  destruct (Nat.leb_spec 8 (length b)) as [H|H]; [|discriminate].
  list_split b H. rewrite !at_cons, !at_0. cbn [bind nth].
  destruct (negb _); [discriminate|].
  assert (Hbit : forall k, N.land (N.shiftr x k) 1 = if N.testbit x k then 1 else 0).
  { intros k. rewrite N.testbit_odd. change 1 with (N.ones 1) at 1. rewrite N.land_ones. change (2 ^ 1) with 2.
    rewrite <- N.bit0_mod, N.bit0_odd. destruct (N.odd _); reflexivity. }
  rewrite !Hbit. destruct (N.testbit x 3); cbn [N.eqb].
  - destruct (Nat.leb_spec 12 (length (x :: x0 :: x1 :: x2 :: x3 :: x4 :: x5 :: x6 :: b))) as [H2|H2]; [|discriminate].
    cbn [length] in H2. do 8 apply le_S_n in H2. list_split b H2.
    rewrite !at_cons, !at_0. cbn [bind]. destruct (_ <? 8); [discriminate|]. intros [= <-].
    cbn [h2_msgtype h2_length h2_piggyback h2_teid h2_prio]. unfold be16.
    destruct (N.testbit x 4), (N.testbit x 2); cbn; repeat split; intros; try congruence; try discriminate; try reflexivity; intuition (try congruence; try discriminate).
  - destruct (be16 x1 x2 =? 0); [discriminate|]. destruct (_ <? 4); [discriminate|]. intros [= <-].
    cbn [h2_msgtype h2_length h2_piggyback h2_teid h2_prio]. unfold be16.
    destruct (N.testbit x 4), (N.testbit x 2); cbn; repeat split; intros; try congruence; try discriminate; try reflexivity; intuition (try congruence; try discriminate).
Qed.
Print Assumptions C11_header_fields.

Example C11_witness : (exists h, h2_unmarshal [72; 32; 0; 8; 0; 0; 0; 1; 0; 0; 2; 0] = Ok h)
  /\ h2_unmarshal [40; 32; 0; 8; 0; 0; 0; 1; 0; 0; 2; 0] = Err HeaderVersionNotSupported
  /\ h2_unmarshal [72; 32; 0; 7; 0; 0; 0; 1; 0; 0; 2; 0] = Err (MessageInvalidLength 0).
Proof. repeat split; try reflexivity. eexists. reflexivity. Qed.

(* ------------------------------------------------------------------------- *)
(* C12                                                                        *)

Theorem C12_tbcd_roundtrip : forall s, Forall (fun c => 48 <= c <= 57) s ->
  tbcd_decode (tbcd_encode s) = s.
Proof. intros s Hs. rewrite tbcd_decode_encode. apply digits_only_filter, Hs. Qed.
Print Assumptions C12_tbcd_roundtrip.

(* Size and octets of the encoding; other characters are dropped. *)
Theorem C12_tbcd_size : forall s, Forall (fun c => 48 <= c <= 57) s ->
  length (tbcd_encode s) = ((length s + 1) / 2)%nat /\ bytes (tbcd_encode s).
Proof. intros s Hs. split; [apply tbcd_encode_length, Hs|apply tbcd_encode_bytes]. Qed.
Print Assumptions C12_tbcd_size.

Theorem C12_tbcd_drops_non_digits : forall s,
  tbcd_decode (tbcd_encode s) = filter (fun c => (48 <=? c) && (c <=? 57)) s.
Proof. exact tbcd_decode_encode. Qed.
Print Assumptions C12_tbcd_drops_non_digits.

(* Two different digit strings never share an encoding. *)
Theorem C12_tbcd_injective : forall s t,
  Forall (fun c => 48 <= c <= 57) s -> Forall (fun c => 48 <= c <= 57) t ->
  tbcd_encode s = tbcd_encode t -> s = t.
Proof. intros s t Hs Ht E. rewrite <- (C12_tbcd_roundtrip s Hs), E. apply C12_tbcd_roundtrip, Ht. Qed.
Print Assumptions C12_tbcd_injective.

Example C12_witness : tbcd_encode [48; 50; 57; 53; 49] = [32; 89; 241]
  /\ tbcd_decode [32; 89; 241] = [48; 50; 57; 53; 49].
Proof. split; reflexivity. Qed.

(* ------------------------------------------------------------------------- *)
(* C13                                                                        *)

Theorem C13_plmn_roundtrip : forall mcc mnc (three : bool) rest,
  mcc < 1000 -> mnc < (if three then 1000 else 100) ->
  mcc_mnc_decode (E := GTPV2Error) (mcc_mnc_encode mcc mnc three ++ rest) = Ok (mcc, mnc, three).
Proof. intros mcc mnc three rest Hc Hn. apply plmn_exact; [exact Hc|destruct three; lia|destruct three; auto]. Qed.
Print Assumptions C13_plmn_roundtrip.

(* An MNC above 99 is always written with three digits, whatever the flag says. *)
Theorem C13_plmn_large_mnc : forall mcc mnc rest, mcc < 1000 -> 100 <= mnc < 1000 ->
  mcc_mnc_decode (E := GTPV2Error) (mcc_mnc_encode mcc mnc false ++ rest) = Ok (mcc, mnc, true).
Proof.
  intros mcc mnc rest Hc Hn. rewrite (plmn_roundtrip (E := GTPV2Error)) by lia. destruct (N.leb_spec 100 mnc); [reflexivity|lia].
Qed.
Print Assumptions C13_plmn_large_mnc.

(* The wire form is three octets: the 3GPP nibble layout. *)
Theorem C13_plmn_layout : forall mcc mnc (three : bool), mcc < 1000 -> mnc < (if three then 1000 else 100) ->
  mcc_mnc_encode mcc mnc three =
  let m1 := mcc / 100 in let m2 := (mcc / 10) mod 10 in let m3 := mcc mod 10 in
  if three then [m2 * 16 + m1; (mnc mod 10) * 16 + m3; ((mnc / 10) mod 10) * 16 + mnc / 100]
  else [m2 * 16 + m1; 15 * 16 + m3; (mnc mod 10) * 16 + mnc / 10].
Proof.
  exact plmn_layout.
Qed.
Print Assumptions C13_plmn_layout.

Example C13_witness : mcc_mnc_encode 262 1 false = [98; 242; 16]
  /\ mcc_mnc_encode 310 410 true = [19; 0; 20] /\ mcc_mnc_encode 1 1 true = [0; 17; 0].
Proof. repeat split; reflexivity. Qed.
