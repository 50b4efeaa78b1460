(* V2ReadSpec.v - what received octets mean as a GTPv2-C information element (TS 29.274, clause 8),
   written as a grammar and independently of the decoders: readers that take octets from the front
   of the packet, with numbers and bits as arithmetic. No buffer, no cursor, no error codes: a reader
   gives a value and the octets that follow it, or nothing.

   The value types are the ones of the crate. Where the crate reads something other than the standard
   says, the grammar is the crate's and a remark says so. *)
From Verif Require Import Base.
From Verif Require Export V2Decoder.
Local Open Scope N_scope.

(* ------------------------------------------------------------------------- *)
(* Readers *)

Definition reader (A : Type) := list N -> option (A * list N).
Definition yield {A} (a : A) : reader A := fun q => Some (a, q).
Definition refuse {A} : reader A := fun _ => None.
Definition andthen {A B} (p : reader A) (k : A -> reader B) : reader B :=
  fun q => match p q with Some (a, r) => k a r | None => None end.
Notation "'let!' x := p 'in' k" := (andthen p (fun x => k))
  (at level 200, x pattern, p at level 100, k at level 200, right associativity).
(* the next octet, the next n octets, the number in the next n octets *)
Definition take1 : reader N := fun q => match q with x :: r => Some (x, r) | [] => None end.
Definition take (n : nat) : reader (list N) :=
  fun q => if (n <=? length q)%nat then Some (firstn n q, skipn n q) else None.
Definition base256 (l : list N) : N := fold_left (fun a x => 256 * a + x) l 0.
Definition number (n : nat) : reader N := let! l := take n in yield (base256 l).
(* a length octet and so many octets *)
Definition counted : reader (list N) := let! n := take1 in take (N.to_nat n).
(* step over n octets, or over what is left *)
Definition pass (n : nat) : reader unit := fun q => Some (tt, skipn n q).
(* at least n octets are left *)
Definition room (n : nat) : reader unit := fun q => if (n <=? length q)%nat then Some (tt, q) else None.
Definition accept (c : bool) : reader unit := fun q => if c then Some (tt, q) else None.
Definition if_set {A} (c : bool) (p : reader A) : reader (option A) :=
  if c then let! a := p in yield (Some a) else yield None.
Fixpoint times {A} (n : nat) (p : reader A) : reader (list A) :=
  match n with O => yield [] | S k => let! a := p in let! l := times k p in yield (a :: l) end.
(* all the octets, of which nothing else is left *)
Definition the_rest : reader (list N) := fun q => Some (q, []).
(* bit n of an octet, from 0 *)
Definition bit_at (x n : N) : bool := (x / 2 ^ n) mod 2 =? 1.
(* entry number x of a table *)
Definition entry {A} (x : N) (table : list A) (otherwise : A) : A := nth (N.to_nat x) table otherwise.

(* Digits: the lower half of an octet comes first; halves that are not decimal are skipped. *)
Definition halves (o : list N) : list N := concat (map (fun x => [x mod 16; x / 16]) o).
Definition decimals (l : list N) : list N := filter (fun d => d <? 10) l.
Definition number_of (o : list N) : list N := map (fun d => 48 + d) (decimals (halves o)).
Definition decimal (l : list N) : N := fold_left (fun a d => 10 * a + d) (decimals l) 0.
(* TS 24.008 10.5.1.3: MCC 1-2 / MNC 3, MCC 3 / MNC 1-2; 15 for a missing third digit of the MNC *)
Definition plmn_of (a b c : N) : plmn :=
  mkPlmn (decimal [a mod 16; a / 16; b mod 16])
         (if b / 16 =? 15 then decimal [c mod 16; c / 16] else decimal [c mod 16; c / 16; b / 16])
         (negb (b / 16 =? 15)).
Definition plmn_ : reader plmn := let! a := take1 in let! b := take1 in let! c := take1 in yield (plmn_of a b c).

(* labels, each behind its length octet, and the name they make with dots in between *)
Fixpoint labels_in (fuel : nat) (o : list N) : option (list (list N)) :=
  match o with
  | [] => Some []
  | n :: r =>
      match fuel with
      | O => None
      | S f => if (N.to_nat n <=? length r)%nat then
                 match labels_in f (skipn (N.to_nat n) r) with
                 | Some ws => Some (firstn (N.to_nat n) r :: ws)
                 | None => None
                 end
               else None
      end
  end.
Fixpoint dotted (ws : list (list N)) : list N :=
  match ws with
  | [] => []
  | [w] => w
  | w :: r => w ++ 46 :: dotted r
  end.
Definition name_in (o : list N) : option (list N) := option_map dotted (labels_in (length o) o).

(* ------------------------------------------------------------------------- *)
(* The frame: type, two octets of length, an octet with the instance in its low half. *)

(* [p] gets the length and the fourth octet, and reads the packet after the header. The length need
   not have anything to do with how much [p] reads. *)
Definition element {A} (T : N) (instance : N -> N) (p : N -> N -> reader A) (s : list N) : option (Tliv A) :=
  match s with
  | _ :: a :: b :: c :: q =>
      match p (256 * a + b) c q with
      | Some (v, _) => Some (mkIe T (256 * a + b) (instance c) v)
      | None => None
      end
  | _ => None
  end.
Definition low_half (c : N) : N := c mod 16.
Definition whole (c : N) : N := c.
(* a value of its own size, whatever the length says *)
Definition open {A} (T : N) (p : reader A) := element T low_half (fun _ _ => p).
(* REMARK: in some elements the spare bits are left in the instance *)
Definition open' {A} (T : N) (p : reader A) := element T whole (fun _ _ => p).
(* the length is at least one, and so many octets follow; 65531 is the largest u16 to which four can be added *)
Definition fits (len : N) (q : list N) : bool := (1 <=? len) && (len <=? 65531) && (len <=? nlen q).
Definition checked_ {A} (T : N) (instance : N -> N) (p : N -> reader A) :=
  element T instance (fun len _ q => if fits len q then p len q else None).
(* ... but the value may be read beyond it *)
Definition loose {A} (T : N) (p : reader A) := checked_ T low_half (fun _ => p).
(* ... and the value is these octets *)
Definition closed {A} (T : N) (p : list N -> option A) :=
  checked_ T low_half (fun len q => match p (firstn (N.to_nat len) q) with Some v => Some (v, []) | None => None end).
Definition within {A} (p : reader A) (v : list N) : option A := option_map fst (p v).
Definition string_ (v : list N) : option (list N) := Some v.
Definition digits_ (v : list N) : option (list N) := Some (number_of v).
(* one octet, through a function *)
Definition octet_as {A} (f : N -> A) : reader A := let! x := take1 in yield (f x).
Definition same (x : N) : N := x.
(* 0 or 1 in a whole octet *)
Definition yes_no : reader bool := let! x := take1 in let! _ := accept (x <? 2) in yield (x =? 1).

(* ------------------------------------------------------------------------- *)
(* Parts of elements *)

Definition Cgi_ : reader cgi := let! p := plmn_ in let! l := number 2 in let! c := number 2 in yield (mkCgi p l c).
Definition Sai_ : reader sai := let! p := plmn_ in let! l := number 2 in let! c := number 2 in yield (mkSai p l c).
Definition Rai_ : reader rai := let! p := plmn_ in let! l := number 2 in let! c := take1 in yield (mkRai p l c).
Definition Tai_ : reader tai := let! p := plmn_ in let! c := number 2 in yield (mkTai p c).
(* REMARK: the four spare bits are part of the cell identifier *)
Definition Ecgi_ : reader ecgi := let! p := plmn_ in let! c := number 4 in yield (mkEcgi p c).
Definition Lai_ : reader lai := let! p := plmn_ in let! c := number 2 in yield (mkLai p c).
(* REMARK: the four spare bits are part of the identifier *)
Definition Macro_ : reader macro_enb := let! p := plmn_ in let! c := number 3 in yield (mkMacroEnb p c).
(* SMeNB: 18 bits in the low part, else 21 bits (with the two spare bits) *)
Definition ExtMacro_ : reader ext_macro_enb :=
  let! p := plmn_ in let! x := take1 in let! i := number 2 in
  yield (if bit_at x 7 then mkExtMacroEnb p true (65536 * (x mod 4) + i) else mkExtMacroEnb p false (65536 * x + i)).
Definition Triplet_ : reader auth_triplet :=
  let! r := take 16 in let! s := take 4 in let! k := take 8 in yield (mkTriplet r s k).
Definition Quintuplet_ : reader auth_quintuplet :=
  let! rand := take 16 in let! xres := counted in let! ck := take 16 in let! ik := take 16 in
  let! autn := counted in yield (mkQuint rand xres ck ik autn).
Definition Quadruplet_ : reader auth_quadruplet :=
  let! rand := take 16 in let! xres := counted in let! autn := counted in let! kasme := take 32 in
  yield (mkQuad rand xres autn kasme).
Definition AmbrMm_ : reader ambr_mm := let! u := number 4 in let! d := number 4 in yield (mkAmbrMm u d).
Definition access_of (x : N) : access_restriction :=
  mkAccessRestriction (bit_at x 0) (bit_at x 1) (bit_at x 2) (bit_at x 3) (bit_at x 4) (bit_at x 5) (bit_at x 6) (bit_at x 7).
Definition ext_access_of (x : N) : ext_access_restriction :=
  mkExtAccessRestriction (bit_at x 4) (bit_at x 3) (bit_at x 2) (bit_at x 1) (bit_at x 0).
Definition OldEps_ : reader old_eps_ctx :=
  let! x := take1 in let! k := take 32 in
  if bit_at x 7 then let! n := take 32 in yield (mkOldEps (x / 8 mod 8) (Some (x mod 8)) k (Some n))
  else yield (mkOldEps (x / 8 mod 8) None k None).
Definition Cell_ : reader cell_id :=
  let! p := plmn_ in let! l := number 2 in let! r := take1 in let! c := number 2 in yield (mkCellId p l r c).

(* ------------------------------------------------------------------------- *)
(* Elements, in the order of the crate's files *)

Definition AbsoluteTimeMbmsDataTransfer_reads := open 164 (number 8).
Definition ActionIndication_reads := open 168 (octet_as (fun x => entry (x mod 8)
  [IndicationValues_NoAction; IndicationValues_DeactivationIndication; IndicationValues_PagingIndication;
   IndicationValues_PagingStopIndication] IndicationValues_Spare)).
Definition AdditionalFlagsSrvcc_reads := open 160 (octet_as (fun x => mkAddFlags (bit_at x 0) (bit_at x 1))).
(* REMARK: an absent field takes one octet more than its length octet, if there is one *)
Definition or_absent : reader (option (list N)) :=
  let! n := take1 in
  if n =? 0 then let! _ := pass 1 in yield None else let! o := take (N.to_nat n) in yield (Some o).
Definition AdditionalMmContextForSrvcc_reads := open 159 (
  let! a := or_absent in let! b := or_absent in let! c := or_absent in yield (mkAddMm a b c)).
Definition AlternativeImsi_reads := closed 219 digits_.
Definition Ambr_reads := open 72 (let! u := number 4 in let! d := number 4 in yield (mkAmbr u d)).
Definition Apco_reads := closed 163 string_.
Definition Apn_reads := closed 71 name_in.
Definition ApnRateControlStatus_reads := open 204 (
  let! u := number 4 in let! e := number 4 in let! d := number 4 in let! v := number 8 in yield (mkApnRate u e d v)).
Definition at_most_100 (x : N) : N := if x <=? 100 then x else 0.
(* REMARK: no length octet in front of the name *)
Definition ApnRelativeCapacity_reads := closed 184 (fun v =>
  match v with c :: o => option_map (mkApnRelCap (at_most_100 c)) (name_in o) | [] => None end).
Definition ApnRestriction_reads := open 127 (octet_as (fun x => entry x
  [Restriction_NoApnRestriction; Restriction_Public1; Restriction_Public2; Restriction_Private1; Restriction_Private2]
  Restriction_NoApnRestriction)).
(* REMARK: refused when the spare bit on top is set *)
Definition Arp_reads := open 155 (let! x := take1 in let! _ := accept (x <? 128) in
  yield (mkArp (bit_at x 6) (x / 4 mod 16) (bit_at x 0))).
Definition AdditionalRrmPolicyIndex_reads := open 207 (number 4).
Definition BearerFlags_reads := open 97 (octet_as (fun x => mkBearerFlags (bit_at x 3) (bit_at x 2) (bit_at x 1) (bit_at x 0))).
Definition BearerQos_reads := open 80 (
  let! x := take1 in let! qci := take1 in
  let! mu := number 5 in let! md := number 5 in let! gu := number 5 in let! gd := number 5 in
  yield (mkBearerQos (x mod 2) (x / 4 mod 16) (x / 64 mod 2) qci mu md gu gd)).
Definition BearerTft_reads := closed 84 string_.
Definition BitRate_reads := open 211 (number 4).
(* two octets, or six with the offending element *)
Definition Cause_reads := element 2 low_half (fun len _ =>
  let! v := take1 in let! f := take1 in
  if len =? 2 then yield (mkCause v (bit_at f 2) (bit_at f 1) (bit_at f 0) None)
  else let! _ := accept (len =? 6) in let! t := take1 in let! _ := take 3 in
       yield (mkCause v (bit_at f 2) (bit_at f 1) (bit_at f 0) (Some t))).
Definition ChangeReportingAction_reads := open 131 take1.
Definition ChangeToReportFlags_reads := open 167 (octet_as (fun x => mkCtrFlags (bit_at x 1) (bit_at x 0))).
Definition ChannelNeeded_reads := open 133 take1.
Definition ChargingCharacteristics_reads := open 95 (number 2).
Definition ChargingId_reads := open 94 (number 4).
Definition CIoTOptimizationSupportIndication_reads :=
  open 194 (octet_as (fun x => mkCiot (bit_at x 0) (bit_at x 1) (bit_at x 2) (bit_at x 3))).
Definition CsgMembershipIndication_reads := open' 148 (octet_as (fun x =>
  if x =? 0 then CsgMembership_CsgMembership else CsgMembership_NonCsgMembership)).
Definition CnOperatorSelectionEntity_reads := open 173 (
  let! x := take1 in let! _ := accept (x <? 4) in
  yield (if x =? 0 then ServingNetworkSelectedbyUE else ServingNetworkSelectedbyNetwork)).

Definition CompleteRequestMessage_reads := closed 116 (fun v =>
  match v with k :: o => Some (if k =? 0 then ReqAttach o else if k =? 1 then ReqTau o else ReqSpare) | [] => None end).
Definition Counter_reads := open 199 (let! t := number 4 in let! c := take1 in yield (mkCounter t c)).
Definition CsgId_reads := open 147 (number 4).
Definition CSGInformationReportingAction_reads := open 146 (octet_as (fun x => x mod 8)).
Definition DelayValue_reads := open 92 take1.
Definition DetachType_reads := open 150 (octet_as (fun x => entry x
  [DetachTypeValue_Reserved; DetachTypeValue_PsDetach; DetachTypeValue_CombinedPsCsDetach] DetachTypeValue_Spare)).
Definition Ebi_reads := open 73 (octet_as (fun x => x mod 16)).
Definition EcgiList_reads := open 190 (
  let! n := number 2 in if n =? 0 then yield None else let! l := times (N.to_nat n) Ecgi_ in yield (Some l)).
Definition EmlppPriority_reads := open 134 (octet_as (fun x => x mod 8)).
Definition Epco_reads := closed 197 string_.
(* units 5 and 6 are read as 1 *)
Definition EpcTimer_reads := open 156 (octet_as (fun x =>
  mkEpcTimer (if (x / 32 =? 5) || (x / 32 =? 6) then 1 else x / 32) (x mod 32))).
(* a length octet that must be 4 or 16, and the address *)
Definition counted_address : reader ipaddr :=
  let! o := counted in
  if (length o =? 4)%nat then yield (IpV4 o) else if (length o =? 16)%nat then yield (IpV6 o) else refuse.
Definition ExtendedTraceInformation_reads := open' 205 (
  let! p := plmn_ in let! i := number 3 in let! e := counted in let! n := counted in let! d := take1 in
  let! f := counted in let! a := counted_address in yield (mkExtTrace p i e n d f a)).
Definition Fcause_reads := closed 119 (fun v =>
  match v with
  | x :: o => Some (mkFcause (entry (x mod 16) [CauseType_RadioNetworkLayer; CauseType_TransportLayer;
      CauseType_Nas; CauseType_Protocol; CauseType_Misc] CauseType_Spare) o)
  | [] => None
  end).
(* REMARK: an unknown container keeps its type octet *)
Definition Fcontainer_reads := closed 118 (fun v =>
  match v with
  | k :: o => Some (entry k [FcReserved; FcUtran o; FcBss o; FcEutran o; FcNbifom o; FcEnDc o; FcInterSystemSON o]
                            (FcUnknown (k :: o)))
  | [] => None
  end).
Definition FlowQos_reads := open 81 (
  let! q := take1 in let! mu := number 5 in let! md := number 5 in let! gu := number 5 in let! gd := number 5 in
  yield (mkFlowQos q mu md gu gd)).
Definition Fqcsid_reads := loose 132 (
  let! x := take1 in
  let! node := (if x / 16 =? 0 then let! o := take 4 in yield (NodeV4 o)
                else if x / 16 =? 1 then let! o := take 16 in yield (NodeV6 o)
                else if x / 16 =? 2 then let! n := number 4 in yield (NodeNw n)
                else refuse) in
  let! l := times (N.to_nat (x mod 16)) (number 2) in yield (mkFqcsid node l)).
Definition Fqdn_reads := closed 136 name_in.

Definition Fteid_reads := loose 87 (
  let! x := take1 in let! t := number 4 in
  let! _ := accept (bit_at x 7 || bit_at x 6) in
  let! v4 := if_set (bit_at x 7) (take 4) in let! v6 := if_set (bit_at x 6) (take 16) in
  yield (mkFteid (x mod 64) t v4 v6)).
Definition GlobalCnId_reads := open 89 (let! p := plmn_ in let! c := number 2 in yield (mkGlobalCn p c)).
Definition GroupId_reads := closed 216 string_.
Definition Guti_reads := open 117 (
  let! p := plmn_ in let! g := number 2 in let! c := take1 in let! t := number 4 in yield (mkGuti p g c t)).
(* REMARK: the list of profiles always starts with the "no compression" profile 0 *)
Definition HeaderCompressionConfiguration_reads := open 196 (
  let! x := take1 in let! _ := take1 in let! c := number 2 in
  yield (mkHdrCompr (0 :: map snd (filter (fun e => bit_at x (fst e))
    [(0, 2); (1, 3); (2, 4); (3, 6); (4, 258); (5, 259); (6, 260)])) c)).
Definition HenbInfoReporting_reads := open 165 yes_no.
Definition HopCounter_reads := open 113 take1.
Definition Imsi_reads := closed 1 digits_.
(* bit n of octet i of the value; an octet that is not there is zero *)
Definition flag_in (v : list N) (i : nat) (n : N) : bool := bit_at (nth i v 0) n.
Definition indication_of (v : list N) : indication :=
  let f := flag_in v in
  mkIndication
    (f 0%nat 7) (f 0%nat 6) (f 0%nat 5) (f 0%nat 4) (f 0%nat 3) (f 0%nat 2) (f 0%nat 1) (f 0%nat 0)
    (f 1%nat 7) (f 1%nat 6) (f 1%nat 5) (f 1%nat 4) (f 1%nat 3) (f 1%nat 2) (f 1%nat 1) (f 1%nat 0)
    (f 2%nat 7) (f 2%nat 6) (f 2%nat 5) (f 2%nat 4) (f 2%nat 3) (f 2%nat 2) (f 2%nat 1) (f 2%nat 0)
    (f 3%nat 7) (f 3%nat 6) (f 3%nat 5) (f 3%nat 4) (f 3%nat 3) (f 3%nat 2) (f 3%nat 1) (f 3%nat 0)
    (f 4%nat 7) (f 4%nat 6) (f 4%nat 5) (f 4%nat 4) (f 4%nat 3) (f 4%nat 2) (f 4%nat 1) (f 4%nat 0)
    (f 5%nat 7) (f 5%nat 6) (f 5%nat 5) (f 5%nat 4) (f 5%nat 3) (f 5%nat 2) (f 5%nat 1) (f 5%nat 0)
    (f 6%nat 7) (f 6%nat 6) (f 6%nat 5) (f 6%nat 4) (f 6%nat 3) (f 6%nat 2) (f 6%nat 1) (f 6%nat 0)
    (f 7%nat 7) (f 7%nat 6) (f 7%nat 5) (f 7%nat 4) (f 7%nat 3) (f 7%nat 2) (f 7%nat 1) (f 7%nat 0)
    (f 8%nat 7) (f 8%nat 6) (f 8%nat 5) (f 8%nat 4) (f 8%nat 3) (f 8%nat 2) (f 8%nat 1) (f 8%nat 0)
    (f 9%nat 2) (f 9%nat 1) (f 9%nat 0).
(* the flags of as many octets as the length says, which may be none *)
Definition Indication_reads := element 77 low_half (fun len _ => let! v := take (N.to_nat len) in yield (indication_of v)).
Definition IntegerNumber_reads := closed 187 string_.
Definition Ip4Cp_reads := open 166 (let! p := take1 in let! a := take 4 in yield (mkIp4Cp p a)).
Definition IpAddress_reads := closed 74 (fun v =>
  if (length v =? 4)%nat then Some (IpV4 v) else if (length v =? 16)%nat then Some (IpV6 v) else None).
(* one character per octet *)
Definition Ldn_reads := closed 151 string_.
Definition MaxPacketLossRate_reads := open 203 (
  let! x := take1 in let! u := if_set (bit_at x 0) (number 2) in let! d := if_set (bit_at x 1) (number 2) in
  yield (mkMaxLoss u d)).
Definition MbmsDistributionAck_reads := open 143 (octet_as (fun x => x mod 4)).
Definition MbmsFlags_reads := open 171 (octet_as (fun x => mkMbmsFlags (bit_at x 0) (bit_at x 1))).
Definition MbmsFlowId_reads := open 141 (number 2).
(* two bits of address type, six bits of address length: 0 and 4, or 1 and 16 *)
Definition typed_address : reader ipaddr :=
  let! x := take1 in
  if x =? 64 * 0 + 4 then let! o := take 4 in yield (IpV4 o)
  else if x =? 64 * 1 + 16 then let! o := take 16 in yield (IpV6 o)
  else refuse.
Definition MbmsIpMulticastDistribution_reads := checked_ 142 whole (fun _ =>
  let! t := number 4 in let! a := typed_address in let! b := typed_address in let! c := yes_no in
  yield (mkMulticast t a b (if c then MbmsHc_CompressedHeader else MbmsHc_UncompressedHeader))).
(* the number of codes less one, then the codes *)
Definition MbmsServiceArea_reads := loose 139 (let! n := take1 in times (S (N.to_nat n)) (number 2)).
Definition MbmsSessionDuration_reads := open 138 (let! x := number 3 in yield (mkMbmsSd (x / 128) (x mod 128))).
Definition MbmsSessionId_reads := open 140 take1.
Definition MbmsTimeToDataTransfer_reads := open' 153 take1.
(* an octet if the flag is set and there is one *)
Definition if_there (c : bool) : reader (option N) :=
  fun q => match q with x :: r => if c then Some (Some x, r) else Some (None, q) | [] => Some (None, []) end.
Fixpoint plmns (o : list N) : option (list plmn) :=
  match o with
  | [] => Some []
  | a :: b :: c :: r => option_map (cons (plmn_of a b c)) (plmns r)
  | _ => None
  end.
(* REMARK: the PLMNs are read only if the four bits above their flag are zero, and then up to the end
   of the packet, whatever their number says; the other three are missing without notice *)
Definition MdtConfiguration_reads := open 162 (
  let! j := take1 in let! ms := take 4 in let! t := take1 in let! i := take1 in let! a := take1 in
  let! rp := take1 in let! rq := take1 in
  let! area := (let! n := take1 in if n =? 0 then yield None else let! o := take (N.to_nat n) in yield (Some o)) in
  let! f := take1 in
  let! rrm := if_there (bit_at f 0) in let! lte := if_there (bit_at f 1) in let! pos := if_there (bit_at f 2) in
  let! pl := (if f / 8 =? 1 then
                let! n := take1 in let! _ := accept (n <? 16) in let! _ := room (N.to_nat n * 3) in
                let! o := the_rest in match plmns o with Some l => yield (Some l) | None => refuse end
              else yield None) in
  yield (mkMdt (entry j [MdtJobType_ImmediateMdtonly; MdtJobType_LoggedMdtonly; MdtJobType_TraceOnly;
    MdtJobType_ImmediateMdtandTrace; MdtJobType_RlfReportsonly; MdtJobType_RcefReportsonly;
    MdtJobType_LoggedMbsfnMdt] MdtJobType_ImmediateMdtonly) ms t i a rp rq area rrm lte pos pl)).
Definition Mei_reads := closed 75 digits_.
Definition Metric_reads := open 182 (octet_as at_most_100).
Definition MilliSecondTimeStamp_reads := open 188 (number 6).

(* the MM contexts *)
Definition security_of (x : N) : SecurityMode := entry (x / 32)
  [SecurityMode_GsmKeyAndTriplets; SecurityMode_UmtsKeyUsedCipherAndQuintuplets;
   SecurityMode_GsmKeyUsedCipherAndQuintuplets; SecurityMode_UmtsKeyAndQuintuplets;
   SecurityMode_EpsSecurityContextAndQuadruplets; SecurityMode_UmtsKeyQuadrupletsAndQuintuplets] SecurityMode_Spare.
Definition cipher_of (x : N) : CipherValues := entry x
  [CipherValues_NoCipher; CipherValues_Gea1; CipherValues_Gea2; CipherValues_Gea3; CipherValues_Gea4;
   CipherValues_Gea5; CipherValues_Gea6; CipherValues_Gea7] CipherValues_NoCipher.
Definition gprs_integrity_of (x : N) : GprsIntegrityProtectionValues :=
  if x =? 4 then GprsIntegrityProtectionValues_Gia4 else if x =? 5 then GprsIntegrityProtectionValues_Gia5
  else GprsIntegrityProtectionValues_NoIntegrity.
Definition nas_integrity_of (x : N) : NasIntegrityProtectionValues := entry x
  [NasIntegrityProtectionValues_NoIntegrity; NasIntegrityProtectionValues_Eia1; NasIntegrityProtectionValues_Eia2;
   NasIntegrityProtectionValues_Eia3; NasIntegrityProtectionValues_Eia4; NasIntegrityProtectionValues_Eia5;
   NasIntegrityProtectionValues_Eia6; NasIntegrityProtectionValues_Eia7] NasIntegrityProtectionValues_NoIntegrity.
Definition nas_cipher_of (x : N) : NasCipherValues := entry x
  [NasCipherValues_NoChiper; NasCipherValues_Eea1; NasCipherValues_Eea2; NasCipherValues_Eea3;
   NasCipherValues_Eea4; NasCipherValues_Eea5; NasCipherValues_Eea6; NasCipherValues_Eea7] NasCipherValues_Spare.
(* none, or up to five *)
Definition upto5 {A} (n : N) (p : reader A) : reader (option (list A)) :=
  if n =? 0 then yield None
  else if n <=? 5 then let! l := times (N.to_nat n) p in yield (Some l)
  else refuse.
(* REMARK: missing without notice when there is no room *)
Definition drx_ (c : bool) : reader (option (list N)) :=
  fun q => if c && (2 <=? length q)%nat then Some (Some (firstn 2 q), skipn 2 q) else Some (None, q).
Definition next_hop_ (c : bool) : reader (option (list N) * option N) :=
  fun q => if c && (33 <=? length q)%nat then (let! h := take 32 in let! n := take1 in yield (Some h, Some n)) q
           else Some ((None, None), q).
Definition or_none : reader (option (list N)) :=
  let! n := take1 in if n =? 0 then yield None else let! o := take (N.to_nat n) in yield (Some o).
(* REMARK: the octet after the length octet is read even if the length is zero; without room, false *)
Definition higher_ : reader bool :=
  let! n := take1 in
  fun q => if (N.to_nat n <=? length q)%nat
           then match q with x :: _ => Some (x =? 1, skipn (N.to_nat n) q) | [] => None end
           else Some (false, q).
(* REMARK: a zero length octet stays where it is *)
Definition ext_access_ : reader (option ext_access_restriction) :=
  fun q => match q with
           | n :: r => if n =? 0 then Some (None, q)
                       else if n =? 1 then match r with x :: t => Some (Some (ext_access_of x), t) | [] => None end
                       else None
           | [] => None
           end.
(* an APN rate control status: its length (which must fit), the length of the APN, the APN, counters;
   [None] where the octets make none *)
Definition RateMm_ : reader apn_rate_mm :=
  let! len := number 2 in let! _ := room (N.to_nat len) in let! n := number 2 in
  let! apn := take (N.to_nat n) in
  let! u := number 4 in let! e := number 4 in let! d := number 4 in let! v := take 8 in
  yield (mkApnRateMm (utf8_lossy apn) u e d v).
(* REMARK: two or three octets that announce no more than themselves are a crash, not an end *)
Definition rates_end (q : list N) : bool :=
  match q with
  | a :: b :: r => negb ((N.to_nat (256 * a + b) <=? length r)%nat && (length r <? 2)%nat)
  | _ => true
  end.
(* REMARK: the step is computed from the APN as read, with each broken character as three octets *)
Fixpoint rates (fuel : nat) (q : list N) : option (list apn_rate_mm * list N) :=
  match fuel with
  | O => None
  | S f =>
      match RateMm_ q with
      | Some (x, _) =>
          let step := (24 + length (utf8 (rm_apn x)))%nat in
          if (step <=? length q)%nat then
            match rates f (skipn step q) with Some (l, r) => Some (x :: l, r) | None => None end
          else None
      | None => if rates_end q then Some ([], q) else None
      end
  end.
(* REMARK: a zero length octet stays where it is; any other is checked against the packet and then
   ignored *)
Definition rates_ : reader (option (list apn_rate_mm)) :=
  fun q => match q with
           | n :: r => if n =? 0 then Some (None, q)
                       else if (N.to_nat n <=? length r)%nat
                       then match rates (S (length r)) r with Some (l, t) => Some (Some l, t) | None => None end
                       else None
           | [] => None
           end.
(* REMARK: the IOV must be there *)
Definition iov_ (c : bool) : reader (option N) := let! _ := accept c in let! x := take1 in yield (Some x).
Definition MmEps_reads := open 107 (
  let! x := take1 in let! y := take1 in let! z := take1 in
  let! dl := number 3 in let! ul := number 3 in let! k := take 32 in
  let! quads := upto5 (y / 4 mod 8) Quadruplet_ in let! quints := upto5 (y / 32) Quintuplet_ in
  let! drx := drx_ (bit_at x 3) in
  let! nh := next_hop_ (bit_at x 4) in
  let! s := if_set (bit_at z 7) AmbrMm_ in let! u := if_set (bit_at y 1) AmbrMm_ in
  let! ue := or_absent in let! ms := or_absent in let! mei := or_absent in let! acc := octet_as access_of in
  let! old := if_set (bit_at y 0) OldEps_ in
  let! vdn := or_none in let! radio := or_none in let! ext := ext_access_ in
  let! add := or_none in let! nr := or_none in let! rt := rates_ in
  let! core := or_none in let! rid := or_none in let! en := octet_as (fun x => x mod 4) in
  yield (mkMmEps (security_of x) (x mod 8) (nas_integrity_of (z / 16 mod 8)) (nas_cipher_of (z mod 16))
    dl ul k quads quints drx (fst nh) (snd nh) s u ue ms mei acc old vdn radio ext add nr rt core rid (Some en))).
Definition MmGsmCq_reads := open 105 (
  let! x := take1 in let! y := take1 in let! z := take1 in let! kc := number 8 in
  let! quints := upto5 (y / 32) Quintuplet_ in let! drx := drx_ (bit_at x 3) in
  let! s := if_set (bit_at y 0) AmbrMm_ in let! u := if_set (bit_at y 1) AmbrMm_ in
  let! ue := or_absent in let! ms := or_absent in let! mei := or_absent in let! acc := octet_as access_of in
  let! vdn := or_none in let! h := higher_ in
  yield (mkMmGsmCq (security_of x) (x mod 8) (cipher_of z) kc quints drx s u ue ms mei acc vdn h)).
Definition MmGsmT_reads := open 103 (
  let! x := take1 in let! y := take1 in let! z := take1 in let! kc := number 8 in
  let! trips := upto5 (y / 32) Triplet_ in let! drx := drx_ (bit_at x 3) in
  let! s := if_set (bit_at y 0) AmbrMm_ in let! u := if_set (bit_at y 1) AmbrMm_ in
  let! ue := or_absent in let! ms := or_absent in let! mei := or_absent in let! acc := octet_as access_of in
  let! vdn := or_none in
  yield (mkMmGsmT (security_of x) (x mod 8) (cipher_of z) kc trips drx s u ue ms mei acc vdn)).
Definition umts_integrity (y z : N) : option GprsIntegrityProtectionValues :=
  if bit_at y 2 then Some (gprs_integrity_of (z / 8)) else None.
(* REMARK: the absent voice domain preference takes an octet more here *)
Definition MmUmtsCq_reads := open 104 (
  let! x := take1 in let! y := take1 in let! z := take1 in let! ck := take 16 in let! ik := take 16 in
  let! quints := upto5 (y / 32) Quintuplet_ in let! drx := drx_ (bit_at x 3) in
  let! s := if_set (bit_at y 0) AmbrMm_ in let! u := if_set (bit_at y 1) AmbrMm_ in
  let! ue := or_absent in let! ms := or_absent in let! mei := or_absent in let! acc := octet_as access_of in
  let! vdn := or_absent in let! h := higher_ in let! iov := iov_ (bit_at y 4) in
  yield (mkMmUmtsCq (security_of x) (x mod 8) (cipher_of (z mod 8)) (umts_integrity y z) (bit_at y 3) ck ik
    quints drx s u ue ms mei acc vdn h iov)).
Definition MmUmtsQq_reads := open 108 (
  let! x := take1 in let! y := take1 in let! _ := take1 in let! ck := take 16 in let! ik := take 16 in
  let! quads := upto5 (y / 4 mod 8) Quadruplet_ in let! quints := upto5 (y / 32) Quintuplet_ in
  let! drx := drx_ (bit_at x 3) in
  let! s := if_set (bit_at y 0) AmbrMm_ in let! u := if_set (bit_at y 1) AmbrMm_ in
  let! ue := or_absent in let! ms := or_absent in let! mei := or_absent in let! acc := octet_as access_of in
  let! vdn := or_none in let! rt := rates_ in
  yield (mkMmUmtsQq (security_of x) (x mod 8) ck ik quads quints drx s u ue ms mei acc vdn rt)).
Definition MmUmtsQ_reads := open 106 (
  let! x := take1 in let! y := take1 in let! z := take1 in let! ck := take 16 in let! ik := take 16 in
  let! quints := upto5 (y / 32) Quintuplet_ in let! drx := drx_ (bit_at x 3) in
  let! s := if_set (bit_at y 0) AmbrMm_ in let! u := if_set (bit_at y 1) AmbrMm_ in
  let! ue := or_absent in let! ms := or_absent in let! mei := or_absent in let! acc := octet_as access_of in
  let! vdn := or_absent in let! h := higher_ in let! iov := iov_ (bit_at y 4) in let! ext := ext_access_ in
  yield (mkMmUmtsQ (security_of x) (x mod 8) (cipher_of (z mod 8)) (umts_integrity y z) (bit_at y 3) ck ik
    quints drx s u ue ms mei acc vdn h iov ext)).

(* well-formed UTF-8, as Rust's String::from_utf8 *)
Definition utf8_ (p : reader (list N)) : reader (list N) :=
  let! o := p in match utf8_strict o with Some s => yield s | None => refuse end.
Definition MonitoringEventExtensionInfo_reads := loose 206 (
  let! x := take1 in let! r := number 4 in let! i := utf8_ counted in
  let! m := if_set (bit_at x 0) (number 3) in let! e := if_set (bit_at x 1) (number 8) in yield (mkMonExt r i m e)).
(* the flags are the spare bits of the instance octet *)
Definition MonitoringEventInformation_reads := element 189 low_half (fun _ c =>
  let! r := number 4 in let! i := utf8_ counted in let! n := number 2 in
  let! e := if_set (bit_at c 7) (number 8) in
  yield (mkMonInfo (bit_at c 5) (bit_at c 4) (bit_at c 6) r i n e)).
Definition Msisdn_reads := closed 76 digits_.
Definition MappedUeUsageType_reads := open 200 (number 2).
Definition NodeFeatures_reads := open 152 (octet_as (fun x =>
  mkNodeFeatures (bit_at x 0) (bit_at x 1) (bit_at x 2) (bit_at x 3) (bit_at x 4) (bit_at x 5) (bit_at x 6) (bit_at x 7))).
Definition NodeIdentifier_reads := loose 176 (let! n := counted in let! r := counted in yield (mkNodeIdentifier n r)).
(* the first octet of the number is not looked at *)
Definition NodeNumber_reads := loose 175 (
  let! o := counted in match o with _ :: d => yield (number_of d) | [] => refuse end).
Definition NodeType_reads := open' 135 (octet_as (fun x => if x =? 0 then Node_Mme else Node_Sgsn)).
Definition PdnAddressAllocation_reads := closed 79 (within (
  let! k := take1 in
  if k =? 1 then let! a := take 4 in yield (Paa_V4 a)
  else if k =? 2 then let! p := take1 in let! a := take 16 in yield (Paa_V6 a p)
  else if k =? 3 then let! p := take1 in let! a6 := take 16 in let! a4 := take 4 in yield (Paa_Dual a4 a6 p)
  else if k =? 4 then yield Paa_NonIp
  else if k =? 5 then yield Paa_Ethernet
  else refuse)).
Definition PacketFlowId_reads := open 123 (let! e := take1 in let! i := number 4 in yield (mkPacketFlow (e mod 16) i)).
(* REMARK: the spare bits of the bearer identity are kept *)
Definition PagingServiceInfo_reads := open 186 (
  let! e := take1 in let! k := yes_no in let! p := if_set k take1 in yield (mkPagingInfo e p)).
Definition PC5QosFlow_reads := loose 212 (
  let! x := take1 in let! p := take1 in let! g := number 4 in let! f := number 4 in
  let! r := if_set (bit_at x 0) take1 in yield (mkPc5Flow p g f r)).
Definition Pco_reads := closed 78 string_.
Definition PdnType_reads := open 99 (octet_as (fun x => entry x
  [Pdn_Reserved; Pdn_Ipv4; Pdn_Ipv6; Pdn_Ipv46; Pdn_NonIp; Pdn_Ethernet] Pdn_Reserved)).
Definition PduNumbers_reads := open 110 (
  let! n := take1 in let! d := number 2 in let! u := number 2 in let! s := number 2 in let! r := number 2 in
  yield (mkPduNumbers (n mod 16) d u s r)).
Definition PgwFqdn_reads := closed 215 name_in.
Definition PlmnId_reads := open 120 plmn_.
Definition PortNumber_reads := open 126 (number 2).
(* seven octets each, but the seventh of the last one may be missing *)
Definition Rai7_ : reader rai := let! r := Rai_ in let! _ := pass 1 in yield r.
(* REMARK: the number of extended macro eNodeBs must be there, unless the packet ends within the seventh
   octet of the last routing area and no other cells are announced *)
Definition PresenceReportingAreaAction_reads := loose 177 (
  let! x := take1 in let! i := number 3 in
  let! n1 := take1 in let! n2 := take1 in let! n3 := take1 in let! n4 := take1 in let! n5 := take1 in let! n6 := take1 in
  let! tai := times (N.to_nat (n1 / 16)) Tai_ in
  let! mac := times (N.to_nat (n2 mod 64)) Macro_ in
  let! home := times (N.to_nat (n3 mod 64)) Macro_ in
  let! ecgi := times (N.to_nat (n4 mod 64)) Ecgi_ in
  let! cut := (fun q => Some ((S (length q) =? 7 * N.to_nat (n1 mod 16))%nat, q)) in
  let! rai := times (N.to_nat (n1 mod 16)) Rai7_ in
  let! sai := times (N.to_nat (n5 mod 64)) Sai_ in
  let! cgi := times (N.to_nat (n6 mod 64)) Cgi_ in
  let! ext := (if cut && (n5 mod 64 =? 0) && (n6 mod 64 =? 0) then yield []
               else let! k := take1 in times (N.to_nat k) ExtMacro_) in
  yield (mkPraa (bit_at x 3) (x mod 8) i tai rai mac home ecgi sai cgi ext)).
Definition presence_of (i f : N) : presence_area :=
  if bit_at f 3 then Inapra i
  else match bit_at f 1, bit_at f 0 with true, false => Opra i | false, true => Ipra i | _, _ => Inapra i end.
(* areas as long as each announces another and four octets are there *)
Fixpoint presence_areas (q : list N) : list presence_area :=
  match q with
  | a :: b :: c :: f :: r => presence_of (base256 [a; b; c]) f :: (if bit_at f 2 then presence_areas r else [])
  | _ => []
  end.
(* REMARK: there must be eight octets even for one area *)
Definition PresenceReportingAreaInformation_reads := open 178 (
  let! _ := room 8 in let! i := number 3 in let! f := take1 in let! q := the_rest in
  yield (mkPrai (presence_of i f) (if bit_at f 2 then Some (presence_areas q) else None))).
(* REMARK: there must be three octets even for an empty value *)
Definition PrivateExtension_reads := checked_ 255 low_half (fun len =>
  let! _ := room 3 in let! _ := accept (2 <=? len) in let! i := number 2 in
  let! o := take (N.to_nat len - 2) in yield (mkPrivateExt i o)).
Definition PSCellId_reads := open 217 (let! p := plmn_ in let! c := take 5 in yield (mkPscell p c)).
Definition Pti_reads := open 100 take1.
Definition Ptmsi_reads := open' 111 (number 4).
(* REMARK: four octets, where the signature has three *)
Definition PtmsiSignature_reads := open 112 (number 4).
Definition RabContext_reads := open 124 (
  let! n := take1 in let! d := number 2 in let! u := number 2 in let! s := number 2 in let! r := number 2 in
  yield (mkRabCtx (n mod 16) d u s r)).
Definition RanNasCause_reads := loose 172 (
  let! x := take1 in let! _ := room 1 in
  if x / 16 =? 1 then octet_as (fun y => Rn_S1ap (entry (x mod 16)
       [S1_Radio y; S1_Transport y; S1_Nas y; S1_Protocol y; S1_Misc y] (S1_Spare y)))
  else if x / 16 =? 2 then octet_as Rn_Emm
  else if x / 16 =? 3 then octet_as Rn_Esm
  else if x / 16 =? 4 then let! n := number 2 in yield (Rn_Diameter n)
  else if x / 16 =? 5 then let! n := number 2 in yield (Rn_Ikev2 n)
  else yield Rn_Spare).
Definition RatType_reads := open 82 (octet_as (fun x => entry x
  [Rat_Reserved; Rat_Utran; Rat_Geran; Rat_Wlan; Rat_Gan; Rat_HspaEvo; Rat_Eutran; Rat_Virtual; Rat_EutranNbiot;
   Rat_LteM; Rat_NR; Rat_WbEutranLeo; Rat_WbEutranMeo; Rat_WbEutranGeo; Rat_WbEutranOthersat; Rat_EutranNbiotLeo;
   Rat_EutranNbiotMeo; Rat_EutranNbiotGeo; Rat_EutranNbiotOthersat; Rat_LteMLeo; Rat_LteMMeo; Rat_LteMGeo;
   Rat_LteMOthersat] Rat_Spare)).
Definition Recovery_reads := open 3 take1.
(* an IPv6 prefix of eight octets *)
Definition RemoteUeIpInformation_reads := closed 193 (within (
  let! k := take1 in
  if k =? 0 then yield Rip_NonIp
  else if k =? 1 then let! a := take 4 in yield (Rip_V4 a)
  else if k =? 2 then let! a := take 8 in yield (Rip_V6 (a ++ repeat 0 8))
  else refuse)).

Definition RemoteUserId_reads := open 192 (
  let! x := take1 in let! i := counted in
  let! m := if_set (bit_at x 0) counted in let! e := if_set (bit_at x 1) counted in
  yield (mkRemoteUser (number_of i) (option_map number_of m) (option_map number_of e))).
Definition RfspIndex_reads := open 144 (number 2).
(* an octet 4 or 16, and the address *)
Definition S103pdf_reads := loose 90 (
  let! a := counted_address in let! g := number 4 in let! l := counted in yield (mkS103 a g l)).
Definition S1udf_reads := loose 91 (
  let! e := take1 in let! a := counted_address in let! t := number 4 in yield (mkS1udf (e mod 16) a t)).
Definition SecondaryRatUsageDataReport_reads := open 201 (
  let! x := take1 in let! t := take1 in let! e := take1 in
  let! st := number 4 in let! en := number 4 in let! dl := number 8 in let! ul := number 8 in
  let! tr := if_set (bit_at x 2) counted in
  yield (mkRatReport (bit_at x 1) (bit_at x 0) t (e mod 16) st en dl ul tr)).
Definition SelectionMode_reads := open 128 (octet_as (fun x => x mod 4)).
Definition ServiceIndicator_reads := open 149 (octet_as (fun x => entry x
  [ServiceIndication_Spare; ServiceIndication_CsCallIndicator; ServiceIndication_SmsIndicator] ServiceIndication_Spare)).
Definition ServicesAuthorized_reads := open 210 (let! v := yes_no in let! p := yes_no in yield (mkServicesAuth v p)).
Definition ServingNetwork_reads := open 83 plmn_.
Definition ServingPlmnRateControl_reads := open 198 (let! u := number 2 in let! d := number 2 in yield (mkPlmnRate u d)).
Definition SgiPtpTunnelAddress_reads := loose 213 (
  let! x := take1 in
  let! a := (if x mod 4 =? 1 then let! o := take 4 in yield (IpV4 o)
             else if x mod 4 =? 2 then let! o := take 16 in yield (IpV6 o)
             else refuse) in
  let! p := if_set (bit_at x 2) (number 2) in yield (mkSgiTunnel a p)).
(* REMARK: whether there is an extended RNC id is decided by how much of the packet is left: seven octets
   or more, or exactly five *)
Definition SourceRnc_ : reader source_rnc :=
  let! p := plmn_ in let! i := number 2 in
  fun q => match q with [] => Some (mkSourceRnc p i None, []) | _ => (let! e := number 2 in yield (mkSourceRnc p i (Some e))) q end.
Definition SourceIdentification_reads := open' 129 (
  let! c := Cell_ in let! k := take1 in
  let! s := (if k =? 0 then let! x := Cell_ in yield (St_Cell x)
             else if k =? 1 then let! x := SourceRnc_ in yield (St_Rnc x)
             else yield St_Spare) in
  yield (mkSourceId c s)).
Definition SpecialIEWithTypeExt_reads := checked_ 254 low_half (fun len =>
  let! _ := accept (2 <=? len) in let! e := number 2 in let! o := take (N.to_nat len - 2) in yield (mkSpecialIe e o)).
Definition Spi_reads := open 157 yes_no.
Definition Sqn_reads := open 183 (number 4).
Definition SourceRncPdcpContextInfo_reads := closed 125 string_.
Definition SrvccCause_reads := open 56 (octet_as (fun x => entry x
  [SrvccCauseValues_Reserved; SrvccCauseValues_Unspecified;
   SrvccCauseValues_HandoverRelocationCancelledBySourceSystem; SrvccCauseValues_HandoverRelocationFailureWithTargetSystem;
   SrvccCauseValues_HandoverRelocationTargetNotAllowed; SrvccCauseValues_UnknownTargetId;
   SrvccCauseValues_TargetCellNotAvailable; SrvccCauseValues_NoRadioResourcesAvailableInTargetCell;
   SrvccCauseValues_FailureInRadioInterfaceProcedure; SrvccCauseValues_PermanentSessionLegEstablishmentError;
   SrvccCauseValues_TemporarySessionLegEstablishmentError] SrvccCauseValues_Spare)).
Definition StnSr_reads := closed 51 (fun v => match v with n :: o => Some (mkStnSr n (number_of o)) | [] => None end).
Definition TrafficAggregateDescription_reads := closed 85 string_.
(* decided by how much of the packet is left *)
Definition Rnc_ : reader rnc_id :=
  let! r := Rai_ in let! i := number 2 in
  fun q => match q with
           | a :: b :: t => Some (mkRncId r i (Some (base256 [a; b])), t)
           | _ => Some (mkRncId r i None, q)
           end.
Definition MacroTac_ : reader macro_enb_tac := let! e := Macro_ in let! c := number 2 in yield (mkMacroTac e c).
Definition ExtTac_ : reader ext_enb_tac := let! e := ExtMacro_ in let! c := number 2 in yield (mkExtTac e c).
Definition Gnb_ : reader gnb_id :=
  let! p := plmn_ in let! l := take1 in let! i := number 4 in let! e := take 3 in yield (mkGnb p l i e).
Definition MacroNg_ : reader macro_ng := let! e := Macro_ in let! c := take 3 in yield (mkMacroNg e c).
Definition ExtNg_ : reader ext_ng := let! e := ExtMacro_ in let! c := take 3 in yield (mkExtNg e c).
(* REMARK: both the TAC and the five octet TAC must be there *)
Definition EnGnb_ : reader en_gnb :=
  let! p := plmn_ in let! x := take1 in let! i := number 4 in let! _ := accept (bit_at x 6 && bit_at x 7) in
  let! t := number 2 in let! e := take 3 in yield (mkEnGnb p (x mod 64) i (Some t) (Some e)).
Definition as_ {A B} (f : A -> B) (p : reader A) : reader B := let! a := p in yield (f a).
Definition TargetIdentification_reads := open' 121 (
  let! k := take1 in
  entry k [as_ Tt_Rnc Rnc_; as_ Tt_MacroeNb MacroTac_; as_ Tt_Cell Cell_; as_ Tt_Home MacroTac_; as_ Tt_ExtMacro ExtTac_;
           as_ Tt_GNb Gnb_; as_ Tt_MacroNg MacroNg_; as_ Tt_ExtNg ExtNg_; as_ Tt_EnGNb EnGnb_] (yield Tt_Spare)).
(* REMARK: unit 7 is read as unit 0 *)
Definition Throttling_reads := open 154 (let! x := take1 in let! f := take1 in
  yield (mkThrottle (entry (x / 32) [0; 1; 2; 3; 4; 1; 1; 0] 0) (x mod 32) (at_most_100 f))).
Definition Tmgi_reads := open' 158 (take 6).
Definition Tmsi_reads := open 88 (number 4).
Definition TraceInformation_reads := open 96 (
  let! p := plmn_ in let! i := number 3 in let! e := take 9 in let! n := number 2 in let! d := take1 in
  let! f := take 12 in let! a := take 4 in yield (mkTraceInfo p i e n d f a)).
(* REMARK: the type of the struct is that of the Serving Network *)
Definition TraceReference_reads := open 83 (let! p := plmn_ in let! i := number 3 in yield (mkTraceRef p i)).
Definition TransactionIdentifier_reads := element 137 low_half (fun len _ =>
  let! x := take1 in
  if 1 <? len then octet_as (mkTransactionId (bit_at x 7)) else yield (mkTransactionId (bit_at x 7) (x / 16 mod 8))).
(* REMARK: the relay identity and the circuit id come together *)
Definition TwanId_reads := open 169 (
  let! x := take1 in let! ssid := counted in
  let! bs := if_set (bit_at x 0) (take 6) in let! cv := if_set (bit_at x 1) counted in
  let! pl := if_set (bit_at x 2) plmn_ in let! nm := if_set (bit_at x 3) (utf8_ counted) in
  let! rel := if_set (bit_at x 4) (let! i := take1 in let! d := counted in let! e := counted in yield (i, d, e)) in
  yield (mkTwanId ssid bs cv pl nm (option_map fst rel) (option_map snd rel))).
Definition TwanIdTimeStamp_reads := open 179 (number 4).
Definition Twmi_reads := open 174 (octet_as (fun x => mkTwmi (bit_at x 1) (bit_at x 0))).
(* REMARK: the five spare bits are part of the CSG ID *)
Definition Uci_reads := open 145 (
  let! p := plmn_ in let! c := number 4 in let! x := take1 in
  yield (mkUci p c (entry (x / 64) [AccessMode_ClosedMode; AccessMode_HybridMode] AccessMode_Reserved) (bit_at x 1)
               (if bit_at x 0 then Cmi_CsgMembership else Cmi_NonCsgMembership))).
(* sign in the highest bit; the daylight saving time in the two lowest *)
Definition UeTimeZone_reads := open 114 (let! x := take1 in let! d := take1 in
  yield (mkUeTimeZone (if bit_at x 7 then (- Z.of_N (x mod 128))%Z else Z.of_N (x mod 128)) (d mod 4))).
(* one location for each bit of the first octet, from the lowest *)
Definition location_of (k : N) : reader location :=
  entry k [as_ Loc_Cgi Cgi_; as_ Loc_Sai Sai_; as_ Loc_Rai Rai7_; as_ Loc_Tai Tai_; as_ Loc_Ecgi Ecgi_; as_ Loc_Lai Lai_;
           as_ Loc_Macro Macro_; as_ Loc_ExtMacro ExtMacro_] refuse.
Fixpoint locations (ks : list N) : reader (list location) :=
  match ks with [] => yield [] | k :: r => let! a := location_of k in let! l := locations r in yield (a :: l) end.
Definition Uli_reads := loose 86 (let! x := take1 in locations (filter (bit_at x) [0; 1; 2; 3; 4; 5; 6; 7])).
Definition UliTimestamp_reads := open 170 (number 4).
(* REMARK: the type is not kept *)
Definition Unknown_reads := checked_ 0 whole (fun len => take (N.to_nat len)).
Definition UpFunctionSelectionIndicationFlags_reads := open 202 yes_no.
Definition UpSecurityPolicy_reads := open 218 (octet_as (fun x => entry (x mod 4)
  [UpIpPolicy_NotNeeded; UpIpPolicy_Preferred; UpIpPolicy_Required] UpIpPolicy_Spare)).
Definition WlanOffloadIndication_reads := open 185 (octet_as (fun x => mkWlanOffload (bit_at x 1) (bit_at x 0))).
