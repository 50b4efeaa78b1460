(* V1USpec.v - what GTP-U users rely on, stated without the codec functions. *)
From Verif Require Import Base V1U.
Local Open Scope N_scope.

(* An extension header a sender may legitimately build: the type octet of its kind and a
   length octet (in units of four octets) that matches its content. *)
Definition known_ext_types : list N := [0; 3; 32; 64; 129; 130; 131; 132; 133; 192].
Definition wf_num (types : list N) (len bound : N) (x : NumExt) : Prop :=
  In (ne_type x) types /\ ne_length x = len /\ ne_value x < bound.
Definition wf_blob (x : BlobExt) : Prop :=
  1 <= be_length x <= 63 /\ nlen (be_container x) + 2 = 4 * be_length x.
Definition wf_ext (e : ExtensionHeader) : Prop :=
  match e with
  | NoMoreExtensionHeaders => False
  | EH_PDCPPDUNumber x => wf_num [192] 1 65536 x
  | EH_UDPPort x => wf_num [64] 1 65536 x
  | EH_Sci x => wf_num [32] 1 256 x
  | EH_LongPDCPPDUNumber x => wf_num [3; 130] 2 16777216 x
  | EH_RanContainer x => be_type x = 129 /\ wf_blob x
  | EH_XwRanContainer x => be_type x = 131 /\ wf_blob x
  | EH_NrRanContainer x => be_type x = 132 /\ wf_blob x
  | EH_PduSessionContainer x => be_type x = 133 /\ wf_blob x
  | EH_Unknown x => ~ In (be_type x) known_ext_types /\ wf_blob x
  end.

(* A header whose fields fit their types and whose extension headers are well formed. *)
Definition wf_header (h : Gtpv1Header) : Prop :=
  u16 (h_length h) /\ u32 (teid h) /\
  (forall s, sequence_number h = Some s -> u16 s) /\
  (forall l, extension_headers h = Some l -> Forall wf_ext l).

(* The combinations of optional fields for which decoding is faithful: a sequence number
   is present, or no optional field is. *)
Definition faithful_combination (h : Gtpv1Header) : Prop :=
  sequence_number h <> None \/
  (npdu_number h = None /\ extension_headers h = None).

(* The flags of the first octet (TS 29.281 5.1): S = bit 2, PN = bit 1, E = bit 3. *)
Definition flag_S (b0 : N) : bool := N.testbit b0 1.
Definition flag_PN (b0 : N) : bool := N.testbit b0 0.
Definition flag_E (b0 : N) : bool := N.testbit b0 2.

Definition with_length (h : Gtpv1Header) (n : N) : Gtpv1Header :=
  mkHdr (msgtype h) n (teid h) (sequence_number h) (npdu_number h) (extension_headers h).

(* The optional part a receiver ends up with for the headers outside
   [faithful_combination]. *)
Definition received_header (h : Gtpv1Header) : Gtpv1Header :=
  match sequence_number h, npdu_number h, extension_headers h with
  | None, None, None => h
  | Some _, _, _ => h
  | None, n, e =>
      mkHdr (msgtype h) (h_length h) (teid h) (Some 0)
        (Some match n with Some x => x | None => 0 end)
        (Some match e with Some l => l | None => [] end)
  end.

(* A well-formed extension header chain at the start of [b], as the format defines it:
   either the terminating 0, or a type octet, a length octet l in 1..63 and 4*l octets in
   all, followed by a chain. *)
Inductive ext_chain : list N -> Prop :=
| chain_end r : ext_chain (0 :: r)
| chain_more t l v r :
    t <> 0 -> 1 <= l <= 63 -> nlen v + 2 = 4 * l ->
    ext_chain r -> ext_chain (t :: l :: v ++ r).

(* A well-formed private extension: correct type, and a length that matches. *)
Definition wf_pe (x : PrivateExtension) : Prop :=
  pe_t x = 255 /\ u16 (pe_id x) /\ pe_length x = nlen (pe_value x) + 2 /\ pe_length x <= 65532.
Definition wf_opt {A} (P : A -> Prop) (o : option A) : Prop :=
  match o with Some x => P x | None => True end.
Definition wf_gsn (x : GsnAddress) : Prop :=
  gsn_t x = 133 /\
  match gsn_ip x with
  | V4 _ _ _ _ => gsn_length x = 4
  | V6 o => gsn_length x = 16 /\ length o = 16%nat
  end.
Definition wf_teid (x : Teid) : Prop := te_t x = 16 /\ u32 (te_teid x).
Definition wf_rec (x : Recovery) : Prop := rec_t x = 14.
Definition wf_ehtl (x : ExtensionHeaderTypeList) : Prop :=
  ehtl_t x = 141 /\ ehtl_length x = nlen (ehtl_list x) /\ 1 <= nlen (ehtl_list x) <= 253.

(* The header of a message that is about to be sent: type octet of the message, optional
   fields in a combination that decodes faithfully, and the length field equal to the
   number of octets after the first eight of the encoding [b]. *)
Definition sendable (mt : N) (h : Gtpv1Header) (b : list N) : Prop :=
  wf_header h /\ faithful_combination h /\ msgtype h = mt /\ h_length h + 8 = nlen b.

(* The receiver looks at extension headers for the first octet [b0]: the E flag is set, or
   S is clear while PN is set (header.rs 279-296 treats that case as if E were set). *)
Definition walks_extensions (b0 : N) : bool :=
  if flag_S b0 then flag_E b0 else flag_PN b0 || flag_E b0.

(* A private extension at the start of [r] that decoding handles without crashing. *)
Definition pe_harmless (r : list N) : Prop :=
  match r with
  | _ :: l1 :: l2 :: rest =>
      be16 l1 l2 < 65533 /\ (be16 l1 l2 = 1 -> (2 <= length rest)%nat)
  | _ => True
  end.
