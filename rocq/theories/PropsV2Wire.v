(* PropsV2Wire.v - C58, C59: what GTPv2-C elements and messages look like on the wire.

   Reading aid: V2ValSpec.v gives, for every kind of information element, the octets of the standard
   ([ie_wire]) and which values can be sent ([ie_fits]): rows of bit fields, big-endian numbers, strings
   behind their length, members in order. [ie_marshal e] is what InformationElement::marshal appends,
   [msg_marshal d x []] what the marshal of a message of kind [d] leaves in an empty buffer. *)
From Coq Require Import String Permutation.
From Verif Require Import Base BaseFacts V2BaseFacts V2MsgWire PropsV2Ie PropsV2Msg V2ValMore.
From Coq Require Import Lia.
Local Open Scope N_scope.

(* ------------------------------------------------------------------------- *)
(* C58                                                                        *)

(* Every element of every kind, for every value that fits its fields, is sent as the octets of the
   specification, whatever the type and length fields of the struct say. *)
Theorem C58_element_octets : forall e, ie_fits e -> ie_marshal e = ie_wire e.
Proof. exact ie_wire_ok. Qed.
Print Assumptions C58_element_octets.

(* A trace reference has its value right, but the type code of a serving network. *)
Theorem C58_trace_reference_value : forall x, plmn_fits (tr_plmn (ie_v x)) ->
  ie_marshal (IE_TraceReference x) = framed 83 (ie_ins x) (TraceRef_wire (ie_v x)).
Proof. intros x H. exact (member_ok 83 TraceReference_value TraceRef_wire x (TraceRef_w (ie_v x) H)). Qed.
Print Assumptions C58_trace_reference_value.

Lemma num16 n : enc16 n = num 2 n.
Proof. reflexivity. Qed.
Lemma num24 n : enc24 n = num 3 n.
Proof. unfold enc24. cbn [num app]. rewrite N.div_div by lia. reflexivity. Qed.
Lemma num32 n : enc32 n = num 4 n.
Proof. unfold enc32. cbn [num app]. rewrite !N.div_div by lia. reflexivity. Qed.

(* The header. *)
Theorem C58_header_octets : forall h, hdr2_fits h -> h2_marshal h = hdr2_wire h (h2_length h).
Proof.
  intros h H. unfold h2_marshal, hdr2_wire. rewrite num16, num24.
  assert (E1 : match h2_teid h with Some i => enc32 i | None => [] end = opt (num 4) (h2_teid h)).
  { destruct (h2_teid h) as [t|]; [|reflexivity]. apply num32. }
  assert (E2 : match h2_prio h with Some i => N.shiftl i 4 mod 256 | None => 0 end
    = octet [(4, match h2_prio h with Some p => p | None => 0 end); (4, 0)]).
  { unfold hdr2_fits in H. destruct (h2_prio h) as [p|]; [|reflexivity]. cbn [if_given] in H.
    rewrite oct44 by lia. rewrite N.shiftl_mul_pow2. change (2 ^ 4) with 16. rewrite N.mod_small by lia. lia. }
  rewrite E1, E2. unfold h2_flags. rewrite !given_one.
  destruct (is_some (h2_prio h)), (is_some (h2_teid h)), (h2_piggyback h); reflexivity.
Qed.
Print Assumptions C58_header_octets.

Lemma hdr2_wire_len h n : nlen (hdr2_wire h n) = 4 + hdr_size h.
Proof.
  unfold hdr2_wire, hdr_size, nlen. rewrite <- num_ok, <- (num_ok 3). repeat rewrite app_length. rewrite !enc_be_length.
  destruct (h2_teid h); cbn [opt]; rewrite <- ?num_ok, ?enc_be_length; cbn [length]; lia.
Qed.
Lemma map_marshal l : Forall ie_fits l -> concat (map ie_marshal l) = concat (map ie_wire l).
Proof. intros H. change (concat (map ie_wire l)) with (every ie_wire l). eapply every_ext; [|exact H]. exact ie_wire_ok. Qed.

(* Every message of every kind: the header with the right length, then the elements of all fields, field by
   field in some order fixed by the kind of message, each as specified. *)
Theorem C58_message_octets : forall d L, In (d, L) gtpv2_messages -> exists order, Permutation order (seq 0 (length L)) /\
  forall x, length (msg_fields x) = length L -> hdr2_fits (msg_header x) -> Forall (Forall ie_fits) (msg_fields x) ->
    let body := concat (map (fun i => concat (map ie_wire (nth i (msg_fields x) []))) order) in
    nlen (packet_wire (msg_header x) body) < 65540 ->
    msg_marshal d x [] = packet_wire (msg_header x) body.
Proof.
  intros d L H. exists (md_tovec d). split.
  { pose proof (mk_tovec d L H) as T. apply NoDup_Permutation.
    - unfold tovec_fits in T. rewrite !andb_true_iff in T. apply pairwise_nodup. apply T.
    - apply seq_NoDup.
    - intros i. split.
      + unfold tovec_fits in T. rewrite !andb_true_iff, forallb_forall in T. intros Hi. apply in_seq. destruct T as [[_ T] _]. apply T, Nat.ltb_lt in Hi. lia.
      + intros Hi. apply in_seq in Hi. eapply tovec_all; [exact T|lia]. }
  intros x Hl Hh Hf body Hn.
  assert (B : encoder (tovec d (msg_fields x)) = body).
  { subst body. unfold encoder, tovec. generalize (md_tovec d). intros order. induction order as [|i order IH]; [reflexivity|].
    cbn [map concat]. rewrite map_app, concat_app. f_equal; [|exact IH]. apply map_marshal.
    destruct (nth_in_or_default i (msg_fields x) []) as [Hi| ->]; [|constructor]. rewrite Forall_forall in Hf. apply Hf, Hi. }
  unfold msg_marshal. cbn [app]. rewrite set_length_marshal, B. rewrite C58_header_octets by exact Hh.
  unfold packet_wire in *. assert (E : nlen (hdr2_wire (msg_header x) 0 ++ body) - 4 = hdr_size (msg_header x) + nlen body).
  { unfold nlen at 1. rewrite app_length, Nat2N.inj_add. fold (nlen (hdr2_wire (msg_header x) 0)). fold (nlen body).
    rewrite hdr2_wire_len. lia. }
  rewrite E in *. cbn [with_length h2_length]. f_equal.
  assert (M : hdr_size (msg_header x) + nlen body < 65536).
  { unfold nlen at 1 in Hn. rewrite app_length, Nat2N.inj_add in Hn. fold (nlen body) in Hn.
    match type of Hn with N.of_nat (length ?z) + _ < _ => change (N.of_nat (length z)) with (nlen z) in Hn end.
    rewrite hdr2_wire_len in Hn. lia. }
  rewrite N.mod_small by exact M. reflexivity.
Qed.
Print Assumptions C58_message_octets.

(* A create session request and a few more elements satisfy the hypotheses. *)
Ltac small := first [exact I | reflexivity | lia | (cbn; lia) | (vm_compute; intuition (discriminate || congruence))].
Ltac fit := repeat (first [apply Forall_nil | apply Forall_cons | split]); small.
Definition w_uli : ie :=
  IE_Uli (mkIe 86 13 0 [Loc_Ecgi (mkEcgi (mkPlmn 262 2 false) 12345); Loc_Tai (mkTai (mkPlmn 262 2 false) 7)]).
Definition w_mm : ie :=
  IE_MmContext (MmGsmT (mkIe 103 0 0 (mkMmGsmT SecurityMode_GsmKeyAndTriplets 3 CipherValues_Gea2 77
     (Some [mkTriplet (repeat 9 16) (repeat 8 4) (repeat 7 8)]) None None (Some (mkAmbrMm 5 6)) None (Some [1; 2]) None
     (mkAccessRestriction false true false false false false false false) None))).
Example C58_witness_elements : ie_fits w_uli /\ ie_fits w_mm /\
  ie_wire w_uli = [86; 0; 13; 0; 24; 98; 242; 32; 0; 7; 98; 242; 32; 0; 0; 48; 57] /\ length (ie_wire w_mm) = 58%nat.
Proof.
  split; [split; [reflexivity|]; split; fit|]. split; [fit|]. split; vm_compute; reflexivity.
Qed.
Example C58_witness_message : Forall (Forall ie_fits) (msg_fields w_csr) /\ hdr2_fits (msg_header w_csr) /\
  length (msg_fields w_csr) = length ly_createsessionreq /\ length (msg_marshal md_createsessionreq w_csr []) = 95%nat.
Proof.
  split; [|split; [reflexivity|split; vm_compute; reflexivity]].
  apply Forall_forall. intros l Hl. apply Forall_forall. intros e He.
  assert (In e (concat (msg_fields w_csr))) as H by (apply in_concat; exists l; auto).
  vm_compute in H. repeat (destruct H as [<-|H]; [cbn [ie_fits]; unfold mfits; cbn [ie_v]; fit|]). destruct H.
Qed.

(* ------------------------------------------------------------------------- *)
(* C59: where the octets sent are not those of the standard                    *)

(* TS 24.008 10.5.5.8: a P-TMSI signature has three octets. *)
Theorem C59_ptmsi_signature_refuted : forall i, ie_marshal (IE_PtmsiSignature i) <> framed 112 (ie_ins i) (num 3 (ie_v i)).
Proof.
  intros i H. rewrite C58_element_octets in H by exact I. cbn [ie_wire] in H. unfold member, framed in H.
  apply (f_equal (@length N)) in H. rewrite !app_length, <- !num_ok, !enc_be_length in H. cbn [length] in H. lia.
Qed.
Print Assumptions C59_ptmsi_signature_refuted.

(* TS 24.007 11.2.3.1.3: identifiers from 7 on have 111 in the first octet and follow, in the second, a one. *)
Definition transaction_std (v : transaction_id) : list N :=
  if tx_id v <? 7 then [octet [(1, one (tx_flag v)); (3, tx_id v); (4, 0)]]
  else [octet [(1, one (tx_flag v)); (3, 7); (4, 0)]; octet [(1, 1); (7, tx_id v)]].
Theorem C59_transaction_identifier_partial : forall i, tx_id (ie_v i) < 7 ->
  ie_marshal (IE_TransactionIdentifier i) = framed 137 (ie_ins i) (transaction_std (ie_v i)).
Proof.
  intros i H. rewrite C58_element_octets by exact I. cbn [ie_wire]. unfold member, Transaction_wire, transaction_std.
  apply N.ltb_lt in H. rewrite H. reflexivity.
Qed.
Theorem C59_transaction_identifier_refuted : forall i, 7 <= tx_id (ie_v i) < 128 ->
  ie_marshal (IE_TransactionIdentifier i) <> framed 137 (ie_ins i) (transaction_std (ie_v i)).
Proof.
  intros i H. rewrite C58_element_octets by exact I. cbn [ie_wire]. unfold member, Transaction_wire, transaction_std.
  destruct (N.ltb_spec (tx_id (ie_v i)) 7); [lia|]. unfold framed, nlen. cbn [length app]. intros E.
  injection E as E _. destruct (tx_flag (ie_v i)); discriminate E.
Qed.
Print Assumptions C59_transaction_identifier_refuted.

(* TS 23.040 9.2.3.11: quarters of an hour as two decimal digits, the lower half of the octet first, with the
   sign in its upper bit. *)
Definition zone_std (z : Z) : N :=
  octet [(4, Z.to_N (Z.abs z) mod 10); (1, one (z <? 0)%Z); (3, Z.to_N (Z.abs z) / 10)].
Lemma zone_sweep : forallb (fun a =>
  (Bool.eqb (octet [(1, 0); (7, a)] =? octet [(4, a mod 10); (1, 0); (3, a / 10)]) ((a =? 0) || (a =? 53))) &&
  (Bool.eqb (octet [(1, 1); (7, a)] =? octet [(4, a mod 10); (1, 1); (3, a / 10)]) (a =? 8))) (upto 80) = true.
Proof. vm_compute. reflexivity. Qed.
Theorem C59_time_zone_refuted : forall i, (-79 <= tz_zone (ie_v i) <= 79)%Z -> tz_dst (ie_v i) < 4 ->
  (ie_marshal (IE_UeTimeZone i) = framed 114 (ie_ins i) [zone_std (tz_zone (ie_v i)); tz_dst (ie_v i)]
   <-> tz_zone (ie_v i) = 0%Z \/ tz_zone (ie_v i) = 53%Z \/ tz_zone (ie_v i) = (-8)%Z).
Proof.
  intros i H D. rewrite C58_element_octets by (cbn [ie_fits]; split; [lia|exact D]). cbn [ie_wire]. unfold member, TimeZone_wire, zone_std.
  rewrite low2 by exact D. set (z := tz_zone (ie_v i)) in *. set (a := Z.to_N (Z.abs z)).
  assert (A : a < 80) by (subst a; lia). pose proof (sweep 80 _ zone_sweep a A) as S. cbv beta in S.
  apply andb_true_iff in S. destruct S as [S1 S2]. apply Bool.eqb_prop in S1, S2.
  assert (E : forall x y, framed 114 (ie_ins i) [x; tz_dst (ie_v i)] = framed 114 (ie_ins i) [y; tz_dst (ie_v i)] <-> (x =? y) = true).
  { intros x y. rewrite N.eqb_eq. unfold framed, nlen. cbn [length app]. split; [intros X; injection X; auto|intros ->; reflexivity]. }
  rewrite E. destruct (Z.ltb_spec z 0); cbn [one].
  - rewrite S2, N.eqb_eq. subst a. lia.
  - rewrite S1, orb_true_iff, !N.eqb_eq. subst a. lia.
Qed.
Print Assumptions C59_time_zone_refuted.

(* TS 29.274 8.115: relative capacity, length of the APN, APN. *)
Theorem C59_apn_relative_capacity_refuted : forall i, labels_fit (arc_name (ie_v i)) ->
  ie_marshal (IE_ApnRelativeCapacity i)
  <> framed 184 (ie_ins i) (arc_cap (ie_v i) :: sized (labels (arc_name (ie_v i)))).
Proof.
  intros i H. rewrite C58_element_octets by exact H. cbn [ie_wire]. unfold member, framed, ApnRelCap_wire, sized.
  intros E. apply (f_equal (@length N)) in E. rewrite !app_length in E. cbn [length] in E. lia.
Qed.
Print Assumptions C59_apn_relative_capacity_refuted.

(* TS 29.274 8.51: the identity of a home eNB has 28 bits in four octets; it is sent in three. *)
Theorem C59_home_enb_refuted : forall i e, ie_v i = Tt_Home e -> plmn_fits (me_plmn (mt_enb e)) ->
  ie_marshal (IE_TargetIdentification i)
  <> framed 121 (ie_ins i) (3 :: plmn_wire (me_plmn (mt_enb e)) ++ num 4 (me_id (mt_enb e)) ++ num 2 (mt_tac e)).
Proof.
  intros i e V H. rewrite C58_element_octets by (cbn [ie_fits]; unfold mfits; rewrite V; exact H). cbn [ie_wire].
  unfold member, framed. rewrite V. cbn [Target_wire]. unfold Macro_wire. intros E. apply (f_equal (@length N)) in E.
  rewrite <- !num_ok in E. cbn [length app] in E. rewrite !app_length in E. cbn [length] in E. rewrite !enc_be_length in E. lia.
Qed.
Print Assumptions C59_home_enb_refuted.
(* so that two home eNBs whose identities agree in their lower 24 bits are one *)
Theorem C59_home_enb_confused_refuted : exists x y, x <> y /\ me_id (mt_enb x) < 2 ^ 28 /\ me_id (mt_enb y) < 2 ^ 28 /\
  forall t l ins, ie_marshal (IE_TargetIdentification (mkIe t l ins (Tt_Home x))) = ie_marshal (IE_TargetIdentification (mkIe t l ins (Tt_Home y))).
Proof.
  exists (mkMacroTac (mkMacroEnb (mkPlmn 262 2 false) 16777221) 9), (mkMacroTac (mkMacroEnb (mkPlmn 262 2 false) 5) 9).
  split; [discriminate|]. split; [reflexivity|]. split; [reflexivity|]. intros. reflexivity.
Qed.
Print Assumptions C59_home_enb_confused_refuted.

(* An F-TEID without address announces an IPv4 and an IPv6 address. *)
Theorem C59_fteid_without_address_refuted : forall i, ft_v4 (ie_v i) = None -> ft_v6 (ie_v i) = None -> ft_if (ie_v i) < 64 ->
  ie_marshal (IE_Fteid i) = framed 87 (ie_ins i) (octet [(1, 1); (1, 1); (6, ft_if (ie_v i))] :: num 4 (ft_teid (ie_v i))).
Proof.
  intros i H4 H6 H. etransitivity; [apply tliv_framed|]. unfold Fteid_value. rewrite H4, H6, num_ok. cbn [opt_octets app]. rewrite !app_nil_r.
  do 2 f_equal. assert (S : forallb (fun i => N.lor 192 i =? octet [(1, 1); (1, 1); (6, i)]) (upto 64) = true) by (vm_compute; reflexivity).
  apply N.eqb_eq. exact (sweep 64 _ S _ H).
Qed.
Print Assumptions C59_fteid_without_address_refuted.

(* An EPC timer of 32 to 126 spills into the unit and is sent as another timer. *)
Theorem C59_epc_timer_refuted : forall t l ins v, 32 <= v < 64 ->
  ie_marshal (IE_EpcTimer (mkIe t l ins (mkEpcTimer 0 v))) = ie_marshal (IE_EpcTimer (mkIe t l ins (mkEpcTimer 1 (v - 32)))).
Proof.
  intros t l ins v H. cbn [ie_marshal]. etransitivity; [apply tliv_framed|]. symmetry. etransitivity; [apply tliv_framed|]. symmetry.
  cbn [ie_v ie_ins]. f_equal. unfold EpcTimer_value. cbn [et_unit et_value].
  destruct (N.ltb_spec v 127); [|lia]. destruct (N.ltb_spec (v - 32) 127); [|lia]. f_equal.
  rewrite (bits35 1 (v - 32)) by lia. change (shl8 0 5) with 0. rewrite N.lor_0_l. symmetry. octets_tac.
Qed.
Print Assumptions C59_epc_timer_refuted.
Example C59_witness :
  (* +01:00 is sent as 0x04, the standard has 0x40; -05:00 as 0x94, the standard has 0x0a *)
  map (fun z => (nth 4 (ie_marshal (IE_UeTimeZone (mkIe 114 2 0 (mkUeTimeZone z 0)))) 0, zone_std z)) [4; -20]%Z = [(4, 64); (148, 10)] /\
  ie_marshal (IE_TransactionIdentifier (mkIe 137 2 0 (mkTransactionId true 9))) = [137; 0; 2; 0; 128; 9] /\
  transaction_std (mkTransactionId true 9) = [240; 137].
Proof. split; [|split]; vm_compute; reflexivity. Qed.
