(* V2ForwardA.v - every GTPv2-C element that is not a group: read, checked as V2ForwardSpec.v says, it is
   well formed for the encoder, with the length brought up to date. *)
From Verif Require Import BaseFacts Digits Labels V2Forward V2ForwardSpec V2DecSpec V2DecFacts.
From Coq Require Import Sorted.
Local Open Scope N_scope.

(* ------------------------------------------------------------------------- *)
(* Parts of single elements *)

Lemma gives_SourceRnc : gives SourceRnc_ (fun v => plmn_ok (sr_plmn v) /\ u16 (sr_id v) /\ given u16 (sr_ext v)).
Proof.
  unfold SourceRnc_. do 2 (eapply gives_bind; [solve [eauto with gives]|intros ? ?]). intros q v r B E. destruct q as [|x q].
  - injection E as <- <-. split; [|constructor]. cbn [sr_plmn sr_id sr_ext given]. auto.
  - refine (gives_bind _ _ (fun x => x < 65536) (fun v => plmn_ok (sr_plmn v) /\ u16 (sr_id v) /\ given u16 (sr_ext v)) gives_number2 _ _ _ _ B E). intros e He. apply gives_yield.
    cbn [sr_plmn sr_id sr_ext given]. auto.
Qed.
Lemma gives_Rnc : gives Rnc_ (fun v => Rai_ok (rn_rai v) /\ u16 (rn_id v) /\ given u16 (rn_ext v)).
Proof.
  unfold Rnc_. do 2 (eapply gives_bind; [solve [eauto with gives]|intros ? ?]). intros q v r B E. destruct q as [|x [|y q]].
  - injection E as <- <-. split; [|constructor]. cbn [rn_rai rn_id rn_ext given]. auto.
  - injection E as <- <-. split; [|exact B]. cbn [rn_rai rn_id rn_ext given]. auto.
  - injection E as <- <-. unfold bytes in B. rewrite !Forall_cons_iff in B. destruct B as (Bx & By & B). split; [|exact B].
    cbn [rn_rai rn_id rn_ext given]. unfold byte in *. split; [assumption|]. split; [assumption|]. unfold u16, base256. cbn [fold_left]. lia.
Qed.
Lemma gives_MacroTac : gives MacroTac_ (fun v => MacroEnbId_ok (mt_enb v) /\ u16 (mt_tac v)).
Proof. unfold MacroTac_. steps. split; assumption. Qed.
Lemma gives_ExtTac : gives ExtTac_ (fun v => ExtMacroEnbId_ok (V2IeF.xt_enb v) /\ u16 (xt_tac v)).
Proof. unfold ExtTac_. steps. split; assumption. Qed.
Lemma gives_Gnb : gives Gnb_ (fun v => plmn_ok (gn_plmn v) /\ u32 (gn_id v) /\ etac_ok (gn_etac v)).
Proof. unfold Gnb_. steps. cbn beta in *. tidy. split; [assumption|]. split; assumption. Qed.
Lemma gives_MacroNg : gives MacroNg_ (fun v => MacroEnbId_ok (mn_enb v) /\ etac_ok (mn_etac v)).
Proof. unfold MacroNg_. steps. cbn beta in *. tidy. split; assumption. Qed.
Lemma gives_ExtNg : gives ExtNg_ (fun v => ExtMacroEnbId_ok (xn_enb v) /\ etac_ok (xn_etac v)).
Proof. unfold ExtNg_. steps. cbn beta in *. tidy. split; assumption. Qed.
Lemma gives_EnGnb : gives EnGnb_ (fun _ => True).
Proof. unfold EnGnb_. steps. exact I. Qed.
Global Hint Resolve gives_SourceRnc gives_Rnc gives_MacroTac gives_ExtTac gives_Gnb gives_MacroNg gives_ExtNg gives_EnGnb : gives.

Definition location_kind_ok (k : N) (l : location) : Prop := location_ok l /\ loc_kind l = k + 1.
Lemma gives_location k : k < 8 -> gives (location_of k) (location_kind_ok k).
Proof.
  intros H. assert (K : k = 0 \/ k = 1 \/ k = 2 \/ k = 3 \/ k = 4 \/ k = 5 \/ k = 6 \/ k = 7) by lia.
  decompose [or] K; subst k; (eapply gives_as; [solve [eauto with gives]|intros a Ha; split; [exact Ha|reflexivity]]).
Qed.
Lemma locations_ok ks : Forall (fun k => k < 8) ks /\ StronglySorted N.lt ks -> gives (locations ks) Uli_ok.
Proof.
  intros [F S]. apply gives_imp with (P := Forall2 location_kind_ok ks).
  - clear S. induction F as [|k ks Hk F IH]; cbn [locations]; [steps; constructor|].
    eapply gives_bind; [apply gives_location, Hk|]. intros a Ha. eapply gives_bind; [exact IH|]. intros l Hl. apply gives_yield.
    constructor; assumption.
  - intros v H. clear F. revert S. induction H as [|k l ks v [O E] H IH]; intros S; [split; constructor|].
    inversion S; subst. destruct (IH ltac:(assumption)) as [I1 I2]. split; [constructor; assumption|]. constructor; [exact I2|].
    match goal with X : Forall (N.lt _) ks |- _ => revert X end. clear - H E. induction H as [|k' l' ks v [O' E'] H IH]; intros X; [constructor|].
    apply Forall_cons_iff in X. destruct X as [X1 X2]. constructor; [lia|apply IH, X2].
Qed.
Lemma sorted_filter f l : StronglySorted N.lt l -> StronglySorted N.lt (filter f l).
Proof.
  induction 1 as [|x l S IH F]; cbn [filter]; [constructor|]. destruct (f x); [|exact IH]. constructor; [exact IH|].
  apply Forall_forall. intros y Hy. apply filter_In in Hy. rewrite Forall_forall in F. apply F, Hy.
Qed.
Lemma octet_kinds x : Forall (fun k => k < 8) (filter (bit_at x) [0; 1; 2; 3; 4; 5; 6; 7]) /\
  StronglySorted N.lt (filter (bit_at x) [0; 1; 2; 3; 4; 5; 6; 7]).
Proof.
  split.
  - apply Forall_forall. intros k H. apply filter_In in H. destruct H as [H _]. cbn [In] in H. lia.
  - apply sorted_filter. repeat constructor.
Qed.
Lemma presence_of_ok i f : i < 16777216 -> presence_area_ok (presence_of i f).
Proof. intros H. unfold presence_of. destruct (bit_at f 3), (bit_at f 1), (bit_at f 0); exact H. Qed.
Lemma presence_areas_ok : forall n q, (length q <= n)%nat -> bytes q -> Forall presence_area_ok (presence_areas q).
Proof.
  induction n as [|n IH]; intros q L B; [destruct q; [constructor|cbn in L; lia]|].
  destruct q as [|a [|b [|c [|f q]]]]; try constructor.
  - apply presence_of_ok. unfold bytes in B. rewrite !Forall_cons_iff in B. destruct B as (Ba & Bb & Bc & _). unfold byte in *.
    unfold base256. cbn [fold_left]. lia.
  - destruct (bit_at f 2); [|constructor]. apply IH; [cbn [length] in L; lia|]. unfold bytes in B. rewrite !Forall_cons_iff in B. tauto.
Qed.

(* ------------------------------------------------------------------------- *)
(* The elements, in the order of their type codes *)

Lemma Imsi_fwd s i : bytes s -> Imsi_reads s = Some i -> fit_for plain_survives (IE_Imsi i) -> Imsi_wf (true_length IE_Imsi i).
Proof.
  unfold Imsi_reads.  apply (closed_fwd IE_Imsi 1 Imsi_value digits1 (fun v => Forall (fun c => 48 <= c <= 57) v)); [intros; apply nlen_marshal|reflexivity| |intros x P Q; split; [exact P|exact Q]].
  intros o v B N0 E. injection E as <-. apply number_of_digits.
Qed.
Lemma Cause_fwd s i : bytes s -> Cause_reads s = Some i -> fit_for plain_survives (IE_Cause i) -> Cause_wf (true_length IE_Cause i).
Proof.
  apply (element_fwd IE_Cause 2 Cause_value any any); [intros; apply nlen_marshal|reflexivity| |auto].
  intros len k Hl Hk. steps; try unfold any; close.
Qed.
Lemma Recovery_fwd s i : bytes s -> Recovery_reads s = Some i -> fit_for plain_survives (IE_Recovery i) -> Recovery_wf (true_length IE_Recovery i).
Proof.
  apply (element_fwd IE_Recovery 3 Recovery_value byte byte); [intros; apply nlen_marshal|reflexivity| |auto].
  intros _ _ _ _. steps; try unfold byte; close.
Qed.
Lemma StnSr_fwd s i : bytes s -> StnSr_reads s = Some i -> fit_for plain_survives (IE_StnSr i) -> StnSr_wf (true_length IE_StnSr i).
Proof.
  unfold StnSr_reads.  apply (closed_fwd IE_StnSr 51 StnSr_value StnSr_ok StnSr_ok); [intros; apply nlen_marshal|reflexivity| |auto].
  intros o v B N0 E. destruct o as [|n o]; [discriminate|]. injection E as <-. apply number_of_digits.
Qed.
Lemma SrvccCause_fwd s i : bytes s -> SrvccCause_reads s = Some i -> fit_for plain_survives (IE_SrvccCause i) -> SrvccCause_wf (true_length IE_SrvccCause i).
Proof.
  apply (element_fwd IE_SrvccCause 56 SrvccCause_value any any); [intros; apply nlen_marshal|reflexivity| |auto].
  intros _ _ _ _. steps; try unfold any; close.
Qed.
Lemma Apn_fwd s i : bytes s -> Apn_reads s = Some i -> fit_for plain_survives (IE_Apn i) -> Apn_wf (true_length IE_Apn i).
Proof.
  unfold Apn_reads.  apply (closed_fwd IE_Apn 71 Apn_value name_ok (fun v => ascii v -> name_ok v)); [intros; apply nlen_marshal|reflexivity| |intros x P Q; exact (Q P)].
  intros o v B N0 E. exact (name_in_ok _ _ B E).
Qed.
Lemma Ambr_fwd s i : bytes s -> Ambr_reads s = Some i -> fit_for plain_survives (IE_ApnAmbr i) -> Ambr_wf (true_length IE_ApnAmbr i).
Proof.
  apply (element_fwd IE_ApnAmbr 72 Ambr_value Ambr_ok Ambr_ok); [intros; apply nlen_marshal|reflexivity| |auto].
  intros _ _ _ _. steps; try unfold Ambr_ok; close.
Qed.
Lemma Ebi_fwd s i : bytes s -> Ebi_reads s = Some i -> fit_for plain_survives (IE_Ebi i) -> Ebi_wf (true_length IE_Ebi i).
Proof.
  apply (element_fwd IE_Ebi 73 Ebi_value four_bits four_bits); [intros; apply nlen_marshal|reflexivity| |auto].
  intros _ _ _ _. steps; try unfold four_bits; close.
Qed.
Lemma IpAddress_fwd s i : bytes s -> IpAddress_reads s = Some i -> fit_for plain_survives (IE_IpAddress i) -> IpAddress_wf (true_length IE_IpAddress i).
Proof.
  unfold IpAddress_reads.  apply (closed_fwd IE_IpAddress 74 IpAddress_value ipaddr_ok ipaddr_ok); [intros; apply nlen_marshal|reflexivity| |auto].
  intros o v B N0 E. destruct (Nat.eqb_spec (length o) 4); [injection E as <-; assumption|].
  destruct (Nat.eqb_spec (length o) 16); [injection E as <-; assumption|discriminate].
Qed.
Lemma Mei_fwd s i : bytes s -> Mei_reads s = Some i -> fit_for plain_survives (IE_Mei i) -> Mei_wf (true_length IE_Mei i).
Proof.
  unfold Mei_reads.  apply (closed_fwd IE_Mei 75 Mei_value Mei_ok (fun v => Forall (fun c => 48 <= c <= 57) v)); [intros; apply nlen_marshal|reflexivity| |intros x P Q; split; [exact P|exact Q]].
  intros o v B N0 E. injection E as <-. apply number_of_digits.
Qed.
Lemma Msisdn_fwd s i : bytes s -> Msisdn_reads s = Some i -> fit_for plain_survives (IE_Msisdn i) -> Msisdn_wf (true_length IE_Msisdn i).
Proof.
  unfold Msisdn_reads.  apply (closed_fwd IE_Msisdn 76 Msisdn_value digits1 (fun v => Forall (fun c => 48 <= c <= 57) v)); [intros; apply nlen_marshal|reflexivity| |intros x P Q; split; [exact P|exact Q]].
  intros o v B N0 E. injection E as <-. apply number_of_digits.
Qed.
Lemma Indication_fwd s i : bytes s -> Indication_reads s = Some i -> fit_for plain_survives (IE_Indication i) -> Indication_wf (true_length IE_Indication i).
Proof.
  apply (element_fwd IE_Indication 77 Indication_value any any); [intros; apply nlen_marshal|reflexivity| |auto].
  intros len k Hl Hk. steps; try unfold any; close.
Qed.
Lemma Pco_fwd s i : bytes s -> Pco_reads s = Some i -> fit_for plain_survives (IE_Pco i) -> Pco_wf (true_length IE_Pco i).
Proof.
  unfold Pco_reads.  apply (closed_fwd IE_Pco 78 Pco_value octets1 octets1); [intros; apply nlen_marshal|reflexivity| |auto].
  intros o v B N0 E. injection E as <-; exact N0.
Qed.
Lemma PdnAddressAllocation_fwd s i : bytes s -> PdnAddressAllocation_reads s = Some i -> fit_for plain_survives (IE_PdnAddressAllocation i) -> PdnAddressAllocation_wf (true_length IE_PdnAddressAllocation i).
Proof.
  unfold PdnAddressAllocation_reads.  apply (closed_fwd IE_PdnAddressAllocation 79 PdnAddressAllocation_value PdnAddressAllocation_ok PdnAddressAllocation_ok); [intros; apply nlen_marshal|reflexivity| |auto].
  intros o v B N0 E. unfold within in E. match type of E with option_map _ (?p _) = _ => assert (G : gives p PdnAddressAllocation_ok) end.
  { steps; cbn beta in *; tidy; cbn; auto. }
  match type of E with option_map _ ?r = _ => destruct r as [[w r']|] eqn:Ep; [|discriminate] end. cbn [option_map fst] in E. injection E as <-.
  destruct (G _ _ _ B Ep). assumption.
Qed.
Lemma BearerQos_fwd s i : bytes s -> BearerQos_reads s = Some i -> fit_for plain_survives (IE_BearerQos i) -> BearerQos_wf (true_length IE_BearerQos i).
Proof.
  apply (element_fwd IE_BearerQos 80 BearerQos_value BearerQos_ok BearerQos_ok); [intros; apply nlen_marshal|reflexivity| |auto].
  intros _ _ _ _. steps; try unfold BearerQos_ok; close.
Qed.
Lemma FlowQos_fwd s i : bytes s -> FlowQos_reads s = Some i -> fit_for plain_survives (IE_FlowQos i) -> FlowQos_wf (true_length IE_FlowQos i).
Proof.
  apply (element_fwd IE_FlowQos 81 FlowQos_value FlowQos_ok FlowQos_ok); [intros; apply nlen_marshal|reflexivity| |auto].
  intros _ _ _ _. steps; try unfold FlowQos_ok; close.
Qed.
Lemma RatType_fwd s i : bytes s -> RatType_reads s = Some i -> fit_for plain_survives (IE_RatType i) -> RatType_wf (true_length IE_RatType i).
Proof.
  apply (element_fwd IE_RatType 82 RatType_value any any); [intros; apply nlen_marshal|reflexivity| |auto].
  intros _ _ _ _. steps; try unfold any; close.
Qed.
Lemma ServingNetwork_fwd s i : bytes s -> ServingNetwork_reads s = Some i -> fit_for plain_survives (IE_ServingNetwork i) -> ServingNetwork_wf (true_length IE_ServingNetwork i).
Proof.
  apply (element_fwd IE_ServingNetwork 83 ServingNetwork_value plmn_ok plmn_ok); [intros; apply nlen_marshal|reflexivity| |auto].
  intros _ _ _ _. steps; try unfold plmn_ok; close.
Qed.
Lemma BearerTft_fwd s i : bytes s -> BearerTft_reads s = Some i -> fit_for plain_survives (IE_BearerTft i) -> BearerTft_wf (true_length IE_BearerTft i).
Proof.
  unfold BearerTft_reads.  apply (closed_fwd IE_BearerTft 84 BearerTft_value octets1 octets1); [intros; apply nlen_marshal|reflexivity| |auto].
  intros o v B N0 E. injection E as <-; exact N0.
Qed.
Lemma TrafficAggregateDescription_fwd s i : bytes s -> TrafficAggregateDescription_reads s = Some i -> fit_for plain_survives (IE_TrafficAggregateDescription i) -> TrafficAggregateDescription_wf (true_length IE_TrafficAggregateDescription i).
Proof.
  unfold TrafficAggregateDescription_reads.  apply (closed_fwd IE_TrafficAggregateDescription 85 TrafficAggregateDescription_value octets1 octets1); [intros; apply nlen_marshal|reflexivity| |auto].
  intros o v B N0 E. injection E as <-; exact N0.
Qed.
Lemma Uli_fwd s i : bytes s -> Uli_reads s = Some i -> fit_for plain_survives (IE_Uli i) -> Uli_wf (true_length IE_Uli i).
Proof.
  apply (element_fwd IE_Uli 86 Uli_value Uli_ok Uli_ok); [intros; apply nlen_marshal|reflexivity| |auto].
  intros len _ _ _. apply gives_checked. intros Hl. eapply gives_bind; [apply gives_take1|]. intros x _. apply locations_ok. apply octet_kinds.
Qed.
Lemma Fteid_fwd s i : bytes s -> Fteid_reads s = Some i -> fit_for plain_survives (IE_Fteid i) -> Fteid_wf (true_length IE_Fteid i).
Proof.
  apply (element_fwd IE_Fteid 87 Fteid_value Fteid_ok Fteid_ok); [intros; apply nlen_marshal|reflexivity| |auto].
  intros len _ _ _. apply gives_checked. intros Hl. eapply gives_bind; [apply gives_take1|]. intros x Hx. do 4 (eapply gives_bind; [solve [eauto with gives]|intros ? ?]). steps.
  unfold Fteid_ok. cbn [ft_if ft_teid ft_v4 ft_v6]. cbn beta in *. repeat split.
  - lia.
  - assumption.
  - destruct a1; [tauto|exact I].
  - destruct a2; [tauto|exact I].
  - intros E. subst a1. cbn beta in *. destruct a2; [discriminate|]. intros _. rewrite H1, H2 in H0. discriminate.
Qed.
Lemma Tmsi_fwd s i : bytes s -> Tmsi_reads s = Some i -> fit_for plain_survives (IE_Tmsi i) -> Tmsi_wf (true_length IE_Tmsi i).
Proof.
  apply (element_fwd IE_Tmsi 88 Tmsi_value u32 u32); [intros; apply nlen_marshal|reflexivity| |auto].
  intros _ _ _ _. steps; try unfold u32; close.
Qed.
Lemma GlobalCnId_fwd s i : bytes s -> GlobalCnId_reads s = Some i -> fit_for plain_survives (IE_GlobalCnId i) -> GlobalCnId_wf (true_length IE_GlobalCnId i).
Proof.
  apply (element_fwd IE_GlobalCnId 89 GlobalCnId_value GlobalCnId_ok GlobalCnId_ok); [intros; apply nlen_marshal|reflexivity| |auto].
  intros _ _ _ _. steps; try unfold GlobalCnId_ok; close.
Qed.
Lemma S103pdf_fwd s i : bytes s -> S103pdf_reads s = Some i -> fit_for plain_survives (IE_S103pdf i) -> S103pdf_wf (true_length IE_S103pdf i).
Proof.
  apply (element_fwd IE_S103pdf 90 S103pdf_value S103pdf_ok S103pdf_ok); [intros; apply nlen_marshal|reflexivity| |auto].
  intros len _ _ _. apply gives_checked. intros Hl. steps. unfold S103pdf_ok, short_octets. close.
Qed.
Lemma S1udf_fwd s i : bytes s -> S1udf_reads s = Some i -> fit_for plain_survives (IE_S1udf i) -> S1udf_wf (true_length IE_S1udf i).
Proof.
  apply (element_fwd IE_S1udf 91 S1udf_value S1udf_ok S1udf_ok); [intros; apply nlen_marshal|reflexivity| |auto].
  intros len _ _ _. apply gives_checked. intros Hl. steps. unfold S1udf_ok. close.
Qed.
Lemma DelayValue_fwd s i : bytes s -> DelayValue_reads s = Some i -> fit_for plain_survives (IE_DelayValue i) -> DelayValue_wf (true_length IE_DelayValue i).
Proof.
  apply (element_fwd IE_DelayValue 92 DelayValue_value byte byte); [intros; apply nlen_marshal|reflexivity| |auto].
  intros _ _ _ _. steps; try unfold byte; close.
Qed.
Lemma ChargingId_fwd s i : bytes s -> ChargingId_reads s = Some i -> fit_for plain_survives (IE_ChargingId i) -> ChargingId_wf (true_length IE_ChargingId i).
Proof.
  apply (element_fwd IE_ChargingId 94 ChargingId_value u32 u32); [intros; apply nlen_marshal|reflexivity| |auto].
  intros _ _ _ _. steps; try unfold u32; close.
Qed.
Lemma ChargingCharacteristics_fwd s i : bytes s -> ChargingCharacteristics_reads s = Some i -> fit_for plain_survives (IE_ChargingCharacteristics i) -> ChargingCharacteristics_wf (true_length IE_ChargingCharacteristics i).
Proof.
  apply (element_fwd IE_ChargingCharacteristics 95 ChargingCharacteristics_value u16 u16); [intros; apply nlen_marshal|reflexivity| |auto].
  intros _ _ _ _. steps; try unfold u16; close.
Qed.
Lemma TraceInformation_fwd s i : bytes s -> TraceInformation_reads s = Some i -> fit_for plain_survives (IE_TraceInformation i) -> TraceInformation_wf (true_length IE_TraceInformation i).
Proof.
  apply (element_fwd IE_TraceInformation 96 TraceInformation_value TraceInformation_ok TraceInformation_ok); [intros; apply nlen_marshal|reflexivity| |auto].
  intros _ _ _ _. steps; try unfold TraceInformation_ok; close.
Qed.
Lemma BearerFlags_fwd s i : bytes s -> BearerFlags_reads s = Some i -> fit_for plain_survives (IE_BearerFlags i) -> BearerFlags_wf (true_length IE_BearerFlags i).
Proof.
  apply (element_fwd IE_BearerFlags 97 BearerFlags_value any any); [intros; apply nlen_marshal|reflexivity| |auto].
  intros _ _ _ _. steps; try unfold any; close.
Qed.
Lemma PdnType_fwd s i : bytes s -> PdnType_reads s = Some i -> fit_for plain_survives (IE_PdnType i) -> PdnType_wf (true_length IE_PdnType i).
Proof.
  apply (element_fwd IE_PdnType 99 PdnType_value any any); [intros; apply nlen_marshal|reflexivity| |auto].
  intros _ _ _ _. steps; try unfold any; close.
Qed.
Lemma Pti_fwd s i : bytes s -> Pti_reads s = Some i -> fit_for plain_survives (IE_Pti i) -> Pti_wf (true_length IE_Pti i).
Proof.
  apply (element_fwd IE_Pti 100 Pti_value byte byte); [intros; apply nlen_marshal|reflexivity| |auto].
  intros _ _ _ _. steps; try unfold byte; close.
Qed.
Lemma PduNumbers_fwd s i : bytes s -> PduNumbers_reads s = Some i -> fit_for plain_survives (IE_PduNumbers i) -> PduNumbers_wf (true_length IE_PduNumbers i).
Proof.
  apply (element_fwd IE_PduNumbers 110 PduNumbers_value PduNumbers_ok PduNumbers_ok); [intros; apply nlen_marshal|reflexivity| |auto].
  intros _ _ _ _. steps; try unfold PduNumbers_ok; close.
Qed.
Lemma Ptmsi_fwd s i : bytes s -> Ptmsi_reads s = Some i -> fit_for plain_survives (IE_Ptmsi i) -> Ptmsi_wf (true_length IE_Ptmsi i).
Proof.
  apply (element_fwd IE_Ptmsi 111 Ptmsi_value u32 u32); [intros; apply nlen_marshal|reflexivity| |auto].
  intros _ _ _ _. steps; try unfold u32; close.
Qed.
Lemma PtmsiSignature_fwd s i : bytes s -> PtmsiSignature_reads s = Some i -> fit_for plain_survives (IE_PtmsiSignature i) -> PtmsiSignature_wf (true_length IE_PtmsiSignature i).
Proof.
  apply (element_fwd IE_PtmsiSignature 112 PtmsiSignature_value u32 u32); [intros; apply nlen_marshal|reflexivity| |auto].
  intros _ _ _ _. steps; try unfold u32; close.
Qed.
Lemma HopCounter_fwd s i : bytes s -> HopCounter_reads s = Some i -> fit_for plain_survives (IE_HopCounter i) -> HopCounter_wf (true_length IE_HopCounter i).
Proof.
  apply (element_fwd IE_HopCounter 113 HopCounter_value byte byte); [intros; apply nlen_marshal|reflexivity| |auto].
  intros _ _ _ _. steps; try unfold byte; close.
Qed.
Lemma UeTimeZone_fwd s i : bytes s -> UeTimeZone_reads s = Some i -> fit_for plain_survives (IE_UeTimeZone i) -> UeTimeZone_wf (true_length IE_UeTimeZone i).
Proof.
  apply (element_fwd IE_UeTimeZone 114 UeTimeZone_value UeTimeZone_ok UeTimeZone_ok); [intros; apply nlen_marshal|reflexivity| |auto].
  intros _ _ _ _. steps. unfold UeTimeZone_ok. cbn [tz_zone tz_dst]. cbn beta in *. split; [destruct (bit_at _ 7); lia|lia].
Qed.
Lemma TraceReference_fwd s i : bytes s -> TraceReference_reads s = Some i -> fit_for plain_survives (IE_TraceReference i) -> TraceReference_wf (true_length IE_TraceReference i).
Proof.
  apply (element_fwd IE_TraceReference 83 TraceReference_value TraceReference_ok TraceReference_ok); [intros; apply nlen_marshal|reflexivity| |auto].
  intros _ _ _ _. steps; try unfold TraceReference_ok; close.
Qed.
Lemma CompleteRequestMessage_fwd s i : bytes s -> CompleteRequestMessage_reads s = Some i -> fit_for plain_survives (IE_CompleteRequestMessage i) -> CompleteRequestMessage_wf (true_length IE_CompleteRequestMessage i).
Proof.
  unfold CompleteRequestMessage_reads.  apply (closed_fwd IE_CompleteRequestMessage 116 CompleteRequestMessage_value any any); [intros; apply nlen_marshal|reflexivity| |auto].
  intros o v B N0 E. exact I.
Qed.
Lemma Guti_fwd s i : bytes s -> Guti_reads s = Some i -> fit_for plain_survives (IE_Guti i) -> Guti_wf (true_length IE_Guti i).
Proof.
  apply (element_fwd IE_Guti 117 Guti_value Guti_ok Guti_ok); [intros; apply nlen_marshal|reflexivity| |auto].
  intros _ _ _ _. steps; try unfold Guti_ok; close.
Qed.
Lemma Fcontainer_fwd s i : bytes s -> Fcontainer_reads s = Some i -> fit_for plain_survives (IE_Fcontainer i) -> Fcontainer_wf (true_length IE_Fcontainer i).
Proof.
  unfold Fcontainer_reads.  apply (closed_fwd IE_Fcontainer 118 Fcontainer_value Fcontainer_ok Fcontainer_ok); [intros; apply nlen_marshal|reflexivity| |auto].
  intros o v B N0 E. destruct o as [|k o]; [discriminate|]. injection E as <-. unfold entry.
  destruct (N.ltb_spec k 7) as [H|H].
  - assert (K : k = 0 \/ k = 1 \/ k = 2 \/ k = 3 \/ k = 4 \/ k = 5 \/ k = 6) by lia. decompose [or] K; subst k; exact I.
  - rewrite nth_overflow by (cbn [length]; lia). exists k, o. split; [reflexivity|exact H].
Qed.
Lemma Fcause_fwd s i : bytes s -> Fcause_reads s = Some i -> fit_for plain_survives (IE_Fcause i) -> Fcause_wf (true_length IE_Fcause i).
Proof.
  unfold Fcause_reads.  apply (closed_fwd IE_Fcause 119 Fcause_value any any); [intros; apply nlen_marshal|reflexivity| |auto].
  intros o v B N0 E. exact I.
Qed.
Lemma PlmnId_fwd s i : bytes s -> PlmnId_reads s = Some i -> fit_for plain_survives (IE_PlmnId i) -> PlmnId_wf (true_length IE_PlmnId i).
Proof.
  apply (element_fwd IE_PlmnId 120 PlmnId_value plmn_ok plmn_ok); [intros; apply nlen_marshal|reflexivity| |auto].
  intros _ _ _ _. steps; try unfold plmn_ok; close.
Qed.
Lemma TargetIdentification_fwd s i : bytes s -> TargetIdentification_reads s = Some i -> fit_for plain_survives (IE_TargetIdentification i) -> TargetIdentification_wf (true_length IE_TargetIdentification i).
Proof.
  apply (element_fwd IE_TargetIdentification 121 TargetIdentification_value target_type_ok (fun v => target_again v -> target_type_ok v)); [intros; apply nlen_marshal|reflexivity| |intros x P Q; exact (Q P)].
  intros _ _ _ _. eapply gives_bind; [apply gives_take1|]. intros k _. unfold entry.
  assert (D : gives (yield Tt_Spare) (fun v => target_again v -> target_type_ok v)) by (apply gives_yield; intros []).
  generalize (N.to_nat k). intros n. destruct n as [|n].
  2: { do 8 (destruct n as [|n]; [cbn [nth]; eapply gives_as; [solve [eauto with gives]|]; intros a Ha P; cbn [target_type_ok];
         first [exact Ha|contradiction]|]). destruct n; exact D. }
  cbn [nth]. eapply gives_as; [solve [eauto with gives]|]. intros a Ha P. cbn [target_type_ok].
  destruct Ha as (R & I & X). split; [exact R|]. split; [exact I|]. cbn [target_again] in P. unfold there in P.
  destruct (rn_ext a) as [e|]; [exists e; auto|contradiction].
Qed.
Lemma PacketFlowId_fwd s i : bytes s -> PacketFlowId_reads s = Some i -> fit_for plain_survives (IE_PacketFlowId i) -> PacketFlowId_wf (true_length IE_PacketFlowId i).
Proof.
  apply (element_fwd IE_PacketFlowId 123 PacketFlowId_value PacketFlowId_ok PacketFlowId_ok); [intros; apply nlen_marshal|reflexivity| |auto].
  intros _ _ _ _. steps; try unfold PacketFlowId_ok; close.
Qed.
Lemma RabContext_fwd s i : bytes s -> RabContext_reads s = Some i -> fit_for plain_survives (IE_RabContext i) -> RabContext_wf (true_length IE_RabContext i).
Proof.
  apply (element_fwd IE_RabContext 124 RabContext_value RabContext_ok RabContext_ok); [intros; apply nlen_marshal|reflexivity| |auto].
  intros _ _ _ _. steps; try unfold RabContext_ok; close.
Qed.
Lemma SourceRncPdcpContextInfo_fwd s i : bytes s -> SourceRncPdcpContextInfo_reads s = Some i -> fit_for plain_survives (IE_SrcRncPdcpCtxInfo i) -> SourceRncPdcpContextInfo_wf (true_length IE_SrcRncPdcpCtxInfo i).
Proof.
  unfold SourceRncPdcpContextInfo_reads.  apply (closed_fwd IE_SrcRncPdcpCtxInfo 125 SourceRncPdcpContextInfo_value octets1 octets1); [intros; apply nlen_marshal|reflexivity| |auto].
  intros o v B N0 E. injection E as <-; exact N0.
Qed.
Lemma PortNumber_fwd s i : bytes s -> PortNumber_reads s = Some i -> fit_for plain_survives (IE_PortNumber i) -> PortNumber_wf (true_length IE_PortNumber i).
Proof.
  apply (element_fwd IE_PortNumber 126 PortNumber_value u16 u16); [intros; apply nlen_marshal|reflexivity| |auto].
  intros _ _ _ _. steps; try unfold u16; close.
Qed.
Lemma ApnRestriction_fwd s i : bytes s -> ApnRestriction_reads s = Some i -> fit_for plain_survives (IE_ApnRestriction i) -> ApnRestriction_wf (true_length IE_ApnRestriction i).
Proof.
  apply (element_fwd IE_ApnRestriction 127 ApnRestriction_value any any); [intros; apply nlen_marshal|reflexivity| |auto].
  intros _ _ _ _. steps; try unfold any; close.
Qed.
Lemma SelectionMode_fwd s i : bytes s -> SelectionMode_reads s = Some i -> fit_for plain_survives (IE_SelectionMode i) -> SelectionMode_wf (true_length IE_SelectionMode i).
Proof.
  apply (element_fwd IE_SelectionMode 128 SelectionMode_value two_bit two_bit); [intros; apply nlen_marshal|reflexivity| |auto].
  intros _ _ _ _. steps; try unfold two_bit; close.
Qed.
Lemma SourceIdentification_fwd s i : bytes s -> SourceIdentification_reads s = Some i -> fit_for plain_survives (IE_SourceIdentification i) -> SourceIdentification_wf (true_length IE_SourceIdentification i).
Proof.
  apply (element_fwd IE_SourceIdentification 129 SourceIdentification_value SourceIdentification_ok (fun v => source_again (si_source v) -> SourceIdentification_ok v)); [intros; apply nlen_marshal|reflexivity| |intros x P Q; exact (Q P)].
  intros _ _ _ _. eapply gives_bind; [apply gives_Cell|]. intros c Hc. eapply gives_bind; [apply gives_take1|]. intros k _.
  eapply (gives_bind _ _ (fun s => source_again s -> source_type_ok s)).
  - apply gives_if; intros _; [eapply gives_bind; [apply gives_Cell|]; intros a Ha; apply gives_yield; intros _; exact Ha|].
    apply gives_if; intros _; [|apply gives_yield; intros []].
    eapply gives_bind; [apply gives_SourceRnc|]. intros a Ha. apply gives_yield. intros P. destruct Ha as (R & I & X). split; [exact R|].
    split; [exact I|]. cbn [source_again] in P. unfold there in P. destruct (sr_ext a) as [e|]; [exists e; auto|contradiction].
  - intros src Hs. apply gives_yield. intros P. split; [exact Hc|exact (Hs P)].
Qed.
Lemma ChangeReportingAction_fwd s i : bytes s -> ChangeReportingAction_reads s = Some i -> fit_for plain_survives (IE_ChangeReportingAction i) -> ChangeReportingAction_wf (true_length IE_ChangeReportingAction i).
Proof.
  apply (element_fwd IE_ChangeReportingAction 131 ChangeReportingAction_value byte byte); [intros; apply nlen_marshal|reflexivity| |auto].
  intros _ _ _ _. steps; try unfold byte; close.
Qed.
Lemma Fqcsid_fwd s i : bytes s -> Fqcsid_reads s = Some i -> fit_for plain_survives (IE_Fqcsid i) -> Fqcsid_wf (true_length IE_Fqcsid i).
Proof.
  apply (element_fwd IE_Fqcsid 132 Fqcsid_value Fqcsid_ok Fqcsid_ok); [intros; apply nlen_marshal|reflexivity| |auto].
  intros len _ _ _. apply gives_checked. intros Hl. eapply gives_bind; [apply gives_take1|]. intros x Hx.
  eapply (gives_bind _ _ (fun n => match n with NodeV4 o => length o = 4%nat | NodeV6 o => length o = 16%nat | NodeNw a => u32 a end)).
  - steps; cbn beta in *; tidy; assumption.
  - intros n Hn. steps. unfold Fqcsid_ok. cbn [fs_node fs_csid]. cbn beta in *. tidy. split; [exact Hn|]. split; [lia|]. assumption.
Qed.
Lemma ChannelNeeded_fwd s i : bytes s -> ChannelNeeded_reads s = Some i -> fit_for plain_survives (IE_ChannelNeeded i) -> ChannelNeeded_wf (true_length IE_ChannelNeeded i).
Proof.
  apply (element_fwd IE_ChannelNeeded 133 ChannelNeeded_value byte byte); [intros; apply nlen_marshal|reflexivity| |auto].
  intros _ _ _ _. steps; try unfold byte; close.
Qed.
Lemma EmlppPriority_fwd s i : bytes s -> EmlppPriority_reads s = Some i -> fit_for plain_survives (IE_EmlppPriority i) -> EmlppPriority_wf (true_length IE_EmlppPriority i).
Proof.
  apply (element_fwd IE_EmlppPriority 134 EmlppPriority_value three_bits three_bits); [intros; apply nlen_marshal|reflexivity| |auto].
  intros _ _ _ _. steps; try unfold three_bits; close.
Qed.
Lemma NodeType_fwd s i : bytes s -> NodeType_reads s = Some i -> fit_for plain_survives (IE_NodeType i) -> NodeType_wf (true_length IE_NodeType i).
Proof.
  apply (element_fwd IE_NodeType 135 NodeType_value any any); [intros; apply nlen_marshal|reflexivity| |auto].
  intros _ _ _ _. steps; try unfold any; close.
Qed.
Lemma Fqdn_fwd s i : bytes s -> Fqdn_reads s = Some i -> fit_for plain_survives (IE_Fqdn i) -> Fqdn_wf (true_length IE_Fqdn i).
Proof.
  unfold Fqdn_reads.  apply (closed_fwd IE_Fqdn 136 Fqdn_value name_ok (fun v => ascii v -> name_ok v)); [intros; apply nlen_marshal|reflexivity| |intros x P Q; exact (Q P)].
  intros o v B N0 E. exact (name_in_ok _ _ B E).
Qed.
Lemma TransactionIdentifier_fwd s i : bytes s -> TransactionIdentifier_reads s = Some i -> fit_for plain_survives (IE_TransactionIdentifier i) -> TransactionIdentifier_wf (true_length IE_TransactionIdentifier i).
Proof.
  apply (element_fwd IE_TransactionIdentifier 137 TransactionIdentifier_value TransactionIdentifier_ok TransactionIdentifier_ok); [intros; apply nlen_marshal|reflexivity| |auto].
  intros len k Hl Hk. steps; try unfold TransactionIdentifier_ok; close.
Qed.
Lemma MbmsSessionDuration_fwd s i : bytes s -> MbmsSessionDuration_reads s = Some i -> fit_for plain_survives (IE_MbmsSd i) -> MbmsSessionDuration_wf (true_length IE_MbmsSd i).
Proof.
  apply (element_fwd IE_MbmsSd 138 MbmsSessionDuration_value MbmsSessionDuration_ok MbmsSessionDuration_ok); [intros; apply nlen_marshal|reflexivity| |auto].
  intros _ _ _ _. steps; try unfold MbmsSessionDuration_ok; close.
Qed.
Lemma MbmsServiceArea_fwd s i : bytes s -> MbmsServiceArea_reads s = Some i -> fit_for plain_survives (IE_MbmsSa i) -> MbmsServiceArea_wf (true_length IE_MbmsSa i).
Proof.
  apply (element_fwd IE_MbmsSa 139 MbmsServiceArea_value MbmsServiceArea_ok MbmsServiceArea_ok); [intros; apply nlen_marshal|reflexivity| |auto].
  intros len _ _ _. apply gives_checked. intros Hl. steps; try unfold MbmsServiceArea_ok; close.
Qed.
Lemma MbmsSessionId_fwd s i : bytes s -> MbmsSessionId_reads s = Some i -> fit_for plain_survives (IE_MbmsSessionId i) -> MbmsSessionId_wf (true_length IE_MbmsSessionId i).
Proof.
  apply (element_fwd IE_MbmsSessionId 140 MbmsSessionId_value byte byte); [intros; apply nlen_marshal|reflexivity| |auto].
  intros _ _ _ _. steps; try unfold byte; close.
Qed.
Lemma MbmsFlowId_fwd s i : bytes s -> MbmsFlowId_reads s = Some i -> fit_for plain_survives (IE_MbmsFlowId i) -> MbmsFlowId_wf (true_length IE_MbmsFlowId i).
Proof.
  apply (element_fwd IE_MbmsFlowId 141 MbmsFlowId_value u16 u16); [intros; apply nlen_marshal|reflexivity| |auto].
  intros _ _ _ _. steps; try unfold u16; close.
Qed.
Lemma MbmsIpMulticastDistribution_fwd s i : bytes s -> MbmsIpMulticastDistribution_reads s = Some i -> fit_for plain_survives (IE_MbmsIpMulticastDistribution i) -> MbmsIpMulticastDistribution_wf (true_length IE_MbmsIpMulticastDistribution i).
Proof.
  apply (element_fwd IE_MbmsIpMulticastDistribution 142 MbmsIpMulticastDistribution_value MbmsIpMulticastDistribution_ok MbmsIpMulticastDistribution_ok); [intros; apply nlen_marshal|reflexivity| |auto].
  intros len _ _ _. apply gives_checked. intros Hl. steps. unfold MbmsIpMulticastDistribution_ok. close.
Qed.
Lemma MbmsDistributionAck_fwd s i : bytes s -> MbmsDistributionAck_reads s = Some i -> fit_for plain_survives (IE_MbmsDistributionAck i) -> MbmsDistributionAck_wf (true_length IE_MbmsDistributionAck i).
Proof.
  apply (element_fwd IE_MbmsDistributionAck 143 MbmsDistributionAck_value two_bits two_bits); [intros; apply nlen_marshal|reflexivity| |auto].
  intros _ _ _ _. steps; try unfold two_bits; close.
Qed.
Lemma RfspIndex_fwd s i : bytes s -> RfspIndex_reads s = Some i -> fit_for plain_survives (IE_RfspIndex i) -> RfspIndex_wf (true_length IE_RfspIndex i).
Proof.
  apply (element_fwd IE_RfspIndex 144 RfspIndex_value u16 u16); [intros; apply nlen_marshal|reflexivity| |auto].
  intros _ _ _ _. steps; try unfold u16; close.
Qed.
Lemma Uci_fwd s i : bytes s -> Uci_reads s = Some i -> fit_for plain_survives (IE_Uci i) -> Uci_wf (true_length IE_Uci i).
Proof.
  apply (element_fwd IE_Uci 145 Uci_value Uci_ok (fun v => uc_csgid v < 2 ^ 27 -> Uci_ok v)); [intros; apply nlen_marshal|reflexivity| |intros x P Q; exact (Q P)].
  intros _ _ _ _. steps. intros P. split; [assumption|exact P].
Qed.
Lemma CSGInformationReportingAction_fwd s i : bytes s -> CSGInformationReportingAction_reads s = Some i -> fit_for plain_survives (IE_CSGInformationReportingAction i) -> CSGInformationReportingAction_wf (true_length IE_CSGInformationReportingAction i).
Proof.
  apply (element_fwd IE_CSGInformationReportingAction 146 CSGInformationReportingAction_value three_bits three_bits); [intros; apply nlen_marshal|reflexivity| |auto].
  intros _ _ _ _. steps; try unfold three_bits; close.
Qed.
Lemma CsgId_fwd s i : bytes s -> CsgId_reads s = Some i -> fit_for plain_survives (IE_CsgId i) -> CsgId_wf (true_length IE_CsgId i).
Proof.
  apply (element_fwd IE_CsgId 147 CsgId_value u32 u32); [intros; apply nlen_marshal|reflexivity| |auto].
  intros _ _ _ _. steps; try unfold u32; close.
Qed.
Lemma CsgMembershipIndication_fwd s i : bytes s -> CsgMembershipIndication_reads s = Some i -> fit_for plain_survives (IE_CsgMembershipIndication i) -> CsgMembershipIndication_wf (true_length IE_CsgMembershipIndication i).
Proof.
  apply (element_fwd IE_CsgMembershipIndication 148 CsgMembershipIndication_value any any); [intros; apply nlen_marshal|reflexivity| |auto].
  intros _ _ _ _. steps; try unfold any; close.
Qed.
Lemma ServiceIndicator_fwd s i : bytes s -> ServiceIndicator_reads s = Some i -> fit_for plain_survives (IE_ServiceIndicator i) -> ServiceIndicator_wf (true_length IE_ServiceIndicator i).
Proof.
  apply (element_fwd IE_ServiceIndicator 149 ServiceIndicator_value any any); [intros; apply nlen_marshal|reflexivity| |auto].
  intros _ _ _ _. steps; try unfold any; close.
Qed.
Lemma DetachType_fwd s i : bytes s -> DetachType_reads s = Some i -> fit_for plain_survives (IE_DetachType i) -> DetachType_wf (true_length IE_DetachType i).
Proof.
  apply (element_fwd IE_DetachType 150 DetachType_value any any); [intros; apply nlen_marshal|reflexivity| |auto].
  intros _ _ _ _. steps; try unfold any; close.
Qed.
Lemma Ldn_fwd s i : bytes s -> Ldn_reads s = Some i -> fit_for plain_survives (IE_Ldn i) -> Ldn_wf (true_length IE_Ldn i).
Proof.
  unfold Ldn_reads.  apply (closed_fwd IE_Ldn 151 Ldn_value ascii1 (fun v => v <> [])); [intros; apply nlen_marshal|reflexivity| |intros x P Q; split; [exact Q|exact P]].
  intros o v B N0 E. injection E as <-. exact N0.
Qed.
Lemma NodeFeatures_fwd s i : bytes s -> NodeFeatures_reads s = Some i -> fit_for plain_survives (IE_NodeFeatures i) -> NodeFeatures_wf (true_length IE_NodeFeatures i).
Proof.
  apply (element_fwd IE_NodeFeatures 152 NodeFeatures_value any any); [intros; apply nlen_marshal|reflexivity| |auto].
  intros _ _ _ _. steps; try unfold any; close.
Qed.
Lemma MbmsTimeToDataTransfer_fwd s i : bytes s -> MbmsTimeToDataTransfer_reads s = Some i -> fit_for plain_survives (IE_MbmsTimeToDataTransfer i) -> MbmsTimeToDataTransfer_wf (true_length IE_MbmsTimeToDataTransfer i).
Proof.
  apply (element_fwd IE_MbmsTimeToDataTransfer 153 MbmsTimeToDataTransfer_value byte byte); [intros; apply nlen_marshal|reflexivity| |auto].
  intros _ _ _ _. steps; try unfold byte; close.
Qed.
Lemma Throttling_fwd s i : bytes s -> Throttling_reads s = Some i -> fit_for plain_survives (IE_Throttling i) -> Throttling_wf (true_length IE_Throttling i).
Proof.
  apply (element_fwd IE_Throttling 154 Throttling_value Throttling_ok Throttling_ok); [intros; apply nlen_marshal|reflexivity| |auto].
  intros _ _ _ _. steps. unfold Throttling_ok. cbn [th_unit th_value th_factor]. cbn beta in *. split; [|split; [lia|apply at_most_100_le]].
  unfold entry. generalize (N.to_nat (a / 32)). intros n. do 8 (destruct n as [|n]; [cbn [nth]; lia|]). destruct n; cbn [nth]; lia.
Qed.
Lemma Arp_fwd s i : bytes s -> Arp_reads s = Some i -> fit_for plain_survives (IE_Arp i) -> Arp_wf (true_length IE_Arp i).
Proof.
  apply (element_fwd IE_Arp 155 Arp_value Arp_ok Arp_ok); [intros; apply nlen_marshal|reflexivity| |auto].
  intros _ _ _ _. steps; try unfold Arp_ok; close.
Qed.
Lemma EpcTimer_fwd s i : bytes s -> EpcTimer_reads s = Some i -> fit_for plain_survives (IE_EpcTimer i) -> EpcTimer_wf (true_length IE_EpcTimer i).
Proof.
  apply (element_fwd IE_EpcTimer 156 EpcTimer_value EpcTimer_ok EpcTimer_ok); [intros; apply nlen_marshal|reflexivity| |auto].
  intros _ _ _ _. steps. unfold EpcTimer_ok. cbn [et_unit et_value]. split; [|lia].
  destruct (N.eqb_spec (x / 32) 5); [cbn; lia|]. destruct (N.eqb_spec (x / 32) 6); cbn [orb]; lia.
Qed.
Lemma Spi_fwd s i : bytes s -> Spi_reads s = Some i -> fit_for plain_survives (IE_Spi i) -> Spi_wf (true_length IE_Spi i).
Proof.
  apply (element_fwd IE_Spi 157 Spi_value any any); [intros; apply nlen_marshal|reflexivity| |auto].
  intros _ _ _ _. steps; try unfold any; close.
Qed.
Lemma Tmgi_fwd s i : bytes s -> Tmgi_reads s = Some i -> fit_for plain_survives (IE_Tmgi i) -> Tmgi_wf (true_length IE_Tmgi i).
Proof.
  apply (element_fwd IE_Tmgi 158 Tmgi_value len_six len_six); [intros; apply nlen_marshal|reflexivity| |auto].
  intros _ _ _ _. steps; try unfold len_six; close.
Qed.
Lemma AdditionalMmContextForSrvcc_fwd s i : bytes s -> AdditionalMmContextForSrvcc_reads s = Some i -> fit_for plain_survives (IE_AdditionalMmContextForSrvcc i) -> AdditionalMmContextForSrvcc_wf (true_length IE_AdditionalMmContextForSrvcc i).
Proof.
  apply (element_fwd IE_AdditionalMmContextForSrvcc 159 AdditionalMmContextForSrvcc_value AdditionalMmContextForSrvcc_ok (fun v => there (am_classmark2 v) /\ there (am_classmark3 v) -> AdditionalMmContextForSrvcc_ok v)); [intros; apply nlen_marshal|reflexivity| |intros x P Q; exact (Q P)].
  intros _ _ _ _. steps. cbn beta in *. intros [P1 P2]. unfold there, AdditionalMmContextForSrvcc_ok in *. cbn [am_classmark2 am_classmark3 am_codecs] in *.
  destruct a as [a|]; [|contradiction]. destruct a0 as [b|]; [|contradiction]. split; [exists a; tauto|]. split; [exists b; tauto|]. assumption.
Qed.
Lemma AdditionalFlagsSrvcc_fwd s i : bytes s -> AdditionalFlagsSrvcc_reads s = Some i -> fit_for plain_survives (IE_AdditionalFlagsSrvcc i) -> AdditionalFlagsSrvcc_wf (true_length IE_AdditionalFlagsSrvcc i).
Proof.
  apply (element_fwd IE_AdditionalFlagsSrvcc 160 AdditionalFlagsSrvcc_value any any); [intros; apply nlen_marshal|reflexivity| |auto].
  intros _ _ _ _. steps; try unfold any; close.
Qed.
Lemma MdtConfiguration_fwd s i : bytes s -> MdtConfiguration_reads s = Some i -> fit_for plain_survives (IE_MdtConfiguration i) -> MdtConfiguration_wf (true_length IE_MdtConfiguration i).
Proof.
  apply (element_fwd IE_MdtConfiguration 162 MdtConfiguration_value MdtConfiguration_ok MdtConfiguration_base_ok); [intros; apply nlen_marshal|reflexivity| |intros x P Q; split; [exact Q|exact P]].
  intros _ _ _ _. steps.
  eapply (gives_bind _ _ (fun _ => True)).
  - apply gives_if; intros _; [|steps; exact I]. do 4 (eapply gives_bind; [solve [eauto with gives]|intros ? ?]). destruct (plmns _); steps. exact I.
  - intros pl _. apply gives_yield. split; [apply H0|exact H6].
Qed.
Lemma Apco_fwd s i : bytes s -> Apco_reads s = Some i -> fit_for plain_survives (IE_Apco i) -> Apco_wf (true_length IE_Apco i).
Proof.
  unfold Apco_reads.  apply (closed_fwd IE_Apco 163 Apco_value octets1 octets1); [intros; apply nlen_marshal|reflexivity| |auto].
  intros o v B N0 E. injection E as <-; exact N0.
Qed.
Lemma AbsoluteTimeMbmsDataTransfer_fwd s i : bytes s -> AbsoluteTimeMbmsDataTransfer_reads s = Some i -> fit_for plain_survives (IE_AbsoluteTimeMbmsDataTransfer i) -> AbsoluteTimeMbmsDataTransfer_wf (true_length IE_AbsoluteTimeMbmsDataTransfer i).
Proof.
  apply (element_fwd IE_AbsoluteTimeMbmsDataTransfer 164 AbsoluteTimeMbmsDataTransfer_value u64 u64); [intros; apply nlen_marshal|reflexivity| |auto].
  intros _ _ _ _. steps; try unfold u64; close.
Qed.
Lemma HenbInfoReporting_fwd s i : bytes s -> HenbInfoReporting_reads s = Some i -> fit_for plain_survives (IE_HenbInfoReporting i) -> HenbInfoReporting_wf (true_length IE_HenbInfoReporting i).
Proof.
  apply (element_fwd IE_HenbInfoReporting 165 HenbInfoReporting_value any any); [intros; apply nlen_marshal|reflexivity| |auto].
  intros _ _ _ _. steps; try unfold any; close.
Qed.
Lemma Ip4Cp_fwd s i : bytes s -> Ip4Cp_reads s = Some i -> fit_for plain_survives (IE_Ip4Cp i) -> Ip4Cp_wf (true_length IE_Ip4Cp i).
Proof.
  apply (element_fwd IE_Ip4Cp 166 Ip4Cp_value Ip4Cp_ok Ip4Cp_ok); [intros; apply nlen_marshal|reflexivity| |auto].
  intros _ _ _ _. steps; try unfold Ip4Cp_ok; close.
Qed.
Lemma ChangeToReportFlags_fwd s i : bytes s -> ChangeToReportFlags_reads s = Some i -> fit_for plain_survives (IE_ChangeToReportFlags i) -> ChangeToReportFlags_wf (true_length IE_ChangeToReportFlags i).
Proof.
  apply (element_fwd IE_ChangeToReportFlags 167 ChangeToReportFlags_value any any); [intros; apply nlen_marshal|reflexivity| |auto].
  intros _ _ _ _. steps; try unfold any; close.
Qed.
Lemma ActionIndication_fwd s i : bytes s -> ActionIndication_reads s = Some i -> fit_for plain_survives (IE_ActionIndication i) -> ActionIndication_wf (true_length IE_ActionIndication i).
Proof.
  apply (element_fwd IE_ActionIndication 168 ActionIndication_value any any); [intros; apply nlen_marshal|reflexivity| |auto].
  intros _ _ _ _. steps; try unfold any; close.
Qed.
Lemma UliTimestamp_fwd s i : bytes s -> UliTimestamp_reads s = Some i -> fit_for plain_survives (IE_UliTimestamp i) -> UliTimestamp_wf (true_length IE_UliTimestamp i).
Proof.
  apply (element_fwd IE_UliTimestamp 170 UliTimestamp_value u32 u32); [intros; apply nlen_marshal|reflexivity| |auto].
  intros _ _ _ _. steps; try unfold u32; close.
Qed.
Lemma MbmsFlags_fwd s i : bytes s -> MbmsFlags_reads s = Some i -> fit_for plain_survives (IE_MbmsFlags i) -> MbmsFlags_wf (true_length IE_MbmsFlags i).
Proof.
  apply (element_fwd IE_MbmsFlags 171 MbmsFlags_value any any); [intros; apply nlen_marshal|reflexivity| |auto].
  intros _ _ _ _. steps; try unfold any; close.
Qed.
Lemma RanNasCause_fwd s i : bytes s -> RanNasCause_reads s = Some i -> fit_for plain_survives (IE_RanNasCause i) -> RanNasCause_wf (true_length IE_RanNasCause i).
Proof.
  apply (element_fwd IE_RanNasCause 172 RanNasCause_value RanNasCause_ok RanNasCause_ok); [intros; apply nlen_marshal|reflexivity| |auto].
  intros len _ _ _. apply gives_checked. intros Hl. steps; try unfold RanNasCause_ok; close.
Qed.
Lemma CnOperatorSelectionEntity_fwd s i : bytes s -> CnOperatorSelectionEntity_reads s = Some i -> fit_for plain_survives (IE_CnOperatorSelectionEntity i) -> CnOperatorSelectionEntity_wf (true_length IE_CnOperatorSelectionEntity i).
Proof.
  apply (element_fwd IE_CnOperatorSelectionEntity 173 CnOperatorSelectionEntity_value any any); [intros; apply nlen_marshal|reflexivity| |auto].
  intros _ _ _ _. steps; try unfold any; close.
Qed.
Lemma Twmi_fwd s i : bytes s -> Twmi_reads s = Some i -> fit_for plain_survives (IE_Twmi i) -> Twmi_wf (true_length IE_Twmi i).
Proof.
  apply (element_fwd IE_Twmi 174 Twmi_value any any); [intros; apply nlen_marshal|reflexivity| |auto].
  intros _ _ _ _. steps; try unfold any; close.
Qed.
Lemma NodeNumber_fwd s i : bytes s -> NodeNumber_reads s = Some i -> fit_for plain_survives (IE_NodeNumber i) -> NodeNumber_wf (true_length IE_NodeNumber i).
Proof.
  apply (element_fwd IE_NodeNumber 175 NodeNumber_value NodeNumber_ok NodeNumber_ok); [intros; apply nlen_marshal|reflexivity| |auto].
  intros len _ _ _. apply gives_checked. intros Hl. eapply gives_bind; [apply gives_counted|]. intros o [L B]. destruct o as [|n o]; [apply gives_refuse|]. apply gives_yield.
  split; [apply number_of_digits|]. pose proof (number_of_length o). unfold nlen in *. cbn [length] in L. lia.
Qed.
Lemma NodeIdentifier_fwd s i : bytes s -> NodeIdentifier_reads s = Some i -> fit_for plain_survives (IE_NodeIdentifier i) -> NodeIdentifier_wf (true_length IE_NodeIdentifier i).
Proof.
  apply (element_fwd IE_NodeIdentifier 176 NodeIdentifier_value NodeIdentifier_ok (fun v => nlen (ni_name v) < 256 /\ nlen (ni_realm v) < 256)); [intros; apply nlen_marshal|reflexivity| |intros x [P1 P2] [Q1 Q2]; split; split; assumption].
  intros len _ _ _. apply gives_checked. intros Hl. steps. cbn [ni_name ni_realm]. cbn beta in *. tauto.
Qed.
Lemma PresenceReportingAreaAction_fwd s i : bytes s -> PresenceReportingAreaAction_reads s = Some i -> fit_for plain_survives (IE_PresenceReportingAreaAction i) -> PresenceReportingAreaAction_wf (true_length IE_PresenceReportingAreaAction i).
Proof.
  apply (element_fwd IE_PresenceReportingAreaAction 177 PresenceReportingAreaAction_value PresenceReportingAreaAction_ok (fun v => (length (pa_ext v) <= 63)%nat -> PresenceReportingAreaAction_ok v)); [intros; apply nlen_marshal|reflexivity| |intros x P Q; exact (Q P)].
  intros len _ _ _. apply gives_checked. intros Hl. do 12 (eapply gives_bind; [solve [eauto with gives]|intros ? ?]).
  eapply (gives_bind _ _ (fun _ => True)); [intros q v r B E; injection E as <- <-; auto|]. intros cut _.
  do 3 (eapply gives_bind; [solve [eauto with gives]|intros ? ?]).
  eapply (gives_bind _ _ (Forall ExtMacroEnbId_ok)).
  - apply gives_if; intros _; [steps; constructor|]. eapply gives_bind; [apply gives_take1|]. intros k _.
    eapply gives_imp; [solve [eauto with gives]|]. intros l [_ Hx]. exact Hx.
  - intros ext He. apply gives_yield. unfold PresenceReportingAreaAction_ok.
    cbn [pa_action pa_prai pa_tai pa_rai pa_macro pa_home pa_ecgi pa_sai pa_cgi pa_ext]. intros P. cbn beta in *. tidy.
    repeat (match goal with |- _ /\ _ => split end); try assumption; lia.
Qed.
Lemma PresenceReportingAreaInformation_fwd s i : bytes s -> PresenceReportingAreaInformation_reads s = Some i -> fit_for plain_survives (IE_PresenceReportingAreaInformation i) -> PresenceReportingAreaInformation_wf (true_length IE_PresenceReportingAreaInformation i).
Proof.
  apply (element_fwd IE_PresenceReportingAreaInformation 178 PresenceReportingAreaInformation_value PresenceReportingAreaInformation_ok (fun v => presence_area_ok (pr_area v) /\ given (Forall presence_area_ok) (pr_more v))); [intros; apply nlen_marshal|reflexivity| |intros x [a P] [Q1 Q2]; split; [exact Q1|]; exists a; split; [exact P|]; rewrite P in Q2; cbn [given] in Q2; apply Forall_cons_iff in Q2; apply Q2].
  intros _ _ _ _. steps. cbn [pr_area pr_more]. split; [apply presence_of_ok; assumption|].
  destruct (bit_at _ 2); [eapply presence_areas_ok; [apply le_n|assumption]|exact I].
Qed.
Lemma TwanIdTimeStamp_fwd s i : bytes s -> TwanIdTimeStamp_reads s = Some i -> fit_for plain_survives (IE_TwanIdTimeStamp i) -> TwanIdTimeStamp_wf (true_length IE_TwanIdTimeStamp i).
Proof.
  apply (element_fwd IE_TwanIdTimeStamp 179 TwanIdTimeStamp_value u32 u32); [intros; apply nlen_marshal|reflexivity| |auto].
  intros _ _ _ _. steps; try unfold u32; close.
Qed.
Lemma Metric_fwd s i : bytes s -> Metric_reads s = Some i -> fit_for plain_survives (IE_Metric i) -> Metric_wf (true_length IE_Metric i).
Proof.
  apply (element_fwd IE_Metric 182 Metric_value percent percent); [intros; apply nlen_marshal|reflexivity| |auto].
  intros _ _ _ _. steps. apply at_most_100_le.
Qed.
Lemma Sqn_fwd s i : bytes s -> Sqn_reads s = Some i -> fit_for plain_survives (IE_Sqn i) -> Sqn_wf (true_length IE_Sqn i).
Proof.
  apply (element_fwd IE_Sqn 183 Sqn_value u32 u32); [intros; apply nlen_marshal|reflexivity| |auto].
  intros _ _ _ _. steps; try unfold u32; close.
Qed.
Lemma ApnRelativeCapacity_fwd s i : bytes s -> ApnRelativeCapacity_reads s = Some i -> fit_for plain_survives (IE_ApnRelativeCapacity i) -> ApnRelativeCapacity_wf (true_length IE_ApnRelativeCapacity i).
Proof.
  unfold ApnRelativeCapacity_reads.  apply (closed_fwd IE_ApnRelativeCapacity 184 ApnRelativeCapacity_value ApnRelativeCapacity_ok (fun v => ascii (arc_name v) -> ApnRelativeCapacity_ok v)); [intros; apply nlen_marshal|reflexivity| |intros x P Q; exact (Q P)].
  intros o v B N0 E. destruct o as [|n o]; [discriminate|]. destruct (name_in o) as [nm|] eqn:En; [|discriminate]. cbn [option_map] in E. injection E as <-.
  intros A. split; [apply at_most_100_le|]. apply Forall_cons_iff in B. exact (name_in_ok _ _ (proj2 B) En A).
Qed.
Lemma WlanOffloadIndication_fwd s i : bytes s -> WlanOffloadIndication_reads s = Some i -> fit_for plain_survives (IE_WlanOffloadIndication i) -> WlanOffloadIndication_wf (true_length IE_WlanOffloadIndication i).
Proof.
  apply (element_fwd IE_WlanOffloadIndication 185 WlanOffloadIndication_value any any); [intros; apply nlen_marshal|reflexivity| |auto].
  intros _ _ _ _. steps; try unfold any; close.
Qed.
Lemma PagingServiceInfo_fwd s i : bytes s -> PagingServiceInfo_reads s = Some i -> fit_for plain_survives (IE_PagingServiceInfo i) -> PagingServiceInfo_wf (true_length IE_PagingServiceInfo i).
Proof.
  apply (element_fwd IE_PagingServiceInfo 186 PagingServiceInfo_value PagingServiceInfo_ok PagingServiceInfo_ok); [intros; apply nlen_marshal|reflexivity| |auto].
  intros _ _ _ _. steps; try unfold PagingServiceInfo_ok; close.
Qed.
Lemma IntegerNumber_fwd s i : bytes s -> IntegerNumber_reads s = Some i -> fit_for plain_survives (IE_IntegerNumber i) -> IntegerNumber_wf (true_length IE_IntegerNumber i).
Proof.
  unfold IntegerNumber_reads.  apply (closed_fwd IE_IntegerNumber 187 IntegerNumber_value octets1 octets1); [intros; apply nlen_marshal|reflexivity| |auto].
  intros o v B N0 E. injection E as <-; exact N0.
Qed.
Lemma MilliSecondTimeStamp_fwd s i : bytes s -> MilliSecondTimeStamp_reads s = Some i -> fit_for plain_survives (IE_MilliSecondTimeStamp i) -> MilliSecondTimeStamp_wf (true_length IE_MilliSecondTimeStamp i).
Proof.
  apply (element_fwd IE_MilliSecondTimeStamp 188 MilliSecondTimeStamp_value six_octets six_octets); [intros; apply nlen_marshal|reflexivity| |auto].
  intros _ _ _ _. steps; try unfold six_octets; close.
Qed.
Lemma MonitoringEventInformation_fwd s i : bytes s -> MonitoringEventInformation_reads s = Some i -> fit_for plain_survives (IE_MonitoringEventInformation i) -> MonitoringEventInformation_wf (true_length IE_MonitoringEventInformation i).
Proof.
  apply (element_fwd IE_MonitoringEventInformation 189 MonitoringEventInformation_value MonitoringEventInformation_ok MonitoringEventInformation_ok); [intros x; unfold nlen; etransitivity; [apply (f_equal N.of_nat); apply tliv_length|lia]|reflexivity| |auto].
  intros len k Hl Hk. steps. unfold MonitoringEventInformation_ok. close.
Qed.
Lemma EcgiList_fwd s i : bytes s -> EcgiList_reads s = Some i -> fit_for plain_survives (IE_EcgiList i) -> EcgiList_wf (true_length IE_EcgiList i).
Proof.
  apply (element_fwd IE_EcgiList 190 EcgiList_value EcgiList_ok EcgiList_ok); [intros; apply nlen_marshal|reflexivity| |auto].
  intros _ _ _ _. eapply gives_bind; [apply gives_number2|]. intros n Hn. destruct (N.eqb_spec n 0); steps; [exact I|]. destruct H as [L F].
  split; [intros ->; cbn in L; lia|exact F].
Qed.
Lemma RemoteUserId_fwd s i : bytes s -> RemoteUserId_reads s = Some i -> fit_for plain_survives (IE_RemoteUserId i) -> RemoteUserId_wf (true_length IE_RemoteUserId i).
Proof.
  apply (element_fwd IE_RemoteUserId 192 RemoteUserId_value RemoteUserId_ok RemoteUserId_ok); [intros; apply nlen_marshal|reflexivity| |auto].
  intros _ _ _ _. steps. unfold RemoteUserId_ok. cbn [ru_imsi ru_msisdn ru_imei]. cbn beta in *.
  assert (K : forall o, nlen o < 256 -> short_digits (number_of o)).
  { intros o Ho. split; [apply number_of_digits|]. pose proof (number_of_length o). unfold nlen in *. lia. }
  split; [apply K; tauto|]. split; [destruct a1|destruct a2]; cbn [option_map V2OkF.opt_ok]; try exact I; apply K; tauto.
Qed.
Lemma RemoteUeIpInformation_fwd s i : bytes s -> RemoteUeIpInformation_reads s = Some i -> fit_for plain_survives (IE_RemoteUeIpInformation i) -> RemoteUeIpInformation_wf (true_length IE_RemoteUeIpInformation i).
Proof.
  unfold RemoteUeIpInformation_reads.  apply (closed_fwd IE_RemoteUeIpInformation 193 RemoteUeIpInformation_value RemoteUeIpInformation_ok RemoteUeIpInformation_ok); [intros; apply nlen_marshal|reflexivity| |auto].
  intros o v B N0 E. unfold within in E. match type of E with option_map _ (?p _) = _ => assert (G : gives p RemoteUeIpInformation_ok) end.
  { steps; cbn beta in *; tidy; cbn; auto. eexists. split; [|reflexivity]. assumption. }
  match type of E with option_map _ ?r = _ => destruct r as [[w r']|] eqn:Ep; [|discriminate] end. cbn [option_map fst] in E. injection E as <-.
  destruct (G _ _ _ B Ep). assumption.
Qed.
Lemma CIoTOptimizationSupportIndication_fwd s i : bytes s -> CIoTOptimizationSupportIndication_reads s = Some i -> fit_for plain_survives (IE_CIoTOptimizationSupportIndication i) -> CIoTOptimizationSupportIndication_wf (true_length IE_CIoTOptimizationSupportIndication i).
Proof.
  apply (element_fwd IE_CIoTOptimizationSupportIndication 194 CIoTOptimizationSupportIndication_value any any); [intros; apply nlen_marshal|reflexivity| |auto].
  intros _ _ _ _. steps; try unfold any; close.
Qed.
Lemma HeaderCompressionConfiguration_fwd s i : bytes s -> HeaderCompressionConfiguration_reads s = Some i -> fit_for plain_survives (IE_HeaderCompressionConfiguration i) -> HeaderCompressionConfiguration_wf (true_length IE_HeaderCompressionConfiguration i).
Proof.
  apply (element_fwd IE_HeaderCompressionConfiguration 196 HeaderCompressionConfiguration_value HeaderCompressionConfiguration_ok HeaderCompressionConfiguration_ok); [intros; apply nlen_marshal|reflexivity| |auto].
  intros _ _ _ _. steps. split; [assumption|]. cbn [hc_profiles].
  exists (fun p => existsb (fun e => (snd e =? p) && bit_at a (fst e)) [(0, 2); (1, 3); (2, 4); (3, 6); (4, 258); (5, 259); (6, 260)]).
  f_equal. cbn [filter fst snd map existsb N.eqb Pos.eqb andb orb].
  destruct (bit_at a 0), (bit_at a 1), (bit_at a 2), (bit_at a 3), (bit_at a 4), (bit_at a 5), (bit_at a 6); reflexivity.
Qed.
Lemma Epco_fwd s i : bytes s -> Epco_reads s = Some i -> fit_for plain_survives (IE_Epco i) -> Epco_wf (true_length IE_Epco i).
Proof.
  unfold Epco_reads.  apply (closed_fwd IE_Epco 197 Epco_value octets1 octets1); [intros; apply nlen_marshal|reflexivity| |auto].
  intros o v B N0 E. injection E as <-; exact N0.
Qed.
Lemma ServingPlmnRateControl_fwd s i : bytes s -> ServingPlmnRateControl_reads s = Some i -> fit_for plain_survives (IE_ServingPlmnRateControl i) -> ServingPlmnRateControl_wf (true_length IE_ServingPlmnRateControl i).
Proof.
  apply (element_fwd IE_ServingPlmnRateControl 198 ServingPlmnRateControl_value ServingPlmnRateControl_ok ServingPlmnRateControl_ok); [intros; apply nlen_marshal|reflexivity| |auto].
  intros _ _ _ _. steps; try unfold ServingPlmnRateControl_ok; close.
Qed.
Lemma Counter_fwd s i : bytes s -> Counter_reads s = Some i -> fit_for plain_survives (IE_Counter i) -> Counter_wf (true_length IE_Counter i).
Proof.
  apply (element_fwd IE_Counter 199 Counter_value Counter_ok Counter_ok); [intros; apply nlen_marshal|reflexivity| |auto].
  intros _ _ _ _. steps; try unfold Counter_ok; close.
Qed.
Lemma MappedUeUsageType_fwd s i : bytes s -> MappedUeUsageType_reads s = Some i -> fit_for plain_survives (IE_MappedUeUsageType i) -> MappedUeUsageType_wf (true_length IE_MappedUeUsageType i).
Proof.
  apply (element_fwd IE_MappedUeUsageType 200 MappedUeUsageType_value u16 u16); [intros; apply nlen_marshal|reflexivity| |auto].
  intros _ _ _ _. steps; try unfold u16; close.
Qed.
Lemma SecondaryRatUsageDataReport_fwd s i : bytes s -> SecondaryRatUsageDataReport_reads s = Some i -> fit_for plain_survives (IE_SecondaryRatUsageDataReport i) -> SecondaryRatUsageDataReport_wf (true_length IE_SecondaryRatUsageDataReport i).
Proof.
  apply (element_fwd IE_SecondaryRatUsageDataReport 201 SecondaryRatUsageDataReport_value SecondaryRatUsageDataReport_ok SecondaryRatUsageDataReport_ok); [intros; apply nlen_marshal|reflexivity| |auto].
  intros _ _ _ _. steps; try unfold SecondaryRatUsageDataReport_ok; close.
Qed.
Lemma UpFunctionSelectionIndicationFlags_fwd s i : bytes s -> UpFunctionSelectionIndicationFlags_reads s = Some i -> fit_for plain_survives (IE_UpFunctionSelectionIndicationFlags i) -> UpFunctionSelectionIndicationFlags_wf (true_length IE_UpFunctionSelectionIndicationFlags i).
Proof.
  apply (element_fwd IE_UpFunctionSelectionIndicationFlags 202 UpFunctionSelectionIndicationFlags_value any any); [intros; apply nlen_marshal|reflexivity| |auto].
  intros _ _ _ _. steps; try unfold any; close.
Qed.
Lemma MaxPacketLossRate_fwd s i : bytes s -> MaxPacketLossRate_reads s = Some i -> fit_for plain_survives (IE_MaxPacketLossRate i) -> MaxPacketLossRate_wf (true_length IE_MaxPacketLossRate i).
Proof.
  apply (element_fwd IE_MaxPacketLossRate 203 MaxPacketLossRate_value MaxPacketLossRate_ok MaxPacketLossRate_ok); [intros; apply nlen_marshal|reflexivity| |auto].
  intros _ _ _ _. steps; try unfold MaxPacketLossRate_ok; close.
Qed.
Lemma ApnRateControlStatus_fwd s i : bytes s -> ApnRateControlStatus_reads s = Some i -> fit_for plain_survives (IE_ApnRateControlStatus i) -> ApnRateControlStatus_wf (true_length IE_ApnRateControlStatus i).
Proof.
  apply (element_fwd IE_ApnRateControlStatus 204 ApnRateControlStatus_value ApnRateControlStatus_ok ApnRateControlStatus_ok); [intros; apply nlen_marshal|reflexivity| |auto].
  intros _ _ _ _. steps; try unfold ApnRateControlStatus_ok; close.
Qed.
Lemma ExtendedTraceInformation_fwd s i : bytes s -> ExtendedTraceInformation_reads s = Some i -> fit_for plain_survives (IE_ExtendedTraceInformation i) -> ExtendedTraceInformation_wf (true_length IE_ExtendedTraceInformation i).
Proof.
  apply (element_fwd IE_ExtendedTraceInformation 205 ExtendedTraceInformation_value ExtendedTraceInformation_ok ExtendedTraceInformation_ok); [intros; apply nlen_marshal|reflexivity| |auto].
  intros _ _ _ _. steps. unfold ExtendedTraceInformation_ok. close.
Qed.
Lemma MonitoringEventExtensionInfo_fwd s i : bytes s -> MonitoringEventExtensionInfo_reads s = Some i -> fit_for plain_survives (IE_MonitoringEventExtensionInfo i) -> MonitoringEventExtensionInfo_wf (true_length IE_MonitoringEventExtensionInfo i).
Proof.
  apply (element_fwd IE_MonitoringEventExtensionInfo 206 MonitoringEventExtensionInfo_value MonitoringEventExtensionInfo_ok MonitoringEventExtensionInfo_ok); [intros; apply nlen_marshal|reflexivity| |auto].
  intros len _ _ _. apply gives_checked. intros Hl. steps. unfold MonitoringEventExtensionInfo_ok. close.
Qed.
Lemma AdditionalRrmPolicyIndex_fwd s i : bytes s -> AdditionalRrmPolicyIndex_reads s = Some i -> fit_for plain_survives (IE_AdditionalRrmPolicyIndex i) -> AdditionalRrmPolicyIndex_wf (true_length IE_AdditionalRrmPolicyIndex i).
Proof.
  apply (element_fwd IE_AdditionalRrmPolicyIndex 207 AdditionalRrmPolicyIndex_value u32 u32); [intros; apply nlen_marshal|reflexivity| |auto].
  intros _ _ _ _. steps; try unfold u32; close.
Qed.
Lemma ServicesAuthorized_fwd s i : bytes s -> ServicesAuthorized_reads s = Some i -> fit_for plain_survives (IE_ServicesAuthorized i) -> ServicesAuthorized_wf (true_length IE_ServicesAuthorized i).
Proof.
  apply (element_fwd IE_ServicesAuthorized 210 ServicesAuthorized_value any any); [intros; apply nlen_marshal|reflexivity| |auto].
  intros _ _ _ _. steps; try unfold any; close.
Qed.
Lemma BitRate_fwd s i : bytes s -> BitRate_reads s = Some i -> fit_for plain_survives (IE_BitRate i) -> BitRate_wf (true_length IE_BitRate i).
Proof.
  apply (element_fwd IE_BitRate 211 BitRate_value u32 u32); [intros; apply nlen_marshal|reflexivity| |auto].
  intros _ _ _ _. steps; try unfold u32; close.
Qed.
Lemma PC5QosFlow_fwd s i : bytes s -> PC5QosFlow_reads s = Some i -> fit_for plain_survives (IE_PC5QosFlow i) -> PC5QosFlow_wf (true_length IE_PC5QosFlow i).
Proof.
  apply (element_fwd IE_PC5QosFlow 212 PC5QosFlow_value PC5QosFlow_ok PC5QosFlow_ok); [intros; apply nlen_marshal|reflexivity| |auto].
  intros len _ _ _. apply gives_checked. intros Hl. steps; try unfold PC5QosFlow_ok; close.
Qed.
Lemma SgiPtpTunnelAddress_fwd s i : bytes s -> SgiPtpTunnelAddress_reads s = Some i -> fit_for plain_survives (IE_SgiPtpTunnelAddress i) -> SgiPtpTunnelAddress_wf (true_length IE_SgiPtpTunnelAddress i).
Proof.
  apply (element_fwd IE_SgiPtpTunnelAddress 213 SgiPtpTunnelAddress_value SgiPtpTunnelAddress_ok SgiPtpTunnelAddress_ok); [intros; apply nlen_marshal|reflexivity| |auto].
  intros len _ _ _. apply gives_checked. intros Hl. eapply gives_bind; [apply gives_take1|]. intros x Hx. eapply (gives_bind _ _ ipaddr_ok).
  - steps; cbn beta in *; tidy; assumption.
  - intros a Ha. steps. unfold SgiPtpTunnelAddress_ok. close.
Qed.
Lemma PgwFqdn_fwd s i : bytes s -> PgwFqdn_reads s = Some i -> fit_for plain_survives (IE_PgwFqdn i) -> PgwFqdn_wf (true_length IE_PgwFqdn i).
Proof.
  unfold PgwFqdn_reads.  apply (closed_fwd IE_PgwFqdn 215 PgwFqdn_value name_ok (fun v => ascii v -> name_ok v)); [intros; apply nlen_marshal|reflexivity| |intros x P Q; exact (Q P)].
  intros o v B N0 E. exact (name_in_ok _ _ B E).
Qed.
Lemma GroupId_fwd s i : bytes s -> GroupId_reads s = Some i -> fit_for plain_survives (IE_GroupId i) -> GroupId_wf (true_length IE_GroupId i).
Proof.
  unfold GroupId_reads.  apply (closed_fwd IE_GroupId 216 GroupId_value octets1 octets1); [intros; apply nlen_marshal|reflexivity| |auto].
  intros o v B N0 E. injection E as <-; exact N0.
Qed.
Lemma PSCellId_fwd s i : bytes s -> PSCellId_reads s = Some i -> fit_for plain_survives (IE_PSCellId i) -> PSCellId_wf (true_length IE_PSCellId i).
Proof.
  apply (element_fwd IE_PSCellId 217 PSCellId_value PSCellId_ok PSCellId_ok); [intros; apply nlen_marshal|reflexivity| |auto].
  intros _ _ _ _. steps; try unfold PSCellId_ok; close.
Qed.
Lemma UpSecurityPolicy_fwd s i : bytes s -> UpSecurityPolicy_reads s = Some i -> fit_for plain_survives (IE_UpSecurityPolicy i) -> UpSecurityPolicy_wf (true_length IE_UpSecurityPolicy i).
Proof.
  apply (element_fwd IE_UpSecurityPolicy 218 UpSecurityPolicy_value any any); [intros; apply nlen_marshal|reflexivity| |auto].
  intros _ _ _ _. steps; try unfold any; close.
Qed.
Lemma AlternativeImsi_fwd s i : bytes s -> AlternativeImsi_reads s = Some i -> fit_for plain_survives (IE_AlternativeImsi i) -> AlternativeImsi_wf (true_length IE_AlternativeImsi i).
Proof.
  unfold AlternativeImsi_reads.  apply (closed_fwd IE_AlternativeImsi 219 AlternativeImsi_value digits1 (fun v => Forall (fun c => 48 <= c <= 57) v)); [intros; apply nlen_marshal|reflexivity| |intros x P Q; split; [exact P|exact Q]].
  intros o v B N0 E. injection E as <-. apply number_of_digits.
Qed.
Lemma SpecialIEWithTypeExt_fwd s i : bytes s -> SpecialIEWithTypeExt_reads s = Some i -> fit_for plain_survives (IE_SpecialIEWithTypeExt i) -> SpecialIEWithTypeExt_wf (true_length IE_SpecialIEWithTypeExt i).
Proof.
  apply (element_fwd IE_SpecialIEWithTypeExt 254 SpecialIEWithTypeExt_value SpecialIEWithTypeExt_ok SpecialIEWithTypeExt_ok); [intros; apply nlen_marshal|reflexivity| |auto].
  intros len _ _ _. apply gives_checked. intros Hl. steps. assumption.
Qed.
Lemma PrivateExtension_fwd s i : bytes s -> PrivateExtension_reads s = Some i -> fit_for plain_survives (IE_PrivateExtension i) -> PrivateExtension_wf (true_length IE_PrivateExtension i).
Proof.
  apply (element_fwd IE_PrivateExtension 255 PrivateExtension_value PrivateExtension_ok (fun v => u16 (pe_id v))); [intros; apply nlen_marshal|reflexivity| |intros x P Q; split; [exact Q|exact P]].
  intros len _ _ _. apply gives_checked. intros Hl. steps. assumption.
Qed.
