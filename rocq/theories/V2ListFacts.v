(* V2ListFacts.v - the element loop of the crate against V2ListSpec.v *)
From Verif Require Import BaseFacts V2ListSpec Octets V2ReadFacts V2ReadFactsB V2ReadFactsC V2ReadFactsD V2ReadFactsE V2ReadFactsF.
Local Open Scope N_scope.

Lemma every_all {A} (sel : ie -> option (Tliv A)) ok l : all_of (pick sel ok) l = every sel ok l.
Proof.
  induction l as [|e l IH]; [reflexivity|]. cbn [all_of]. unfold every, members, instances, pick in *. cbn [map concat]. rewrite filter_app. destruct (sel e) as [x|]; [|exact IH].
  cbn [filter]. destruct (ok (ie_ins x)); cbn [app]; [f_equal|]; exact IH.
Qed.
Lemma oldest_first {A} (sel : ie -> option (Tliv A)) ok l : first_of (pick sel ok) l = oldest sel ok l.
Proof.
  unfold oldest. rewrite <- every_all. induction l as [|e l IH]; [reflexivity|]. cbn [first_of all_of]. destruct (pick sel ok e); [reflexivity|exact IH].
Qed.
Lemma newest_last {A} (sel : ie -> option (Tliv A)) ok l : last_of (pick sel ok) l = newest sel ok l.
Proof.
  unfold newest. rewrite <- every_all. induction l as [|e l IH]; [reflexivity|]. cbn [last_of all_of]. rewrite IH. destruct (pick sel ok e) as [x|]; cbn [rev].
  - destruct (rev (all_of (pick sel ok) l)); reflexivity.
  - destruct (hd_error _); reflexivity.
Qed.
Lemma newest_any {A} (sel : ie -> option (Tliv A)) l : last_of sel l = newest sel any_instance l.
Proof.
  rewrite <- newest_last. induction l as [|e l IH]; [reflexivity|]. cbn [last_of]. rewrite IH. destruct (last_of (pick sel any_instance) l); [reflexivity|]. unfold pick. destruct (sel e); reflexivity.
Qed.
Lemma LoadControl_same l : LoadControl_from l = LoadControl_holds l.
Proof. unfold LoadControl_from, LoadControl_holds. rewrite ?every_all, ?oldest_first, ?newest_last, newest_any. reflexivity. Qed.
Lemma OverloadControlInfo_same l : OverloadControlInfo_from l = OverloadControlInfo_holds l.
Proof. unfold OverloadControlInfo_from, OverloadControlInfo_holds. rewrite ?every_all, ?oldest_first, ?newest_last, newest_any. reflexivity. Qed.
Lemma RemoteUeContext_same l : RemoteUeContext_from l = RemoteUeContext_holds l.
Proof. unfold RemoteUeContext_from, RemoteUeContext_holds. rewrite ?every_all, ?oldest_first, ?newest_last. reflexivity. Qed.
Lemma PC5QosParameters_same l : PC5QosParameters_from l = PC5QosParameters_holds l.
Proof. unfold PC5QosParameters_from, PC5QosParameters_holds. rewrite ?every_all, ?oldest_first, ?newest_last. reflexivity. Qed.
Lemma PgwChangeInfo_same l : PgwChangeInfo_from l = PgwChangeInfo_holds l.
Proof. unfold PgwChangeInfo_from, PgwChangeInfo_holds. rewrite ?every_all, ?oldest_first, ?newest_last. reflexivity. Qed.
Lemma ScefPdnConnections_same l : ScefPdnConnections_from l = ScefPdnConnections_holds l.
Proof. unfold ScefPdnConnections_from, ScefPdnConnections_holds. rewrite ?every_all, ?oldest_first, ?newest_last. reflexivity. Qed.
Lemma BearerContext_same l : BearerContext_from l = BearerContext_holds l.
Proof. unfold BearerContext_from, BearerContext_holds. rewrite ?every_all, ?oldest_first, ?newest_last. reflexivity. Qed.
Lemma V2xInformation_same l : V2xInformation_from l = V2xInformation_holds l.
Proof. unfold V2xInformation_from, V2xInformation_holds. rewrite ?every_all, ?oldest_first, ?newest_last. reflexivity. Qed.
Lemma PdnConnections_same l : PdnConnections_from l = PdnConnections_holds l.
Proof. unfold PdnConnections_from, PdnConnections_holds. rewrite ?every_all, ?oldest_first, ?newest_last. reflexivity. Qed.

(* one element, with a function for the members of a group *)
Definition mean (dec : list N -> option (list ie)) (m : meaning) (s : list N) : option ie :=
  match m with
  | Plain r => r s
  | Group f =>
      match s with
      | t :: a :: b :: c :: q =>
          if fits (256 * a + b) q then
            match dec (firstn (N.to_nat (256 * a + b)) q) with Some l => f (mkIe t (256 * a + b) c l) | None => None end
          else None
      | _ => None
      end
  end.
Definition got_dec (dec : list N -> res (list ie)) (q : list N) : option (list ie) := got (dec q).
Lemma Grouped_eq dec s : got (GroupedIe_unmarshal dec Debug s) = match s with
  | t :: a :: b :: c :: q => if fits (256 * a + b) q then option_map (mkIe t (256 * a + b) c) (got (dec (firstn (N.to_nat (256 * a + b)) q))) else None
  | _ => None end.
Proof.
  unfold GroupedIe_unmarshal. destruct s as [|t [|a [|b [|c q]]]]; try reflexivity. change (MIN_IE_SIZE <=? length (t :: a :: b :: c :: q))%nat with true. cbv iota. unfold at_. cbn [nth_error bind].
  rewrite got_hdr4, got_checked. destruct (fits _ _) eqn:Hf; [|reflexivity]. unfold end16. rewrite (end16_fits _ _ Hf). apply fits_inv in Hf as [_ Hl]. cbn [bind]. rewrite slice4 by exact Hl. cbn [bind]. destruct (dec _); reflexivity.
Qed.
Lemma group_eq {A} dec (from holds : list ie -> A) (c : Tliv A -> ie) s : (forall l, from l = holds l) ->
  got (lift c (let? g := GroupedIe_unmarshal dec Debug s in Ok (regroup from g))) = mean (got_dec dec) (group c holds) s.
Proof.
  intros H. unfold lift. rewrite !got_bind, Grouped_eq. unfold mean, group. destruct s as [|t [|a [|b [|c0 q]]]]; try reflexivity. destruct (fits _ _); [|reflexivity].
  unfold got_dec. destruct (got (dec _)) as [l|]; [|reflexivity]. cbn [option_map bind got]. unfold regroup. cbn [ie_t ie_length ie_ins ie_v]. rewrite H. reflexivity.
Qed.
Lemma group10_eq {A B} dec (from holds : list ie -> A) (c : Tliv A -> ie) (len : A -> list B) e s : (forall l, from l = holds l) -> (forall l, (length (len (holds l)) <= 1)%nat) ->
  got (lift c (let? g := GroupedIe_unmarshal dec Debug s in if (10 <? length (len (ie_v (regroup from g))))%nat then Err e else Ok (regroup from g))) = mean (got_dec dec) (group c holds) s.
Proof.
  intros H H10. rewrite <- (group_eq dec from holds c s H). unfold lift. rewrite !got_bind. destruct (got (GroupedIe_unmarshal dec Debug s)) as [g|]; [|reflexivity].
  unfold regroup at 1. cbn [ie_v]. rewrite H. rewrite (proj2 (Nat.ltb_ge 10 _)) by (specialize (H10 (ie_v g)); lia). reflexivity.
Qed.
Lemma pc5_eq dec s : got (lift IE_PC5QosParameters (PC5QosParameters_unmarshal dec Debug s)) = mean (got_dec dec) pc5_group s.
Proof.
  unfold lift, PC5QosParameters_unmarshal. rewrite !got_bind, Grouped_eq. unfold mean, pc5_group. destruct s as [|t [|a [|b [|c0 q]]]]; try reflexivity. destruct (fits _ _); [|reflexivity].
  unfold got_dec. destruct (got (dec _)) as [l|]; [|reflexivity]. cbn [option_map bind got ie_v]. unfold regroup. cbn [ie_t ie_length ie_ins ie_v]. rewrite PC5QosParameters_same.
  change (p5_flows (PC5QosParameters_holds l)) with (every as_PC5QosFlow (only 0) l). destruct (every _ _ l); reflexivity.
Qed.
Lemma lift_plain {A} (c : A -> ie) r (rd : list N -> option A) dec s : got r = rd s -> got (lift c r) = mean dec (plain c rd) s.
Proof. intros H. unfold lift. rewrite got_bind, H. unfold mean, plain. destruct (rd s); reflexivity. Qed.

Definition among (tab : list (N * (extent * meaning))) (t : N) : extent * meaning :=
  match find (fun e => fst e =? t) tab with Some e => snd e | None => (Declared, plain IE_Unknown Unknown_reads) end.
Lemma chain t k (A B : res ie) e rest dec s :
  (t = k -> got A = mean dec (snd e) s) -> got B = mean dec (snd (among rest t)) s ->
  got (if t =? k then A else B) = mean dec (snd (among ((k, e) :: rest) t)) s.
Proof.
  intros HA HB. unfold among. cbn [find fst]. rewrite (N.eqb_sym k t). destruct (N.eqb_spec t k) as [E|E]; [exact (HA E)|exact HB].
Qed.
Lemma chain6 t (A B : res ie) e3 e4 e5 e6 e7 e8 rest dec s :
  (t = 103 -> got A = mean dec (snd e3) s) -> (t = 104 -> got A = mean dec (snd e4) s) -> (t = 105 -> got A = mean dec (snd e5) s) ->
  (t = 106 -> got A = mean dec (snd e6) s) -> (t = 107 -> got A = mean dec (snd e7) s) -> (t = 108 -> got A = mean dec (snd e8) s) ->
  got B = mean dec (snd (among rest t)) s ->
  got (if (103 <=? t) && (t <=? 108) then A else B) =
    mean dec (snd (among ((103, e3) :: (104, e4) :: (105, e5) :: (106, e6) :: (107, e7) :: (108, e8) :: rest) t)) s.
Proof.
  intros H3 H4 H5 H6 H7 H8 HB. unfold among. cbn [find fst]. rewrite (N.eqb_sym 103 t), (N.eqb_sym 104 t), (N.eqb_sym 105 t), (N.eqb_sym 106 t), (N.eqb_sym 107 t), (N.eqb_sym 108 t).
  destruct (N.leb_spec 103 t); cbn [andb].
  - destruct (N.leb_spec t 108).
    + destruct (N.eqb_spec t 103) as [E|]; [exact (H3 E)|]. destruct (N.eqb_spec t 104) as [E|]; [exact (H4 E)|]. destruct (N.eqb_spec t 105) as [E|]; [exact (H5 E)|].
      destruct (N.eqb_spec t 106) as [E|]; [exact (H6 E)|]. destruct (N.eqb_spec t 107) as [E|]; [exact (H7 E)|]. destruct (N.eqb_spec t 108) as [E|]; [exact (H8 E)|]. lia.
    + rewrite !(proj2 (N.eqb_neq t _)) by lia. exact HB.
  - rewrite !(proj2 (N.eqb_neq t _)) by lia. exact HB.
Qed.
Lemma mm_case {A} (c : A -> MmContext) r (rd : list N -> option A) dec s : got r = rd s ->
  got (lift IE_MmContext (let? i := r in Ok (c i))) = mean dec (plain (fun x => IE_MmContext (c x)) rd) s.
Proof. intros H. unfold lift. rewrite !got_bind, H. unfold mean, plain. destruct (rd s); reflexivity. Qed.

Lemma one_eq dec t q : bytes (t :: q) -> got (decode_one dec Debug (t :: q)) = mean (got_dec dec) (snd (kind_of_code t)) (t :: q).
Proof.
  intros Hb. unfold decode_one. change (@at_ GTPV2Error (t :: q) 0) with (@Ok GTPV2Error _ t). cbn [bind]. change (kind_of_code t) with (among catalogue t). unfold catalogue.
  apply chain; [intros _; apply lift_plain; apply Imsi_eq; exact Hb|].
  apply chain; [intros _; apply lift_plain; apply Cause_eq; exact Hb|].
  apply chain; [intros _; apply lift_plain; apply Recovery_eq; exact Hb|].
  apply chain; [intros _; apply lift_plain; apply StnSr_eq; exact Hb|].
  apply chain; [intros _; apply lift_plain; apply SrvccCause_eq; exact Hb|].
  apply chain; [intros _; apply lift_plain; apply Apn_eq; exact Hb|].
  apply chain; [intros _; apply lift_plain; apply Ambr_eq; exact Hb|].
  apply chain; [intros _; apply lift_plain; apply Ebi_eq; exact Hb|].
  apply chain; [intros _; apply lift_plain; apply IpAddress_eq; exact Hb|].
  apply chain; [intros _; apply lift_plain; apply Mei_eq; exact Hb|].
  apply chain; [intros _; apply lift_plain; apply Msisdn_eq; exact Hb|].
  apply chain; [intros _; apply lift_plain; apply Indication_eq; exact Hb|].
  apply chain; [intros _; apply lift_plain; apply Pco_eq; exact Hb|].
  apply chain; [intros _; apply lift_plain; apply PdnAddressAllocation_eq; exact Hb|].
  apply chain; [intros _; apply lift_plain; apply BearerQos_eq; exact Hb|].
  apply chain; [intros _; apply lift_plain; apply FlowQos_eq; exact Hb|].
  apply chain; [intros _; apply lift_plain; apply RatType_eq; exact Hb|].
  apply chain; [intros _; apply lift_plain; apply ServingNetwork_eq; exact Hb|].
  apply chain; [intros _; apply lift_plain; apply BearerTft_eq; exact Hb|].
  apply chain; [intros _; apply lift_plain; apply TrafficAggregateDescription_eq; exact Hb|].
  apply chain; [intros _; apply lift_plain; apply Uli_eq; exact Hb|].
  apply chain; [intros _; apply lift_plain; apply Fteid_eq; exact Hb|].
  apply chain; [intros _; apply lift_plain; apply Tmsi_eq; exact Hb|].
  apply chain; [intros _; apply lift_plain; apply GlobalCnId_eq; exact Hb|].
  apply chain; [intros _; apply lift_plain; apply S103pdf_eq; exact Hb|].
  apply chain; [intros _; apply lift_plain; apply S1udf_eq; exact Hb|].
  apply chain; [intros _; apply lift_plain; apply DelayValue_eq; exact Hb|].
  apply chain; [intros _; apply (group_eq dec BearerContext_from BearerContext_holds); exact BearerContext_same|].
  apply chain; [intros _; apply lift_plain; apply ChargingId_eq; exact Hb|].
  apply chain; [intros _; apply lift_plain; apply ChargingCharacteristics_eq; exact Hb|].
  apply chain; [intros _; apply lift_plain; apply TraceInformation_eq; exact Hb|].
  apply chain; [intros _; apply lift_plain; apply BearerFlags_eq; exact Hb|].
  apply chain; [intros _; apply lift_plain; apply PdnType_eq; exact Hb|].
  apply chain; [intros _; apply lift_plain; apply Pti_eq; exact Hb|].
  apply chain6.
  { intros E. unfold MmContext_unmarshal. change (@at_ GTPV2Error (t :: q) 0) with (@Ok GTPV2Error _ t). cbn [bind]. rewrite E. cbv beta iota delta [N.eqb Pos.eqb]. rewrite <- E. apply mm_case. apply MmGsmT_eq. exact Hb. }
  { intros E. unfold MmContext_unmarshal. change (@at_ GTPV2Error (t :: q) 0) with (@Ok GTPV2Error _ t). cbn [bind]. rewrite E. cbv beta iota delta [N.eqb Pos.eqb]. rewrite <- E. apply mm_case. apply MmUmtsCq_eq. exact Hb. }
  { intros E. unfold MmContext_unmarshal. change (@at_ GTPV2Error (t :: q) 0) with (@Ok GTPV2Error _ t). cbn [bind]. rewrite E. cbv beta iota delta [N.eqb Pos.eqb]. rewrite <- E. apply mm_case. apply MmGsmCq_eq. exact Hb. }
  { intros E. unfold MmContext_unmarshal. change (@at_ GTPV2Error (t :: q) 0) with (@Ok GTPV2Error _ t). cbn [bind]. rewrite E. cbv beta iota delta [N.eqb Pos.eqb]. rewrite <- E. apply mm_case. apply MmUmtsQ_eq. exact Hb. }
  { intros E. unfold MmContext_unmarshal. change (@at_ GTPV2Error (t :: q) 0) with (@Ok GTPV2Error _ t). cbn [bind]. rewrite E. cbv beta iota delta [N.eqb Pos.eqb]. rewrite <- E. apply mm_case. apply MmEps_eq. exact Hb. }
  { intros E. unfold MmContext_unmarshal. change (@at_ GTPV2Error (t :: q) 0) with (@Ok GTPV2Error _ t). cbn [bind]. rewrite E. cbv beta iota delta [N.eqb Pos.eqb]. rewrite <- E. apply mm_case. apply MmUmtsQq_eq. exact Hb. }
  apply chain; [intros _; apply (group_eq dec PdnConnections_from PdnConnections_holds); exact PdnConnections_same|].
  apply chain; [intros _; apply lift_plain; apply PduNumbers_eq; exact Hb|].
  apply chain; [intros _; apply lift_plain; apply Ptmsi_eq; exact Hb|].
  apply chain; [intros _; apply lift_plain; apply PtmsiSignature_eq; exact Hb|].
  apply chain; [intros _; apply lift_plain; apply HopCounter_eq; exact Hb|].
  apply chain; [intros _; apply lift_plain; apply UeTimeZone_eq; exact Hb|].
  apply chain; [intros _; apply lift_plain; apply TraceReference_eq; exact Hb|].
  apply chain; [intros _; apply lift_plain; apply CompleteRequestMessage_eq; exact Hb|].
  apply chain; [intros _; apply lift_plain; apply Guti_eq; exact Hb|].
  apply chain; [intros _; apply lift_plain; apply Fcontainer_eq; exact Hb|].
  apply chain; [intros _; apply lift_plain; apply Fcause_eq; exact Hb|].
  apply chain; [intros _; apply lift_plain; apply PlmnId_eq; exact Hb|].
  apply chain; [intros _; apply lift_plain; apply TargetIdentification_eq; exact Hb|].
  apply chain; [intros _; apply lift_plain; apply PacketFlowId_eq; exact Hb|].
  apply chain; [intros _; apply lift_plain; apply RabContext_eq; exact Hb|].
  apply chain; [intros _; apply lift_plain; apply SourceRncPdcpContextInfo_eq; exact Hb|].
  apply chain; [intros _; apply lift_plain; apply PortNumber_eq; exact Hb|].
  apply chain; [intros _; apply lift_plain; apply ApnRestriction_eq; exact Hb|].
  apply chain; [intros _; apply lift_plain; apply SelectionMode_eq; exact Hb|].
  apply chain; [intros _; apply lift_plain; apply SourceIdentification_eq; exact Hb|].
  apply chain; [intros _; apply lift_plain; apply ChangeReportingAction_eq; exact Hb|].
  apply chain; [intros _; apply lift_plain; apply Fqcsid_eq; exact Hb|].
  apply chain; [intros _; apply lift_plain; apply ChannelNeeded_eq; exact Hb|].
  apply chain; [intros _; apply lift_plain; apply EmlppPriority_eq; exact Hb|].
  apply chain; [intros _; apply lift_plain; apply NodeType_eq; exact Hb|].
  apply chain; [intros _; apply lift_plain; apply Fqdn_eq; exact Hb|].
  apply chain; [intros _; apply lift_plain; apply TransactionIdentifier_eq; exact Hb|].
  apply chain; [intros _; apply lift_plain; apply MbmsSessionDuration_eq; exact Hb|].
  apply chain; [intros _; apply lift_plain; apply MbmsServiceArea_eq; exact Hb|].
  apply chain; [intros _; apply lift_plain; apply MbmsSessionId_eq; exact Hb|].
  apply chain; [intros _; apply lift_plain; apply MbmsFlowId_eq; exact Hb|].
  apply chain; [intros _; apply lift_plain; apply MbmsIpMulticastDistribution_eq; exact Hb|].
  apply chain; [intros _; apply lift_plain; apply MbmsDistributionAck_eq; exact Hb|].
  apply chain; [intros _; apply lift_plain; apply RfspIndex_eq; exact Hb|].
  apply chain; [intros _; apply lift_plain; apply Uci_eq; exact Hb|].
  apply chain; [intros _; apply lift_plain; apply CSGInformationReportingAction_eq; exact Hb|].
  apply chain; [intros _; apply lift_plain; apply CsgId_eq; exact Hb|].
  apply chain; [intros _; apply lift_plain; apply CsgMembershipIndication_eq; exact Hb|].
  apply chain; [intros _; apply lift_plain; apply ServiceIndicator_eq; exact Hb|].
  apply chain; [intros _; apply lift_plain; apply DetachType_eq; exact Hb|].
  apply chain; [intros _; apply lift_plain; apply Ldn_eq; exact Hb|].
  apply chain; [intros _; apply lift_plain; apply NodeFeatures_eq; exact Hb|].
  apply chain; [intros _; apply lift_plain; apply MbmsTimeToDataTransfer_eq; exact Hb|].
  apply chain; [intros _; apply lift_plain; apply Throttling_eq; exact Hb|].
  apply chain; [intros _; apply lift_plain; apply Arp_eq; exact Hb|].
  apply chain; [intros _; apply lift_plain; apply EpcTimer_eq; exact Hb|].
  apply chain; [intros _; apply lift_plain; apply Spi_eq; exact Hb|].
  apply chain; [intros _; apply lift_plain; apply Tmgi_eq; exact Hb|].
  apply chain; [intros _; apply lift_plain; apply AdditionalMmContextForSrvcc_eq; exact Hb|].
  apply chain; [intros _; apply lift_plain; apply AdditionalFlagsSrvcc_eq; exact Hb|].
  apply chain; [intros _; apply lift_plain; apply MdtConfiguration_eq; exact Hb|].
  apply chain; [intros _; apply lift_plain; apply Apco_eq; exact Hb|].
  apply chain; [intros _; apply lift_plain; apply AbsoluteTimeMbmsDataTransfer_eq; exact Hb|].
  apply chain; [intros _; apply lift_plain; apply HenbInfoReporting_eq; exact Hb|].
  apply chain; [intros _; apply lift_plain; apply Ip4Cp_eq; exact Hb|].
  apply chain; [intros _; apply lift_plain; apply ChangeToReportFlags_eq; exact Hb|].
  apply chain; [intros _; apply lift_plain; apply ActionIndication_eq; exact Hb|].
  apply chain; [intros _; apply lift_plain; apply ActionIndication_eq; exact Hb|].
  apply chain; [intros _; apply lift_plain; apply UliTimestamp_eq; exact Hb|].
  apply chain; [intros _; apply lift_plain; apply MbmsFlags_eq; exact Hb|].
  apply chain; [intros _; apply lift_plain; apply RanNasCause_eq; exact Hb|].
  apply chain; [intros _; apply lift_plain; apply CnOperatorSelectionEntity_eq; exact Hb|].
  apply chain; [intros _; apply lift_plain; apply Twmi_eq; exact Hb|].
  apply chain; [intros _; apply lift_plain; apply NodeNumber_eq; exact Hb|].
  apply chain; [intros _; apply lift_plain; apply NodeIdentifier_eq; exact Hb|].
  apply chain; [intros _; apply lift_plain; apply PresenceReportingAreaAction_eq; exact Hb|].
  apply chain; [intros _; apply lift_plain; apply PresenceReportingAreaInformation_eq; exact Hb|].
  apply chain; [intros _; apply lift_plain; apply TwanIdTimeStamp_eq; exact Hb|].
  apply chain; [intros _; refine (group10_eq dec OverloadControlInfo_from OverloadControlInfo_holds _ (fun v => opt_list (oc_list v)) _ _ OverloadControlInfo_same _); intros l; unfold OverloadControlInfo_holds; cbn [lc_list oc_list]; destruct (newest _ _ l); cbn [option_map opt_list length]; lia|].
  apply chain; [intros _; refine (group10_eq dec LoadControl_from LoadControl_holds _ (fun v => opt_list (lc_list v)) _ _ LoadControl_same _); intros l; unfold LoadControl_holds; cbn [lc_list oc_list]; destruct (newest _ _ l); cbn [option_map opt_list length]; lia|].
  apply chain; [intros _; apply lift_plain; apply Metric_eq; exact Hb|].
  apply chain; [intros _; apply lift_plain; apply Sqn_eq; exact Hb|].
  apply chain; [intros _; apply lift_plain; apply ApnRelativeCapacity_eq; exact Hb|].
  apply chain; [intros _; apply lift_plain; apply WlanOffloadIndication_eq; exact Hb|].
  apply chain; [intros _; apply lift_plain; apply PagingServiceInfo_eq; exact Hb|].
  apply chain; [intros _; apply lift_plain; apply IntegerNumber_eq; exact Hb|].
  apply chain; [intros _; apply lift_plain; apply MilliSecondTimeStamp_eq; exact Hb|].
  apply chain; [intros _; apply lift_plain; apply MonitoringEventInformation_eq; exact Hb|].
  apply chain; [intros _; apply lift_plain; apply EcgiList_eq; exact Hb|].
  apply chain; [intros _; apply (group_eq dec RemoteUeContext_from RemoteUeContext_holds); exact RemoteUeContext_same|].
  apply chain; [intros _; apply lift_plain; apply RemoteUserId_eq; exact Hb|].
  apply chain; [intros _; apply lift_plain; apply RemoteUeIpInformation_eq; exact Hb|].
  apply chain; [intros _; apply lift_plain; apply CIoTOptimizationSupportIndication_eq; exact Hb|].
  apply chain; [intros _; apply (group_eq dec ScefPdnConnections_from ScefPdnConnections_holds); exact ScefPdnConnections_same|].
  apply chain; [intros _; apply lift_plain; apply HeaderCompressionConfiguration_eq; exact Hb|].
  apply chain; [intros _; apply lift_plain; apply Epco_eq; exact Hb|].
  apply chain; [intros _; apply lift_plain; apply ServingPlmnRateControl_eq; exact Hb|].
  apply chain; [intros _; apply lift_plain; apply Counter_eq; exact Hb|].
  apply chain; [intros _; apply lift_plain; apply MappedUeUsageType_eq; exact Hb|].
  apply chain; [intros _; apply lift_plain; apply SecondaryRatUsageDataReport_eq; exact Hb|].
  apply chain; [intros _; apply lift_plain; apply UpFunctionSelectionIndicationFlags_eq; exact Hb|].
  apply chain; [intros _; apply lift_plain; apply MaxPacketLossRate_eq; exact Hb|].
  apply chain; [intros _; apply lift_plain; apply ApnRateControlStatus_eq; exact Hb|].
  apply chain; [intros _; apply lift_plain; apply ExtendedTraceInformation_eq; exact Hb|].
  apply chain; [intros _; apply lift_plain; apply MonitoringEventExtensionInfo_eq; exact Hb|].
  apply chain; [intros _; apply lift_plain; apply AdditionalRrmPolicyIndex_eq; exact Hb|].
  apply chain; [intros _; apply (group_eq dec V2xInformation_from V2xInformation_holds); exact V2xInformation_same|].
  apply chain; [intros _; apply pc5_eq|].
  apply chain; [intros _; apply lift_plain; apply ServicesAuthorized_eq; exact Hb|].
  apply chain; [intros _; apply lift_plain; apply BitRate_eq; exact Hb|].
  apply chain; [intros _; apply lift_plain; apply PC5QosFlow_eq; exact Hb|].
  apply chain; [intros _; apply lift_plain; apply SgiPtpTunnelAddress_eq; exact Hb|].
  apply chain; [intros _; apply (group_eq dec PgwChangeInfo_from PgwChangeInfo_holds); exact PgwChangeInfo_same|].
  apply chain; [intros _; apply lift_plain; apply PgwFqdn_eq; exact Hb|].
  apply chain; [intros _; apply lift_plain; apply GroupId_eq; exact Hb|].
  apply chain; [intros _; apply lift_plain; apply PSCellId_eq; exact Hb|].
  apply chain; [intros _; apply lift_plain; apply UpSecurityPolicy_eq; exact Hb|].
  apply chain; [intros _; apply lift_plain; apply AlternativeImsi_eq; exact Hb|].
  apply chain; [intros _; apply lift_plain; apply SpecialIEWithTypeExt_eq; exact Hb|].
  apply chain; [intros _; apply lift_plain; apply PrivateExtension_eq; exact Hb|].
  unfold among. cbn [find snd]. apply lift_plain. apply Unknown_eq. exact Hb.
Qed.

(* ------------------------------------------------------------------------- *)
(* where the next element begins *)
Definition frame {A} (rd : list N -> option (Tliv A)) : Prop := forall s x, rd s = Some x -> ie_length x = declared s.
Lemma frame_element {A} T i (p : N -> N -> reader A) : frame (element T i p).
Proof.
  intros s x H. unfold element in H. destruct s as [|t [|a [|b [|c q]]]]; try discriminate. destruct (p _ _ _) as [[v r]|]; [|discriminate]. injection H as <-. reflexivity.
Qed.
Definition sized (e : extent * meaning) : Prop := forall dec s x, mean dec (snd e) s = Some x ->
  got (ie_len Debug x) = next_after (fst e) s x /\ forall n, next_after (fst e) s x = Some n -> (1 <= n)%nat.
Lemma plain_inv {A} dec (c : A -> ie) rd s x : mean dec (plain c rd) s = Some x -> exists y, rd s = Some y /\ x = c y.
Proof. unfold mean, plain. destruct (rd s) as [y|]; [|discriminate]. intros H. injection H as <-. eauto. Qed.
Lemma plain_declared {A} (c : Tliv A -> ie) rd : frame rd -> (forall x, ie_len Debug (c x) = len_usize x) -> sized (Declared, plain c rd).
Proof. intros Hf Hl dec s x H. apply plain_inv in H as (y & Hy & ->). rewrite Hl. unfold len_usize. rewrite (Hf _ _ Hy). cbn [got fst next_after]. split; [f_equal; lia|intros n E; injection E as <-; lia]. Qed.
Lemma plain_declared16 {A} (c : Tliv A -> ie) rd : frame rd -> (forall x, ie_len Debug (c x) = len_u16 Debug x) -> sized (Declared16, plain c rd).
Proof.
  intros Hf Hl dec s x H. apply plain_inv in H as (y & Hy & ->). rewrite Hl. unfold len_u16. rewrite (Hf _ _ Hy). cbn [fst next_after].
  unfold add16, ov. destruct (N.leb_spec (declared s) 65531); destruct (N.ltb_spec (declared s + 4) 65536); try lia; cbn [bind got]; (split; [first [reflexivity|f_equal; lia]|intros n E; try discriminate; injection E as <-; lia]).
Qed.
Lemma plain_exactly {A} (c : A -> ie) rd n : (1 <= n)%nat -> (forall x, ie_len Debug (c x) = Ok n) -> sized (Exactly n, plain c rd).
Proof. intros Hn Hl dec s x H. apply plain_inv in H as (y & Hy & ->). rewrite Hl. split; [reflexivity|]. intros k E. injection E as <-. exact Hn. Qed.
Lemma plain_own {A} (c : A -> ie) rd : (forall x, (1 <= own_size (c x))%nat) -> (forall x, ie_len Debug (c x) = Ok (own_size (c x))) -> sized (Own, plain c rd).
Proof. intros Hn Hl dec s x H. apply plain_inv in H as (y & Hy & ->). rewrite Hl. split; [reflexivity|]. intros k E. injection E as <-. apply Hn. Qed.
Lemma group_declared (f : Tliv (list ie) -> option ie) : 
  (forall g x, f g = Some x -> ie_len Debug x = Ok (N.to_nat (ie_length g) + 4)%nat) -> sized (Declared, Group f).
Proof.
  intros Hl dec s x H. cbn [mean snd] in H. destruct s as [|t [|a [|b [|c0 q]]]]; try discriminate. destruct (fits _ _); [|discriminate]. destruct (dec _) as [l|]; [|discriminate].
  apply Hl in H. rewrite H. cbn [ie_length got fst next_after]. unfold declared. cbn [nth]. split; [f_equal; lia|intros n E; injection E as <-; lia].
Qed.
Ltac pos := intros [t l i v]; cbn [own_size ie_v]; repeat match goal with |- context [match ?x with _ => _ end] => destruct x end; cbn; lia.
Lemma catalogue_sized : Forall (fun e => sized (snd e)) catalogue.
Proof.
  unfold catalogue. repeat (apply Forall_cons; [cbn [snd]|]); [..|apply Forall_nil].
  - apply plain_declared; [apply frame_element|reflexivity].
  - apply plain_declared16; [apply frame_element|reflexivity].
  - apply plain_exactly; [lia|reflexivity].
  - apply plain_declared; [apply frame_element|reflexivity].
  - apply plain_exactly; [lia|reflexivity].
  - apply plain_declared16; [apply frame_element|reflexivity].
  - apply plain_exactly; [lia|reflexivity].
  - apply plain_exactly; [lia|reflexivity].
  - apply plain_declared; [apply frame_element|reflexivity].
  - apply plain_exactly; [lia|reflexivity].
  - apply plain_declared; [apply frame_element|reflexivity].
  - apply plain_declared; [apply frame_element|reflexivity].
  - apply plain_declared; [apply frame_element|reflexivity].
  - apply plain_declared; [apply frame_element|reflexivity].
  - apply plain_exactly; [lia|reflexivity].
  - apply plain_exactly; [lia|reflexivity].
  - apply plain_exactly; [lia|reflexivity].
  - apply plain_exactly; [lia|reflexivity].
  - apply plain_declared; [apply frame_element|reflexivity].
  - apply plain_declared; [apply frame_element|reflexivity].
  - apply plain_declared; [apply frame_element|reflexivity].
  - apply plain_declared16; [apply frame_element|reflexivity].
  - apply plain_declared; [apply frame_element|reflexivity].
  - apply plain_exactly; [lia|reflexivity].
  - apply plain_declared; [apply frame_element|reflexivity].
  - apply plain_declared; [apply frame_element|reflexivity].
  - apply plain_exactly; [lia|reflexivity].
  - apply group_declared. intros g x H. injection H as <-. reflexivity.
  - apply plain_exactly; [lia|reflexivity].
  - apply plain_exactly; [lia|reflexivity].
  - apply plain_exactly; [lia|reflexivity].
  - apply plain_declared; [apply frame_element|reflexivity].
  - apply plain_exactly; [lia|reflexivity].
  - apply plain_exactly; [lia|reflexivity].
  - apply plain_declared; [apply frame_element|reflexivity].
  - apply plain_declared; [apply frame_element|reflexivity].
  - apply plain_declared; [apply frame_element|reflexivity].
  - apply plain_declared; [apply frame_element|reflexivity].
  - apply plain_declared; [apply frame_element|reflexivity].
  - apply plain_declared; [apply frame_element|reflexivity].
  - apply group_declared. intros g x H. injection H as <-. reflexivity.
  - apply plain_declared; [apply frame_element|reflexivity].
  - apply plain_exactly; [lia|reflexivity].
  - apply plain_exactly; [lia|reflexivity].
  - apply plain_declared; [apply frame_element|reflexivity].
  - apply plain_exactly; [lia|reflexivity].
  - apply plain_exactly; [lia|reflexivity].
  - apply plain_declared16; [apply frame_element|reflexivity].
  - apply plain_exactly; [lia|reflexivity].
  - apply plain_declared16; [apply frame_element|reflexivity].
  - apply plain_declared; [apply frame_element|reflexivity].
  - apply plain_exactly; [lia|reflexivity].
  - apply plain_own; [pos|]. intros [t l i v]. cbn [ie_len own_size ie_v]. unfold TargetIdentification_len. cbn [ie_v]. destruct v; try reflexivity; cbn [target_type_size]. destruct (rn_ext v); reflexivity.
  - apply plain_exactly; [lia|reflexivity].
  - apply plain_exactly; [lia|reflexivity].
  - apply plain_declared16; [apply frame_element|reflexivity].
  - apply plain_exactly; [lia|reflexivity].
  - apply plain_exactly; [lia|reflexivity].
  - apply plain_exactly; [lia|reflexivity].
  - apply plain_own; [pos|]. intros [t l i v]. cbn [ie_len own_size ie_v]. unfold SourceIdentification_len. cbn [ie_v]. destruct v as [tg src]; cbn [si_source]. destruct src as [r| |]; try reflexivity. cbn [source_type_size]. unfold SourceRncIdentifier_size. destruct (sr_ext r); reflexivity.
  - apply plain_exactly; [lia|reflexivity].
  - apply plain_declared16; [apply frame_element|reflexivity].
  - apply plain_exactly; [lia|reflexivity].
  - apply plain_exactly; [lia|reflexivity].
  - apply plain_exactly; [lia|reflexivity].
  - apply plain_declared16; [apply frame_element|reflexivity].
  - apply plain_declared; [apply frame_element|reflexivity].
  - apply plain_exactly; [lia|reflexivity].
  - apply plain_declared; [apply frame_element|reflexivity].
  - apply plain_exactly; [lia|reflexivity].
  - apply plain_exactly; [lia|reflexivity].
  - apply plain_declared; [apply frame_element|reflexivity].
  - apply plain_exactly; [lia|reflexivity].
  - apply plain_exactly; [lia|reflexivity].
  - apply plain_exactly; [lia|reflexivity].
  - apply plain_exactly; [lia|reflexivity].
  - apply plain_exactly; [lia|reflexivity].
  - apply plain_exactly; [lia|reflexivity].
  - apply plain_exactly; [lia|reflexivity].
  - apply plain_exactly; [lia|reflexivity].
  - apply plain_declared16; [apply frame_element|reflexivity].
  - apply plain_exactly; [lia|reflexivity].
  - apply plain_exactly; [lia|reflexivity].
  - apply plain_exactly; [lia|reflexivity].
  - apply plain_declared; [apply frame_element|reflexivity].
  - apply plain_exactly; [lia|reflexivity].
  - apply plain_exactly; [lia|reflexivity].
  - apply plain_exactly; [lia|reflexivity].
  - apply plain_declared; [apply frame_element|reflexivity].
  - apply plain_exactly; [lia|reflexivity].
  - apply plain_declared; [apply frame_element|reflexivity].
  - apply plain_declared; [apply frame_element|reflexivity].
  - apply plain_exactly; [lia|reflexivity].
  - apply plain_exactly; [lia|reflexivity].
  - apply plain_exactly; [lia|reflexivity].
  - apply plain_exactly; [lia|reflexivity].
  - apply plain_declared; [apply frame_element|reflexivity].
  - apply plain_declared; [apply frame_element|reflexivity].
  - apply plain_exactly; [lia|reflexivity].
  - apply plain_exactly; [lia|reflexivity].
  - apply plain_declared; [apply frame_element|reflexivity].
  - apply plain_exactly; [lia|reflexivity].
  - apply plain_exactly; [lia|reflexivity].
  - apply plain_declared; [apply frame_element|reflexivity].
  - apply plain_declared; [apply frame_element|reflexivity].
  - apply plain_declared; [apply frame_element|reflexivity].
  - apply plain_exactly; [lia|reflexivity].
  - apply plain_exactly; [lia|reflexivity].
  - apply group_declared. intros g x H. injection H as <-. reflexivity.
  - apply group_declared. intros g x H. injection H as <-. reflexivity.
  - apply plain_exactly; [lia|reflexivity].
  - apply plain_exactly; [lia|reflexivity].
  - apply plain_declared; [apply frame_element|reflexivity].
  - apply plain_exactly; [lia|reflexivity].
  - apply plain_own; [pos|]. intros [t l i v]. cbn [ie_len own_size ie_v]. unfold PagingServiceInfo_len. cbn [ie_v]. destruct (pg_policy v); reflexivity.
  - apply plain_declared; [apply frame_element|reflexivity].
  - apply plain_exactly; [lia|reflexivity].
  - apply plain_declared; [apply frame_element|reflexivity].
  - apply plain_own; [pos|]. intros [t l i v]. cbn [ie_len own_size ie_v]. unfold EcgiList_len. cbn [ie_v]. destruct v as [l0|]; [|reflexivity]. rewrite (Nat.mul_comm (length l0) 7). reflexivity.
  - apply group_declared. intros g x H. injection H as <-. reflexivity.
  - apply plain_declared; [apply frame_element|reflexivity].
  - apply plain_declared16; [apply frame_element|reflexivity].
  - apply plain_exactly; [lia|reflexivity].
  - apply group_declared. intros g x H. injection H as <-. reflexivity.
  - apply plain_exactly; [lia|reflexivity].
  - apply plain_declared; [apply frame_element|reflexivity].
  - apply plain_exactly; [lia|reflexivity].
  - apply plain_exactly; [lia|reflexivity].
  - apply plain_exactly; [lia|reflexivity].
  - apply plain_declared; [apply frame_element|reflexivity].
  - apply plain_exactly; [lia|reflexivity].
  - apply plain_declared; [apply frame_element|reflexivity].
  - apply plain_declared; [apply frame_element|reflexivity].
  - apply plain_declared16; [apply frame_element|reflexivity].
  - apply plain_declared; [apply frame_element|reflexivity].
  - apply plain_exactly; [lia|reflexivity].
  - apply group_declared. intros g x H. injection H as <-. reflexivity.
  - apply group_declared. intros g x H. destruct (every _ _ _); [discriminate|]. injection H as <-. reflexivity.
  - apply plain_exactly; [lia|reflexivity].
  - apply plain_exactly; [lia|reflexivity].
  - apply plain_declared; [apply frame_element|reflexivity].
  - apply plain_declared; [apply frame_element|reflexivity].
  - apply group_declared. intros g x H. injection H as <-. reflexivity.
  - apply plain_declared; [apply frame_element|reflexivity].
  - apply plain_declared; [apply frame_element|reflexivity].
  - apply plain_exactly; [lia|reflexivity].
  - apply plain_exactly; [lia|reflexivity].
  - apply plain_declared; [apply frame_element|reflexivity].
  - apply plain_declared; [apply frame_element|reflexivity].
  - apply plain_declared; [apply frame_element|reflexivity].
Qed.
Lemma code_sized t : sized (kind_of_code t).
Proof.
  unfold kind_of_code. destruct (find _ catalogue) as [e|] eqn:E.
  - apply find_some in E as [E _]. exact (proj1 (Forall_forall _ _) catalogue_sized e E).
  - apply plain_declared; [apply frame_element|reflexivity].
Qed.

(* the loop on octets that are elements *)
Lemma got_ok {A} (r : res A) x : got r = Some x <-> r = Ok x.
Proof. destruct r; cbn [got]; split; intros H; try discriminate; [injection H as ->; reflexivity|apply Ok_inj in H; subst; reflexivity]. Qed.
Lemma loop_says d fuel : (forall q l, bytes q -> decode_ies d Debug q = Ok l -> octets_say q l) ->
  forall b l, bytes b -> ie_loop (decode_one (decode_ies d Debug) Debug) Debug fuel b = Ok l -> octets_say b l.
Proof.
  intros Hd. induction fuel as [|f IH]; intros [|t q] l Hb H; cbn [ie_loop] in H; try discriminate; try (apply Ok_inj in H; subst; constructor).
  destruct (decode_one (decode_ies d Debug) Debug (t :: q)) as [e| | |] eqn:E1; cbn [bind] in H; try discriminate.
  destruct (ie_len Debug e) as [n| | |] eqn:E2; cbn [bind] in H; try discriminate. destruct (ie_loop _ Debug f _) as [r| | |] eqn:E3; cbn [bind] in H; try discriminate.
  apply Ok_inj in H. subst l. pose proof (one_eq (decode_ies d Debug) t q Hb) as HM. rewrite E1 in HM. cbn [got] in HM. symmetry in HM.
  destruct (code_sized t _ _ _ HM) as [HS _]. rewrite E2 in HS. cbn [got] in HS. symmetry in HS.
  apply (say_more _ e n). 2: { apply IH; [apply bytes_skipn; exact Hb|exact E3]. }
  destruct (kind_of_code t) as [x [rd|g]] eqn:EK; cbn [fst snd mean] in HM, HS.
  - apply (head_plain t q x rd); assumption.
  - destruct q as [|a0 [|b0 [|c0 q]]]; try discriminate. destruct (fits _ _) eqn:Hf; [|discriminate]. unfold got_dec in HM. destruct (decode_ies d Debug _) as [l| | |] eqn:E4; cbn [got] in HM; try discriminate.
    apply (head_group t a0 b0 c0 q x g l); try assumption. apply Hd; [|exact E4]. bys Hb. apply bytes_firstn. exact Hb.
Qed.
Lemma decoder_says b l : bytes b -> decoder Debug b = Ok l -> octets_say b l.
Proof.
  unfold decoder. generalize (S (length b)) as d. intros d. revert b l. induction d as [|d IH]; intros b l Hb H; cbn [decode_ies] in H.
  - destruct b; [|discriminate]. apply Ok_inj in H. subst. constructor.
  - exact (loop_says d (length b) IH b l Hb H).
Qed.

Lemma loop_back N0 : forall b l, (length b <= N0)%nat -> bytes b -> octets_say b l -> forall d fuel, (length b <= d)%nat -> (length b <= fuel)%nat ->
  ie_loop (decode_one (decode_ies d Debug) Debug) Debug fuel b = Ok l.
Proof.
  induction N0 as [|N0 IH]; intros b l HN Hb H d fuel Hd Hf.
  - destruct b; [|cbn in HN; lia]. inversion H as [|s e n r HH]; [destruct fuel; reflexivity|]. inversion HH.
  - destruct H as [|s e n l HH Hr]; [destruct fuel; reflexivity|]. destruct s as [|t q]; [inversion HH|].
    destruct fuel as [|fuel]; [cbn in Hf; lia|]. cbn [ie_loop].
    assert (HM : mean (got_dec (decode_ies d Debug)) (snd (kind_of_code t)) (t :: q) = Some e /\ next_after (fst (kind_of_code t)) (t :: q) e = Some n).
    { inversion HH as [t' q' x r e' n' K R Nx | t' a b c q' x f l' e' n' K F M G Nx]; subst; rewrite K; cbn [fst snd mean]; [auto|]. split; [|exact Nx]. rewrite F.
      pose proof (fits_inv _ _ F) as [_ Hl]. unfold got_dec.
      assert (E : decode_ies d Debug (firstn (N.to_nat (256 * a + b)) q') = Ok l').
      { destruct d as [|d]; [cbn in Hd; lia|]. cbn [decode_ies]. cbn [length] in HN, Hd. pose proof (firstn_le_length (N.to_nat (256 * a + b)) q'). apply IH; [rewrite firstn_length in *; lia| |exact M|rewrite firstn_length in *; lia|lia].
        bys Hb. apply bytes_firstn. exact Hb. }
      rewrite E. cbn [got]. exact G. }
    destruct HM as [HM HN']. rewrite <- (one_eq (decode_ies d Debug) t q Hb) in HM. pose proof HM as HM'. apply got_ok in HM. rewrite HM. cbn [bind].
    rewrite (one_eq (decode_ies d Debug) t q Hb) in HM'. destruct (code_sized t _ _ _ HM') as [HS HP]. rewrite HN' in HS. apply got_ok in HS. rewrite HS. cbn [bind].
    specialize (HP _ HN'). cbn [length] in *. rewrite (IH (skipn n (t :: q)) l); [reflexivity| | |exact Hr| |]; try (apply bytes_skipn; exact Hb); rewrite skipn_length; cbn [length]; lia.
Qed.
Theorem decoder_iff b l : bytes b -> (decoder Debug b = Ok l <-> octets_say b l).
Proof.
  intros Hb. split; [exact (decoder_says b l Hb)|]. intros H. unfold decoder. cbn [decode_ies]. apply (loop_back (length b)); auto.
Qed.
