(* V2DecTame.v - on tame octets (V2WireSpec.v) the IE list decoder returns. *)
From Verif Require Import Base BaseFacts.
From Verif Require Export V2DecLoop.
Local Open Scope N_scope.

Lemma labels_loop_fit ws : forall f, (length (concat (map (fun w => nlen w :: w) ws)) <= f)%nat -> returns (labels_loop (E:=GTPV2Error) f (concat (map (fun w : list N => nlen w :: w) ws))).
Proof.
  induction ws as [|w ws IH]; intros f H; [destruct f; exact I|]. cbn [map concat app length] in *. rewrite app_length in H. destruct f as [|f]; [lia|]. cbn [labels_loop].
  unfold nlen at 1. rewrite Nat2N.id. rewrite app_length. destruct (Nat.leb_spec (length w) (length w + length (concat (map (fun w => nlen w :: w) ws)))); [|lia].
  unfold nlen at 1. rewrite Nat2N.id, skipn_app, skipn_all, Nat.sub_diag. cbn [skipn app]. apply returns_bind; [apply IH; lia|intros; exact I].
Qed.
Lemma labels_decode_fit v : labels_fit v -> returns (labels_decode (E:=GTPV2Error) v).
Proof. intros (ws & ->). unfold labels_decode. apply returns_bind; [apply labels_loop_fit; lia|intros; exact I]. Qed.
Lemma slice_value b : (N.to_nat (declared b) + 4 <= length b)%nat -> slice b 4 (4 + N.to_nat (declared b)) = Ok (E:=GTPV2Error) (value_of b).
Proof. intros H. rewrite slice_ok by lia. unfold value_of. do 2 f_equal. lia. Qed.
Ltac name_tame L := intros m b Hd Hf; match goal with |- returns (?f _ _) => unfold f end; apply returns_need; intros; rewrite hdr4_eq by lia; apply returns_checked; [exact Hd|]; intros;
  rewrite slice_value by lia; rewrite bindOk; apply returns_bind; [apply labels_decode_fit; exact Hf|intros; exact I].
Lemma Apn_tame : forall m b, declared b <= 65531 -> labels_fit (value_of b) -> returns (Apn_unmarshal m b).
Proof. name_tame tt. Qed.
Lemma Fqdn_tame : forall m b, declared b <= 65531 -> labels_fit (value_of b) -> returns (Fqdn_unmarshal m b).
Proof. name_tame tt. Qed.
Lemma PgwFqdn_tame : forall m b, declared b <= 65531 -> labels_fit (value_of b) -> returns (PgwFqdn_unmarshal m b).
Proof. name_tame tt. Qed.
Lemma skipn2 {A} i j (l : list A) : skipn i (skipn j l) = skipn (j + i) l.
Proof. revert l. induction j as [|j IH]; intros l; [reflexivity|]. destruct l; [rewrite !skipn_nil; reflexivity|]. apply IH. Qed.
Lemma ApnRelativeCapacity_tame : forall m b, declared b <= 65531 -> labels_fit (skipn 1 (value_of b)) -> returns (ApnRelativeCapacity_unmarshal m b).
Proof.
  intros m b Hd Hf. unfold ApnRelativeCapacity_unmarshal. apply returns_need. intros. rewrite hdr4_eq by lia. apply returns_checked; [exact Hd|]. intros.
  apply returns_at; [lia|]. intros. cbv zeta. rewrite slice_ok by lia. rewrite bindOk. apply returns_bind; [|intros; exact I]. apply labels_decode_fit.
  unfold value_of in Hf. rewrite skipn_firstn_comm, skipn2 in Hf. cbn [Nat.add] in Hf. replace (4 + N.to_nat (declared b) - 5)%nat with (N.to_nat (declared b) - 1)%nat by lia. exact Hf.
Qed.
Lemma nth_error_oct s i x : nth_error s i = Some x -> oct s i = x.
Proof. intros H. unfold oct. apply nth_error_nth. exact H. Qed.
Lemma Indication_tame : forall m b, (4 + N.to_nat (declared b) <= length b)%nat -> returns (Indication_unmarshal m b).
Proof. intros m b H. unfold Indication_unmarshal. safe2. Qed.
Definition steps (order : list N) : nat := fold_right (fun k n => (loc_step k + n)%nat) 0%nat order.
Lemma loc_loop_safe order : forall b c, (c + steps order <= length b)%nat -> returns (loc_loop order b c).
Proof.
  induction order as [|k o IH]; intros b c H; [exact I|]. cbn [loc_loop steps fold_right] in *. fold (steps o) in H. apply returns_slice_from; [lia|]. intros t Ht.
  apply returns_bind.
  - unfold loc_dec. safe2; apply returns_bind; try (intros; exact I);
      first [apply Cgi_dec_returns|apply Sai_dec_returns|apply Rai_dec_returns|apply Tai_dec_returns|apply Ecgi_dec_returns|apply Lai_dec_returns|apply MacroEnbId_dec_returns|apply ExtMacroEnbId_dec_returns].
  - intros x _. apply returns_bind; [|intros; exact I]. apply IH. lia.
Qed.
Lemma steps_to_flags x : (steps (to_flags x) <= 50)%nat.
Proof. unfold to_flags. cbn [filter]. repeat match goal with |- context [bit x ?k] => destruct (bit x k) end; vm_compute; lia. Qed.
Lemma to_flags_0 : to_flags 0 = [].
Proof. reflexivity. Qed.
Lemma Uli_tame : forall m b, declared b <= 65531 -> ((55 <= length b)%nat \/ oct b 4 = 0) -> returns (Uli_unmarshal m b).
Proof.
  intros m b Hd H. unfold Uli_unmarshal. apply returns_need. intros. rewrite hdr4_eq by lia. apply returns_checked; [exact Hd|]. intros.
  apply returns_at; [lia|]. intros x Hx. apply nth_error_oct in Hx. apply returns_bind; [|intros; exact I]. destruct H as [H|H].
  - apply loc_loop_safe. pose proof (steps_to_flags x). lia.
  - rewrite H in Hx. subst. exact I.
Qed.
Lemma flags_87 x : x < 256 -> N.shiftr x 7 = (if N.testbit x 7 then 1 else 0) /\ N.land (N.shiftr x 6) 1 = (if N.testbit x 6 then 1 else 0).
Proof. intros H. split; cases_lt 256%nat H; reflexivity. Qed.
Lemma land_shift_1 x k : N.land (N.shiftr x k) 1 = (if N.testbit x k then 1 else 0).
Proof. change 1 with (N.ones 1) at 1. rewrite N.land_ones. change (2 ^ 1) with 2. rewrite <- N.bit0_mod. rewrite N.shiftr_spec by lia. rewrite N.add_0_l. destruct (N.testbit x k); reflexivity. Qed.
Lemma shiftr_7_1 x : N.shiftr x 7 = 1 -> N.testbit x 7 = true.
Proof. intros H. rewrite <- (N.add_0_l 7), <- N.shiftr_spec by lia. rewrite H. reflexivity. Qed.
Lemma Fteid_tame : forall m b, declared b <= 65531 -> (9 + (if N.testbit (oct b 4) 7 then 4 else 0) + (if N.testbit (oct b 4) 6 then 16 else 0) <= length b)%nat -> returns (Fteid_unmarshal m b).
Proof.
  intros m b Hd H. unfold Fteid_unmarshal. apply returns_need. intros. rewrite hdr4_eq by lia. apply returns_checked; [exact Hd|]. intros.
  apply returns_at; [lia|]. intros x Hx. apply nth_error_oct in Hx. rewrite Hx in H. apply returns_be_at; [lia|]. intros. cbv zeta.
  rewrite land_shift_1. destruct (N.eqb_spec (N.shiftr x 7) 1) as [E|E]; [rewrite (shiftr_7_1 x E) in H|]; destruct (N.testbit x 6); cbn [andb N.eqb Pos.eqb]; safe2.
Qed.
Lemma S103pdf_tame : forall m b, declared b <= 65531 -> (14 <= length b)%nat -> (oct b 4 = 16 -> (26 + N.to_nat (oct b 25) <= length b)%nat) -> returns (S103pdf_unmarshal m b).
Proof.
  intros m b Hd H K. unfold S103pdf_unmarshal. apply returns_need. intros. rewrite hdr4_eq by lia. apply returns_checked; [exact Hd|]. intros.
  apply returns_at; [lia|]. intros x Hx. apply nth_error_oct in Hx. apply returns_if; intros E; [safe2|]. apply returns_if; intros E2; [|exact I].
  apply N.eqb_eq in E2. subst x. specialize (K E2). apply returns_need; intros. apply returns_slice; [lia|lia|]. intros. apply returns_be_at; [lia|]. intros. apply returns_at; [lia|]. intros n Hn. apply nth_error_oct in Hn. subst n. safe2.
Qed.
Lemma S1udf_tame : forall m b, declared b <= 65531 -> (14 <= length b)%nat -> (oct b 5 = 16 -> (26 <= length b)%nat) -> returns (S1udf_unmarshal m b).
Proof.
  intros m b Hd H K. unfold S1udf_unmarshal. apply returns_need. intros. rewrite hdr4_eq by lia. apply returns_checked; [exact Hd|]. intros.
  apply returns_at; [lia|]. intros e He. apply returns_at; [lia|]. intros x Hx. apply nth_error_oct in Hx. apply returns_if; intros E; [safe2|]. apply returns_if; intros E2; [|exact I].
  apply N.eqb_eq in E2. subst x. specialize (K E2). safe2.
Qed.
Lemma NodeNumber_tame : forall m b, declared b <= 65531 -> 1 <= oct b 4 -> (5 + N.to_nat (oct b 4) <= length b)%nat -> returns (NodeNumber_unmarshal m b).
Proof.
  intros m b Hd H K. unfold NodeNumber_unmarshal. apply returns_need. intros. rewrite hdr4_eq by lia. apply returns_checked; [exact Hd|]. intros.
  apply returns_at; [lia|]. intros x Hx. apply nth_error_oct in Hx. subst x. apply returns_slice; [lia|lia|]. intros s Hs. safe2.
Qed.
Lemma PagingServiceInfo_tame : forall m b, (oct b 5 = 1 -> (7 <= length b)%nat) -> returns (PagingServiceInfo_unmarshal m b).
Proof.
  intros m b K. unfold PagingServiceInfo_unmarshal. apply returns_need. intros. rewrite hdr4_eq by lia.
  apply returns_at; [lia|]. intros e He. apply returns_at; [lia|]. intros x Hx. apply nth_error_oct in Hx. apply returns_if; intros E; [exact I|]. apply returns_if; intros E2; [|exact I].
  apply N.eqb_eq in E2. subst x. specialize (K E2). safe2.
Qed.
Lemma PC5QosFlow_tame : forall m b, declared b <= 65531 -> (15 <= length b)%nat -> returns (PC5QosFlow_unmarshal m b).
Proof. intros m b Hd H. unfold PC5QosFlow_unmarshal. safe2. Qed.
Lemma SpecialIEWithTypeExt_tame : forall m b, declared b <= 65531 -> (6 <= length b)%nat -> 2 <= declared b -> returns (SpecialIEWithTypeExt_unmarshal m b).
Proof. intros m b Hd H K. unfold SpecialIEWithTypeExt_unmarshal. safe2. Qed.
Lemma PrivateExtension_tame : forall m b, declared b <= 65531 -> 2 <= declared b -> returns (PrivateExtension_unmarshal m b).
Proof. intros m b Hd H. unfold PrivateExtension_unmarshal. safe2. Qed.

Lemma returns_lift {A} (c : A -> ie) r : returns r -> returns (lift c r).
Proof. unfold lift. destruct r; cbn; auto. Qed.
Lemma returns_GroupedIe dec m b : b <> [] -> declared b <= 65531 -> returns (dec (value_of b)) \/ (length b < 4 + N.to_nat (declared b))%nat -> returns (GroupedIe_unmarshal dec m b).
Proof.
  intros Hb Hd H. unfold GroupedIe_unmarshal, MIN_IE_SIZE. destruct (Nat.leb_spec 4 (length b)).
  - apply returns_at; [lia|]. intros t Ht. rewrite hdr4_eq by lia. apply returns_checked; [exact Hd|]. intros. apply returns_end16; [lia|].
    replace (N.to_nat (declared b + 4)) with (4 + N.to_nat (declared b))%nat by lia. rewrite slice_value by lia. rewrite bindOk. destruct H as [H|H]; [|lia]. apply returns_bind; [exact H|intros; exact I].
  - apply returns_at; [destruct b; [contradiction|cbn; lia]|]. intros. exact I.
Qed.
Lemma returns_decode_one dec m b : b <> [] -> tame b -> (In (nth 0 b 0) grouped_codes -> (4 + N.to_nat (declared b) <= length b)%nat -> returns (dec (value_of b))) -> returns (decode_one dec m b).
Proof.
  intros Hb Ht Hg. assert (G : In (nth 0 b 0) grouped_codes -> returns (GroupedIe_unmarshal dec m b)).
  { intros Hi. apply returns_GroupedIe; [exact Hb|apply Ht|]. destruct (Nat.leb_spec (4 + N.to_nat (declared b)) (length b)); [left; apply Hg; assumption|right; lia]. }
  clear Hg. assert (A : exists t, at_ b 0 = Ok (E:=GTPV2Error) t /\ nth 0 b 0 = t) by (destruct b as [|t b']; [contradiction|exists t; split; reflexivity]).
  destruct A as (t & A & N0). unfold decode_one. rewrite A, bindOk. rewrite N0 in G. unfold tame in Ht. change (oct b 0) with (nth 0 b 0) in Ht. rewrite N0 in Ht. cbv zeta in Ht.
  destruct Ht as (Td & Tn & T184 & T77 & T86 & T87 & T90 & T91 & T175 & T186 & T212 & T254 & T255 & Tno).
  destruct (N.eqb_spec t 1) as [->|_]; [apply returns_lift, Imsi_safe; exact Td|].
  destruct (N.eqb_spec t 2) as [->|_]; [apply returns_lift, Cause_safe|].
  destruct (N.eqb_spec t 3) as [->|_]; [apply returns_lift, Recovery_safe|].
  destruct (N.eqb_spec t 51) as [->|_]; [apply returns_lift, StnSr_safe; exact Td|].
  destruct (N.eqb_spec t 56) as [->|_]; [apply returns_lift, SrvccCause_safe|].
  destruct (N.eqb_spec t 71) as [->|_]; [apply returns_lift; apply Apn_tame; [exact Td|apply Tn; cbn; tauto]|].
  destruct (N.eqb_spec t 72) as [->|_]; [apply returns_lift, Ambr_safe|].
  destruct (N.eqb_spec t 73) as [->|_]; [apply returns_lift, Ebi_safe|].
  destruct (N.eqb_spec t 74) as [->|_]; [apply returns_lift, IpAddress_safe; exact Td|].
  destruct (N.eqb_spec t 75) as [->|_]; [apply returns_lift, Mei_safe; exact Td|].
  destruct (N.eqb_spec t 76) as [->|_]; [apply returns_lift, Msisdn_safe; exact Td|].
  destruct (N.eqb_spec t 77) as [->|_]; [apply returns_lift; apply Indication_tame; apply T77; reflexivity|].
  destruct (N.eqb_spec t 78) as [->|_]; [apply returns_lift, Pco_safe; exact Td|].
  destruct (N.eqb_spec t 79) as [->|_]; [apply returns_lift, PdnAddressAllocation_safe; exact Td|].
  destruct (N.eqb_spec t 80) as [->|_]; [apply returns_lift, BearerQos_safe|].
  destruct (N.eqb_spec t 81) as [->|_]; [apply returns_lift, FlowQos_safe|].
  destruct (N.eqb_spec t 82) as [->|_]; [apply returns_lift, RatType_safe|].
  destruct (N.eqb_spec t 83) as [->|_]; [apply returns_lift, ServingNetwork_safe|].
  destruct (N.eqb_spec t 84) as [->|_]; [apply returns_lift, BearerTft_safe; exact Td|].
  destruct (N.eqb_spec t 85) as [->|_]; [apply returns_lift, TrafficAggregateDescription_safe; exact Td|].
  destruct (N.eqb_spec t 86) as [->|_]; [apply returns_lift; apply Uli_tame; [exact Td|]; apply T86; reflexivity|].
  destruct (N.eqb_spec t 87) as [->|_]; [apply returns_lift; apply Fteid_tame; [exact Td|]; apply T87; reflexivity|].
  destruct (N.eqb_spec t 88) as [->|_]; [apply returns_lift, Tmsi_safe|].
  destruct (N.eqb_spec t 89) as [->|_]; [apply returns_lift, GlobalCnId_safe|].
  destruct (N.eqb_spec t 90) as [->|_]; [apply returns_lift; apply S103pdf_tame; [exact Td|apply T90; reflexivity|apply T90; reflexivity]|].
  destruct (N.eqb_spec t 91) as [->|_]; [apply returns_lift; apply S1udf_tame; [exact Td|apply T91; reflexivity|apply T91; reflexivity]|].
  destruct (N.eqb_spec t 92) as [->|_]; [apply returns_lift, DelayValue_safe|].
  destruct (N.eqb_spec t 93) as [->|_]; [apply returns_lift; unfold BearerContext_unmarshal; apply returns_bind; [apply G; cbn; tauto|intros; cbv zeta; repeat match goal with |- returns (match ?x with _ => _ end) => destruct x end; exact I]|].
  destruct (N.eqb_spec t 94) as [->|_]; [apply returns_lift, ChargingId_safe|].
  destruct (N.eqb_spec t 95) as [->|_]; [apply returns_lift, ChargingCharacteristics_safe|].
  destruct (N.eqb_spec t 96) as [->|_]; [apply returns_lift, TraceInformation_safe|].
  destruct (N.eqb_spec t 97) as [->|_]; [apply returns_lift, BearerFlags_safe|].
  destruct (N.eqb_spec t 99) as [->|_]; [apply returns_lift, PdnType_safe|].
  destruct (N.eqb_spec t 100) as [->|_]; [apply returns_lift, Pti_safe|].
  destruct ((103 <=? t) && (t <=? 108)) eqn:EM; [exfalso; apply Tno; apply andb_prop in EM; destruct EM as [EM1 EM2]; apply N.leb_le in EM1, EM2; cbn; lia|].
  destruct (N.eqb_spec t 109) as [->|_]; [apply returns_lift; unfold PdnConnections_unmarshal; apply returns_bind; [apply G; cbn; tauto|intros; cbv zeta; repeat match goal with |- returns (match ?x with _ => _ end) => destruct x end; exact I]|].
  destruct (N.eqb_spec t 110) as [->|_]; [apply returns_lift, PduNumbers_safe|].
  destruct (N.eqb_spec t 111) as [->|_]; [apply returns_lift, Ptmsi_safe|].
  destruct (N.eqb_spec t 112) as [->|_]; [apply returns_lift, PtmsiSignature_safe|].
  destruct (N.eqb_spec t 113) as [->|_]; [apply returns_lift, HopCounter_safe|].
  destruct (N.eqb_spec t 114) as [->|_]; [apply returns_lift, UeTimeZone_safe|].
  destruct (N.eqb_spec t 115) as [->|_]; [apply returns_lift, TraceReference_safe|].
  destruct (N.eqb_spec t 116) as [->|_]; [apply returns_lift, CompleteRequestMessage_safe; exact Td|].
  destruct (N.eqb_spec t 117) as [->|_]; [apply returns_lift, Guti_safe|].
  destruct (N.eqb_spec t 118) as [->|_]; [apply returns_lift, Fcontainer_safe; exact Td|].
  destruct (N.eqb_spec t 119) as [->|_]; [apply returns_lift, Fcause_safe; exact Td|].
  destruct (N.eqb_spec t 120) as [->|_]; [apply returns_lift, PlmnId_safe|].
  destruct (N.eqb_spec t 121) as [->|_]; [apply returns_lift, TargetIdentification_safe|].
  destruct (N.eqb_spec t 123) as [->|_]; [apply returns_lift, PacketFlowId_safe|].
  destruct (N.eqb_spec t 124) as [->|_]; [apply returns_lift, RabContext_safe|].
  destruct (N.eqb_spec t 125) as [->|_]; [apply returns_lift, SourceRncPdcpContextInfo_safe; exact Td|].
  destruct (N.eqb_spec t 126) as [->|_]; [apply returns_lift, PortNumber_safe|].
  destruct (N.eqb_spec t 127) as [->|_]; [apply returns_lift, ApnRestriction_safe|].
  destruct (N.eqb_spec t 128) as [->|_]; [apply returns_lift, SelectionMode_safe|].
  destruct (N.eqb_spec t 129) as [->|_]; [exfalso; apply Tno; cbn; tauto|].
  destruct (N.eqb_spec t 131) as [->|_]; [apply returns_lift, ChangeReportingAction_safe|].
  destruct (N.eqb_spec t 132) as [->|_]; [apply returns_lift, Fqcsid_safe; exact Td|].
  destruct (N.eqb_spec t 133) as [->|_]; [apply returns_lift, ChannelNeeded_safe|].
  destruct (N.eqb_spec t 134) as [->|_]; [apply returns_lift, EmlppPriority_safe|].
  destruct (N.eqb_spec t 135) as [->|_]; [apply returns_lift, NodeType_safe|].
  destruct (N.eqb_spec t 136) as [->|_]; [apply returns_lift; apply Fqdn_tame; [exact Td|apply Tn; cbn; tauto]|].
  destruct (N.eqb_spec t 137) as [->|_]; [apply returns_lift, TransactionIdentifier_safe|].
  destruct (N.eqb_spec t 138) as [->|_]; [apply returns_lift, MbmsSessionDuration_safe|].
  destruct (N.eqb_spec t 139) as [->|_]; [apply returns_lift, MbmsServiceArea_safe; exact Td|].
  destruct (N.eqb_spec t 140) as [->|_]; [apply returns_lift, MbmsSessionId_safe|].
  destruct (N.eqb_spec t 141) as [->|_]; [apply returns_lift, MbmsFlowId_safe|].
  destruct (N.eqb_spec t 142) as [->|_]; [exfalso; apply Tno; cbn; tauto|].
  destruct (N.eqb_spec t 143) as [->|_]; [apply returns_lift, MbmsDistributionAck_safe|].
  destruct (N.eqb_spec t 144) as [->|_]; [apply returns_lift, RfspIndex_safe|].
  destruct (N.eqb_spec t 145) as [->|_]; [apply returns_lift, Uci_safe|].
  destruct (N.eqb_spec t 146) as [->|_]; [apply returns_lift, CSGInformationReportingAction_safe|].
  destruct (N.eqb_spec t 147) as [->|_]; [apply returns_lift, CsgId_safe|].
  destruct (N.eqb_spec t 148) as [->|_]; [apply returns_lift, CsgMembershipIndication_safe|].
  destruct (N.eqb_spec t 149) as [->|_]; [apply returns_lift, ServiceIndicator_safe|].
  destruct (N.eqb_spec t 150) as [->|_]; [apply returns_lift, DetachType_safe|].
  destruct (N.eqb_spec t 151) as [->|_]; [apply returns_lift, Ldn_safe; exact Td|].
  destruct (N.eqb_spec t 152) as [->|_]; [apply returns_lift, NodeFeatures_safe|].
  destruct (N.eqb_spec t 153) as [->|_]; [apply returns_lift, MbmsTimeToDataTransfer_safe|].
  destruct (N.eqb_spec t 154) as [->|_]; [apply returns_lift, Throttling_safe|].
  destruct (N.eqb_spec t 155) as [->|_]; [apply returns_lift, Arp_safe|].
  destruct (N.eqb_spec t 156) as [->|_]; [apply returns_lift, EpcTimer_safe|].
  destruct (N.eqb_spec t 157) as [->|_]; [apply returns_lift, Spi_safe|].
  destruct (N.eqb_spec t 158) as [->|_]; [apply returns_lift, Tmgi_safe|].
  destruct (N.eqb_spec t 159) as [->|_]; [exfalso; apply Tno; cbn; tauto|].
  destruct (N.eqb_spec t 160) as [->|_]; [apply returns_lift, AdditionalFlagsSrvcc_safe|].
  destruct (N.eqb_spec t 162) as [->|_]; [exfalso; apply Tno; cbn; tauto|].
  destruct (N.eqb_spec t 163) as [->|_]; [apply returns_lift, Apco_safe; exact Td|].
  destruct (N.eqb_spec t 164) as [->|_]; [apply returns_lift, AbsoluteTimeMbmsDataTransfer_safe|].
  destruct (N.eqb_spec t 165) as [->|_]; [apply returns_lift, HenbInfoReporting_safe|].
  destruct (N.eqb_spec t 166) as [->|_]; [apply returns_lift, Ip4Cp_safe|].
  destruct (N.eqb_spec t 167) as [->|_]; [apply returns_lift, ChangeToReportFlags_safe|].
  destruct (N.eqb_spec t 168) as [->|_]; [apply returns_lift, ActionIndication_safe|].
  destruct (N.eqb_spec t 169) as [->|_]; [apply returns_lift, ActionIndication_safe|].
  destruct (N.eqb_spec t 170) as [->|_]; [apply returns_lift, UliTimestamp_safe|].
  destruct (N.eqb_spec t 171) as [->|_]; [apply returns_lift, MbmsFlags_safe|].
  destruct (N.eqb_spec t 172) as [->|_]; [apply returns_lift, RanNasCause_safe; exact Td|].
  destruct (N.eqb_spec t 173) as [->|_]; [apply returns_lift, CnOperatorSelectionEntity_safe|].
  destruct (N.eqb_spec t 174) as [->|_]; [apply returns_lift, Twmi_safe|].
  destruct (N.eqb_spec t 175) as [->|_]; [apply returns_lift; apply NodeNumber_tame; [exact Td|apply T175; reflexivity|apply T175; reflexivity]|].
  destruct (N.eqb_spec t 176) as [->|_]; [apply returns_lift, NodeIdentifier_safe; exact Td|].
  destruct (N.eqb_spec t 177) as [->|_]; [exfalso; apply Tno; cbn; tauto|].
  destruct (N.eqb_spec t 178) as [->|_]; [apply returns_lift, PresenceReportingAreaInformation_safe|].
  destruct (N.eqb_spec t 179) as [->|_]; [apply returns_lift, TwanIdTimeStamp_safe|].
  destruct (N.eqb_spec t 180) as [->|_]; [apply returns_lift; unfold OverloadControlInfo_unmarshal; apply returns_bind; [apply G; cbn; tauto|intros; cbv zeta; repeat match goal with |- returns (match ?x with _ => _ end) => destruct x end; exact I]|].
  destruct (N.eqb_spec t 181) as [->|_]; [apply returns_lift; unfold LoadControl_unmarshal; apply returns_bind; [apply G; cbn; tauto|intros; cbv zeta; repeat match goal with |- returns (match ?x with _ => _ end) => destruct x end; exact I]|].
  destruct (N.eqb_spec t 182) as [->|_]; [apply returns_lift, Metric_safe|].
  destruct (N.eqb_spec t 183) as [->|_]; [apply returns_lift, Sqn_safe|].
  destruct (N.eqb_spec t 184) as [->|_]; [apply returns_lift; apply ApnRelativeCapacity_tame; [exact Td|apply T184; reflexivity]|].
  destruct (N.eqb_spec t 185) as [->|_]; [apply returns_lift, WlanOffloadIndication_safe|].
  destruct (N.eqb_spec t 186) as [->|_]; [apply returns_lift; apply PagingServiceInfo_tame; apply T186; reflexivity|].
  destruct (N.eqb_spec t 187) as [->|_]; [apply returns_lift, IntegerNumber_safe; exact Td|].
  destruct (N.eqb_spec t 188) as [->|_]; [apply returns_lift, MilliSecondTimeStamp_safe|].
  destruct (N.eqb_spec t 189) as [->|_]; [apply returns_lift, MonitoringEventInformation_safe|].
  destruct (N.eqb_spec t 190) as [->|_]; [apply returns_lift, EcgiList_safe|].
  destruct (N.eqb_spec t 191) as [->|_]; [apply returns_lift; unfold RemoteUeContext_unmarshal; apply returns_bind; [apply G; cbn; tauto|intros; cbv zeta; repeat match goal with |- returns (match ?x with _ => _ end) => destruct x end; exact I]|].
  destruct (N.eqb_spec t 192) as [->|_]; [exfalso; apply Tno; cbn; tauto|].
  destruct (N.eqb_spec t 193) as [->|_]; [apply returns_lift, RemoteUeIpInformation_safe; exact Td|].
  destruct (N.eqb_spec t 194) as [->|_]; [apply returns_lift, CIoTOptimizationSupportIndication_safe|].
  destruct (N.eqb_spec t 195) as [->|_]; [apply returns_lift; unfold ScefPdnConnections_unmarshal; apply returns_bind; [apply G; cbn; tauto|intros; cbv zeta; repeat match goal with |- returns (match ?x with _ => _ end) => destruct x end; exact I]|].
  destruct (N.eqb_spec t 196) as [->|_]; [apply returns_lift, HeaderCompressionConfiguration_safe|].
  destruct (N.eqb_spec t 197) as [->|_]; [apply returns_lift, Epco_safe; exact Td|].
  destruct (N.eqb_spec t 198) as [->|_]; [apply returns_lift, ServingPlmnRateControl_safe|].
  destruct (N.eqb_spec t 199) as [->|_]; [apply returns_lift, Counter_safe|].
  destruct (N.eqb_spec t 200) as [->|_]; [apply returns_lift, MappedUeUsageType_safe|].
  destruct (N.eqb_spec t 201) as [->|_]; [apply returns_lift, SecondaryRatUsageDataReport_safe|].
  destruct (N.eqb_spec t 202) as [->|_]; [apply returns_lift, UpFunctionSelectionIndicationFlags_safe|].
  destruct (N.eqb_spec t 203) as [->|_]; [apply returns_lift, MaxPacketLossRate_safe|].
  destruct (N.eqb_spec t 204) as [->|_]; [apply returns_lift, ApnRateControlStatus_safe|].
  destruct (N.eqb_spec t 205) as [->|_]; [exfalso; apply Tno; cbn; tauto|].
  destruct (N.eqb_spec t 206) as [->|_]; [exfalso; apply Tno; cbn; tauto|].
  destruct (N.eqb_spec t 207) as [->|_]; [apply returns_lift, AdditionalRrmPolicyIndex_safe|].
  destruct (N.eqb_spec t 208) as [->|_]; [apply returns_lift; unfold V2xInformation_unmarshal; apply returns_bind; [apply G; cbn; tauto|intros; cbv zeta; repeat match goal with |- returns (match ?x with _ => _ end) => destruct x end; exact I]|].
  destruct (N.eqb_spec t 209) as [->|_]; [apply returns_lift; unfold PC5QosParameters_unmarshal; apply returns_bind; [apply G; cbn; tauto|intros; cbv zeta; repeat match goal with |- returns (match ?x with _ => _ end) => destruct x end; exact I]|].
  destruct (N.eqb_spec t 210) as [->|_]; [apply returns_lift, ServicesAuthorized_safe|].
  destruct (N.eqb_spec t 211) as [->|_]; [apply returns_lift, BitRate_safe|].
  destruct (N.eqb_spec t 212) as [->|_]; [apply returns_lift; apply PC5QosFlow_tame; [exact Td|apply T212; reflexivity]|].
  destruct (N.eqb_spec t 213) as [->|_]; [apply returns_lift, SgiPtpTunnelAddress_safe; exact Td|].
  destruct (N.eqb_spec t 214) as [->|_]; [apply returns_lift; unfold PgwChangeInfo_unmarshal; apply returns_bind; [apply G; cbn; tauto|intros; cbv zeta; repeat match goal with |- returns (match ?x with _ => _ end) => destruct x end; exact I]|].
  destruct (N.eqb_spec t 215) as [->|_]; [apply returns_lift; apply PgwFqdn_tame; [exact Td|apply Tn; cbn; tauto]|].
  destruct (N.eqb_spec t 216) as [->|_]; [apply returns_lift, GroupId_safe; exact Td|].
  destruct (N.eqb_spec t 217) as [->|_]; [apply returns_lift, PSCellId_safe|].
  destruct (N.eqb_spec t 218) as [->|_]; [apply returns_lift, UpSecurityPolicy_safe|].
  destruct (N.eqb_spec t 219) as [->|_]; [apply returns_lift, AlternativeImsi_safe; exact Td|].
  destruct (N.eqb_spec t 254) as [->|_]; [apply returns_lift; apply SpecialIEWithTypeExt_tame; [exact Td|apply T254; reflexivity|apply T254; reflexivity]|].
  destruct (N.eqb_spec t 255) as [->|_]; [apply returns_lift; apply PrivateExtension_tame; [exact Td|apply T255; reflexivity]|].
  apply returns_lift, Unknown_safe; [exact Hb|exact Td].
Qed.

Lemma decoder_safe m b : (forall s, visits m b s -> tame s) -> returns (decoder m b).
Proof.
  remember (length b) as k eqn:Hk. revert b Hk. induction k as [k IH] using lt_wf_ind. intros b -> H. rewrite decoder_eq.
  assert (L : forall fuel c, (length c <= fuel)%nat -> (length c <= length b)%nat -> (forall s, visits m c s -> tame s) -> returns (ie_loop (decode_one (decoder m) m) m fuel c)).
  { induction fuel as [|f IHf]; intros [|x c] F Hc T; try exact I; [cbn in F; lia|]. cbn [ie_loop].
    assert (Tx : tame (x :: c)) by (apply T; constructor; discriminate).
    assert (R : returns (decode_one (decoder m) m (x :: c))).
    { apply returns_decode_one; [discriminate|exact Tx|]. intros Hi Hl. eapply IH; [|reflexivity|].
      - unfold value_of. rewrite firstn_length, skipn_length. cbn [length] in *. lia.
      - intros s Hs. apply T. apply visit_inside; assumption. }
    destruct (decode_one (decoder m) m (x :: c)) as [e| | |] eqn:E; try contradiction; [|exact I]. rewrite bindOk.
    assert (D := decode_one_post (decoder m) m (x :: c) e E). destruct D as [_ D]. assert (Le : ie_lenfield e <= 65531) by (rewrite D; apply Tx).
    pose proof (returns_ie_len m e Le) as RL. destruct (ie_len m e) as [n| | |] eqn:EL; try contradiction; [|exact I]. rewrite bindOk.
    pose proof (ie_len_pos m e n (or_intror Le) EL) as Pn. cbn [length] in *.
    assert (S1 : (length (skipn n (x :: c)) <= length c)%nat) by (rewrite skipn_length; cbn [length]; lia).
    apply returns_bind; [|intros; exact I]. apply IHf; [lia|lia|]. intros s Hs. apply T. eapply visit_next; eassumption. }
  apply L; [lia|lia|exact H].
Qed.
