(* V2Within.v - facts for C79: the decoders of these kinds of elements read nothing beyond the octets an element declares. *)
From Verif Require Import Base BaseFacts V2Decoder V2IeSpec V2DeclFacts V2DecMore.
Local Open Scope N_scope.

(* [own] is a whole element: four octets of header and as many as it declares; 65531 is the largest length that does not
   overflow when four are added *)
Definition whole_element (own : list N) : Prop := length own = (4 + N.to_nat (declared own))%nat /\ declared own <= 65531.
Definition kept {A} (u : list N -> res A) : Prop := forall own r1 r2 x y, whole_element own ->
  u (own ++ r1) = Ok x -> u (own ++ r2) = Ok y -> x = y.

Lemma at_own (own r : list N) i : (i < length own)%nat -> at_ (E:=GTPV2Error) (own ++ r) i = at_ own i.
Proof. intros H. unfold at_. rewrite nth_error_app1 by exact H. reflexivity. Qed.
Lemma slice_own (own r : list N) i j : (j <= length own)%nat -> slice (E:=GTPV2Error) (own ++ r) i j = slice own i j.
Proof.
  intros H. unfold slice. rewrite app_length. destruct (Nat.leb_spec i j) as [A|A]; [|reflexivity]. cbn [andb].
  rewrite (proj2 (Nat.leb_le _ _) H), (proj2 (Nat.leb_le j (length own + length r))) by lia.
  rewrite skipn_app. rewrite firstn_app, skipn_length. replace (j - i - (length own - i))%nat with O by lia. rewrite firstn_O, app_nil_r. reflexivity.
Qed.
Lemma hdr4_own {A} own r (k : N -> N -> res A) x : whole_element own -> hdr4 (own ++ r) k = Ok x -> k (declared own) (nth 3 own 0) = Ok x.
Proof.
  intros [L _] E. unfold hdr4 in E. rewrite !at_own in E by lia. unfold at_ in E.
  destruct (nth_error own 1) as [x1|] eqn:E1; [|discriminate E]. destruct (nth_error own 2) as [x2|] eqn:E2; [|discriminate E].
  destruct (nth_error own 3) as [x3|] eqn:E3; [|discriminate E]. cbn in E.
  unfold declared. rewrite (nth_error_nth _ _ 0 E1), (nth_error_nth _ _ 0 E2), (nth_error_nth _ _ 0 E3). exact E.
Qed.
Lemma need_passed {A} b n e (k : res A) x : need b n e k = Ok x -> k = Ok x.
Proof. unfold need. destruct (n <=? length b)%nat; [tauto|discriminate]. Qed.
Lemma checked_passed {A} m len b e (k : res A) x : checked m len b e k = Ok x -> k = Ok x /\ 1 <= len.
Proof.
  unfold checked, check_tliv_ie_buffer. destruct (N.eqb_spec len 0); [discriminate|]. destruct (add16 m len 4); try discriminate. cbn [bind].
  destruct (_ <=? _)%nat; [|discriminate]. intros E. split; [exact E|lia].
Qed.
Lemma end16_small m len : len <= 65531 -> end16 m len 4 = Ok (4 + N.to_nat len)%nat.
Proof. intros H. rewrite end16_ok by lia. f_equal. lia. Qed.

(* One step of two runs of the same decoder on the two inputs. *)
Ltac lock := match goal with
  | E1 : need _ _ _ _ = Ok ?x, E2 : need _ _ _ _ = Ok ?y |- ?x = ?y => apply need_passed in E1, E2
  | W : whole_element _, E1 : hdr4 _ _ = Ok ?x, E2 : hdr4 _ _ = Ok ?y |- ?x = ?y => apply hdr4_own in E1; [|exact W]; apply hdr4_own in E2; [|exact W]; cbv beta in E1, E2
  | E1 : checked _ _ _ _ _ = Ok ?x, E2 : checked _ _ _ _ _ = Ok ?y |- ?x = ?y => apply checked_passed in E1; destruct E1 as [E1 ?]; apply checked_passed in E2; destruct E2 as [E2 _]
  | E1 : bind (end16 _ _ 4) _ = Ok ?x, E2 : bind (end16 _ _ 4) _ = Ok ?y |- ?x = ?y => rewrite end16_small in E1, E2 by assumption; cbn [bind] in E1, E2
  | E1 : bind (at_ (?o ++ _) _) _ = Ok ?x, E2 : bind (at_ (?o ++ _) _) _ = Ok ?y |- ?x = ?y => rewrite at_own in E1, E2 by lia
  | E1 : bind (slice (?o ++ _) _ _) _ = Ok ?x, E2 : bind (slice (?o ++ _) _ _) _ = Ok ?y |- ?x = ?y => rewrite slice_own in E1, E2 by lia
  | E1 : bind (bind (slice (?o ++ _) _ _) _) _ = Ok ?x, E2 : bind (bind (slice (?o ++ _) _ _) _) _ = Ok ?y |- ?x = ?y => rewrite slice_own in E1, E2 by lia
  | E1 : bind (if ?a =? ?b then _ else _) _ = Ok ?x, E2 : bind (if ?a =? ?b then _ else _) _ = Ok ?y |- ?x = ?y => destruct (N.eqb_spec a b)
  | E1 : bind ?P _ = Ok ?x, E2 : bind ?P _ = Ok ?y |- ?x = ?y => destruct P; try discriminate E1; cbn [bind] in E1, E2
  | E1 : (if ?a <=? ?b then _ else _) = Ok ?x, E2 : (if ?a <=? ?b then _ else _) = Ok ?y |- ?x = ?y => destruct (N.leb_spec a b)
  | E1 : (if ?a =? ?b then _ else _) = Ok ?x, E2 : (if ?a =? ?b then _ else _) = Ok ?y |- ?x = ?y => destruct (N.eqb_spec a b)
  | E1 : (if ?c then _ else _) = Ok ?x, E2 : (if ?c then _ else _) = Ok ?y |- ?x = ?y => destruct c
  | E1 : Err _ = Ok _ |- _ => discriminate E1
  | E1 : Ok ?a = Ok ?x, E2 : Ok ?a = Ok ?y |- ?x = ?y => congruence
  end.
Ltac keep := intros own r1 r2 x y W E1 E2; match type of E1 with ?f _ _ = _ => unfold f in E1, E2 end;
  pose proof W as [L D]; unfold be_at in *; cbv zeta in E1, E2.
Lemma Imsi_kept m : kept (Imsi_unmarshal m).
Proof. keep. repeat lock. Qed.
Lemma Cause_kept m : kept (Cause_unmarshal m).
Proof. keep. repeat lock. Qed.
Lemma StnSr_kept m : kept (StnSr_unmarshal m).
Proof. keep. repeat lock. Qed.
Lemma Apn_kept m : kept (Apn_unmarshal m).
Proof. keep. repeat lock. Qed.
Lemma IpAddress_kept m : kept (IpAddress_unmarshal m).
Proof. keep. repeat lock. Qed.
Lemma Mei_kept m : kept (Mei_unmarshal m).
Proof. keep. repeat lock. Qed.
Lemma Msisdn_kept m : kept (Msisdn_unmarshal m).
Proof. keep. repeat lock. Qed.
Lemma Indication_kept m : kept (Indication_unmarshal m).
Proof. keep. repeat lock. Qed.
Lemma Pco_kept m : kept (Pco_unmarshal m).
Proof. keep. repeat lock. Qed.
Lemma PdnAddressAllocation_kept m : kept (PdnAddressAllocation_unmarshal m).
Proof. keep. repeat lock. Qed.
Lemma BearerTft_kept m : kept (BearerTft_unmarshal m).
Proof. keep. repeat lock. Qed.
Lemma TrafficAggregateDescription_kept m : kept (TrafficAggregateDescription_unmarshal m).
Proof. keep. repeat lock. Qed.
Lemma CompleteRequestMessage_kept m : kept (CompleteRequestMessage_unmarshal m).
Proof. keep. repeat lock. Qed.
Lemma Fcontainer_kept m : kept (Fcontainer_unmarshal m).
Proof. keep. repeat lock. Qed.
Lemma Fcause_kept m : kept (Fcause_unmarshal m).
Proof.
  keep. do 2 lock. destruct (N.eq_dec (declared own) 0) as [Z|Z].
  - rewrite Z in E1. destruct (at_ (own ++ r1) 4); discriminate E1.
  - repeat lock.
Qed.
Lemma SourceRncPdcpContextInfo_kept m : kept (SourceRncPdcpContextInfo_unmarshal m).
Proof. keep. repeat lock. Qed.
Lemma Fqdn_kept m : kept (Fqdn_unmarshal m).
Proof. keep. repeat lock. Qed.
Lemma Ldn_kept m : kept (Ldn_unmarshal m).
Proof. keep. repeat lock. Qed.
Lemma Apco_kept m : kept (Apco_unmarshal m).
Proof. keep. repeat lock. Qed.
Lemma ApnRelativeCapacity_kept m : kept (ApnRelativeCapacity_unmarshal m).
Proof. keep. repeat lock. Qed.
Lemma IntegerNumber_kept m : kept (IntegerNumber_unmarshal m).
Proof. keep. repeat lock. Qed.
Lemma RemoteUeIpInformation_kept m : kept (RemoteUeIpInformation_unmarshal m).
Proof. keep. repeat lock. Qed.
Lemma Epco_kept m : kept (Epco_unmarshal m).
Proof. keep. repeat lock. Qed.
Lemma PgwFqdn_kept m : kept (PgwFqdn_unmarshal m).
Proof. keep. repeat lock. Qed.
Lemma GroupId_kept m : kept (GroupId_unmarshal m).
Proof. keep. repeat lock. Qed.
Lemma AlternativeImsi_kept m : kept (AlternativeImsi_unmarshal m).
Proof. keep. repeat lock. Qed.
Lemma SpecialIEWithTypeExt_kept m : kept (SpecialIEWithTypeExt_unmarshal m).
Proof.
  keep. do 2 lock. destruct (N.le_gt_cases (declared own) 1) as [Z|Z].
  - exfalso. assert (C : declared own = 0 \/ declared own = 1) by lia. clear E2. repeat match type of E1 with bind (bind ?P _) _ = _ => destruct P; try discriminate E1; cbn [bind] in E1 | checked _ _ _ _ _ = _ => apply checked_passed in E1; destruct E1 as [E1 ?] | bind (end16 _ _ _) _ = _ => rewrite end16_small in E1 by assumption; cbn [bind] in E1 end.
    unfold slice in E1. destruct (Nat.leb_spec 6 (4 + N.to_nat (declared own))) as [Q|Q]; [lia|discriminate E1].
  - repeat lock.
Qed.
Lemma PrivateExtension_kept m : kept (PrivateExtension_unmarshal m).
Proof.
  keep. do 2 lock. destruct (N.le_gt_cases (declared own) 1) as [Z|Z].
  - exfalso. assert (C : declared own = 0 \/ declared own = 1) by lia. clear E2. repeat match type of E1 with bind (bind ?P _) _ = _ => destruct P; try discriminate E1; cbn [bind] in E1 | checked _ _ _ _ _ = _ => apply checked_passed in E1; destruct E1 as [E1 ?] | bind (end16 _ _ _) _ = _ => rewrite end16_small in E1 by assumption; cbn [bind] in E1 end.
    unfold slice in E1. destruct (Nat.leb_spec 6 (4 + N.to_nat (declared own))) as [Q|Q]; [lia|discriminate E1].
  - repeat lock.
Qed.
Lemma Unknown_kept m : kept (Unknown_unmarshal m).
Proof.
  intros own r1 r2 x y W E1 E2. unfold Unknown_unmarshal in E1, E2. pose proof W as [L D]. rewrite app_length in E1, E2.
  rewrite (proj2 (Nat.leb_le 4 _)) in E1 by lia. rewrite (proj2 (Nat.leb_le 4 _)) in E2 by lia. repeat lock.
Qed.
Lemma GroupedIe_kept dec m : kept (GroupedIe_unmarshal dec m).
Proof.
  intros own r1 r2 x y W E1 E2. unfold GroupedIe_unmarshal, MIN_IE_SIZE in E1, E2. pose proof W as [L D]. rewrite app_length in E1, E2.
  rewrite (proj2 (Nat.leb_le 4 _)) in E1 by lia. rewrite (proj2 (Nat.leb_le 4 _)) in E2 by lia. repeat lock.
Qed.
Lemma group_kept {A} dec m (f : Tliv (list ie) -> res A) : kept (fun b => bind (GroupedIe_unmarshal dec m b) f).
Proof.
  intros own r1 r2 x y W E1 E2. cbv beta in E1, E2.
  destruct (GroupedIe_unmarshal dec m (own ++ r1)) as [g1| | |] eqn:G1; try discriminate E1.
  destruct (GroupedIe_unmarshal dec m (own ++ r2)) as [g2| | |] eqn:G2; try discriminate E2.
  rewrite <- (GroupedIe_kept _ _ _ _ _ _ _ W G1 G2) in E2. congruence.
Qed.
Lemma BearerContext_kept dec m : kept (BearerContext_unmarshal dec m).
Proof. apply (group_kept dec m). Qed.
Lemma PdnConnections_kept dec m : kept (PdnConnections_unmarshal dec m).
Proof. apply (group_kept dec m). Qed.
Lemma OverloadControlInfo_kept dec m : kept (OverloadControlInfo_unmarshal dec m).
Proof. apply (group_kept dec m). Qed.
Lemma LoadControl_kept dec m : kept (LoadControl_unmarshal dec m).
Proof. apply (group_kept dec m). Qed.
Lemma RemoteUeContext_kept dec m : kept (RemoteUeContext_unmarshal dec m).
Proof. apply (group_kept dec m). Qed.
Lemma ScefPdnConnections_kept dec m : kept (ScefPdnConnections_unmarshal dec m).
Proof. apply (group_kept dec m). Qed.
Lemma V2xInformation_kept dec m : kept (V2xInformation_unmarshal dec m).
Proof. apply (group_kept dec m). Qed.
Lemma PC5QosParameters_kept dec m : kept (PC5QosParameters_unmarshal dec m).
Proof. apply (group_kept dec m). Qed.
Lemma PgwChangeInfo_kept dec m : kept (PgwChangeInfo_unmarshal dec m).
Proof. apply (group_kept dec m). Qed.
