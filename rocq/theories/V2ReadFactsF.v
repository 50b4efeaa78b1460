(* V2ReadFactsF.v - the decoders of V2IeF.v against the grammar of V2ReadSpec.v *)
From Verif Require Import BaseFacts Digits Labels V2ReadSpec Octets V2ReadFacts V2ReadFactsB V2ReadFactsC V2ReadFactsD V2ReadFactsE.
Local Open Scope N_scope.

Lemma user_digits_r f s c : (c <= length s)%nat -> simr s (user_digits f s c)
  (match if_set f counted (skipn c s) with Some (o, q) => Some (option_map number_of o, q) | None => None end).
Proof.
  intros Hc. unfold user_digits, if_set, need. destruct f; [|apply simr_ok; exact Hc]. unfold andthen.
  destruct (Nat.leb_spec (c + 1) (length s)) as [Hl|Hl].
  - destruct (lv_r s c (IEInvalidLength 192)) as [H1 H2]. destruct (lv_at s c _) as [[l k]| | |]; destruct (counted (skipn c s)) as [[l' q]|]; try contradiction H1; cbn [bind]; try (split; [exact I|discriminate]).
    destruct H1 as [<- ->]. cbn [yield option_map]. rewrite tbcd_number. apply simr_ok. exact (H2 _ _ eq_refl).
  - rewrite skipn_all2 by lia. apply simr_err.
Qed.
Lemma RemoteUserId_eq s : bytes s -> got (RemoteUserId_unmarshal Debug s) = RemoteUserId_reads s.
Proof. intros Hb. opens s. fixd 2%nat s. cbn [length Nat.leb]. set (S0 := t :: a :: b :: c :: x :: x0 :: s) in *. assert (HL : (6 <= length S0)%nat) by (unfold S0; cbn [length]; lia).
  change (@at_ GTPV2Error S0 4) with (@Ok GTPV2Error _ x). change (@at_ GTPV2Error S0 5) with (@Ok GTPV2Error _ x0). assert (Es : s = skipn 6 S0) by reflexivity. clearbody S0. cbn [bind]. unfold counted at 1, andthen at 1 2 3. cbn [take1]. rewrite Es. clear Es.
  rewrite take_skipn by exact HL. destruct (Nat.leb_spec (6 + N.to_nat x0) (length S0)) as [Hl|Hl].
  2: { unfold slice. rewrite (proj2 (Nat.leb_gt (6 + N.to_nat x0) (length S0))) by lia. rewrite andb_false_r. reflexivity. }
  rewrite slice_ok by lia. cbn [bind]. replace (6 + N.to_nat x0 - 6)%nat with (N.to_nat x0) by lia. bits. rewrite tbcd_number.
  unfold andthen at 1. destruct (user_digits_r (bit_at x 0) S0 (6 + N.to_nat x0) Hl) as [H1 H2].
  destruct (user_digits _ S0 (6 + N.to_nat x0)) as [[ms k]| | |]; destruct (if_set (bit_at x 0) counted _) as [[m q]|]; try contradiction H1; cbn [bind]; try reflexivity. destruct H1 as [<- ->]. specialize (H2 _ _ eq_refl).
  unfold andthen at 1. destruct (user_digits_r (bit_at x 1) S0 k H2) as [H3 _].
  destruct (user_digits _ S0 k) as [[im k2]| | |]; destruct (if_set (bit_at x 1) counted _) as [[m2 q2]|]; try contradiction H3; cbn [bind]; try reflexivity. destruct H3 as [<- _]. reflexivity. Qed.
Lemma RfspIndex_eq s : bytes s -> got (RfspIndex_unmarshal Debug s) = RfspIndex_reads s.
Proof. intros Hb. open_ 2%nat s. Qed.
Lemma S103pdf_eq s : bytes s -> got (S103pdf_unmarshal Debug s) = S103pdf_reads s.
Proof. intros Hb. loosen s. destruct (fits _ _) eqn:Hf; [|reflexivity]. destruct s as [|x s]; [reflexivity|]. cbn [length].
  set (S0 := t :: a :: b :: c :: x :: s) in *. change (S (S (S (S (S (length s))))))%nat with (length S0). assert (HL : (4 < length S0)%nat) by (unfold S0; cbn [length]; lia). change (x :: s) with (skipn 4 S0). assert (En : nth_error S0 4 = Some x) by reflexivity.
  clearbody S0. unfold at_ at 1. rewrite En. cbn [bind]. unfold andthen at 1. rewrite counted_address_at, En. destruct (x =? 4); [|destruct (x =? 16); [|reflexivity]]; rewrite take_skipn by lia.
  - change (5 + 4)%nat with 9%nat. destruct (Nat.leb_spec 9 (length S0)) as [H9|H9].
    + rewrite slice_ok by lia. cbn [bind option_map]. apply step_be; [lia|]. intros L1. change (9 + 4)%nat with 13%nat. unfold counted. unfold andthen. unfold at_. destruct (nth_error S0 13) as [n|] eqn:E13; [|rewrite (skipn_none _ _ E13); reflexivity].
      rewrite (skipn_cons _ _ _ E13). cbn [bind take1]. assert (13 < length S0)%nat by (apply nth_error_Some; congruence). rewrite take_skipn by lia. rewrite got_need. change (S 13 + N.to_nat n)%nat with (14 + N.to_nat n)%nat.
      destruct (Nat.leb_spec (14 + N.to_nat n) (length S0)); [|reflexivity]. rewrite slice_ok by lia. replace (14 + N.to_nat n - 14)%nat with (N.to_nat n) by lia. reflexivity.
    + unfold slice at 1. rewrite (proj2 (Nat.leb_gt 9 (length S0))) by lia. reflexivity.
  - change (5 + 16)%nat with 21%nat. rewrite got_need. destruct (Nat.leb_spec 21 (length S0)) as [H9|H9].
    + cbn [option_map]. destruct (Nat.leb_spec 25 (length S0)) as [H25|H25].
      * rewrite slice_ok by lia. cbn [bind]. apply step_be; [lia|]. intros L1. change (21 + 4)%nat with 25%nat. unfold counted. unfold andthen. unfold at_. destruct (nth_error S0 25) as [n|] eqn:E13; [|rewrite (skipn_none _ _ E13); reflexivity].
        rewrite (skipn_cons _ _ _ E13). cbn [bind take1]. assert (25 < length S0)%nat by (apply nth_error_Some; congruence). rewrite take_skipn by lia. rewrite got_need. change (S 25 + N.to_nat n)%nat with (26 + N.to_nat n)%nat.
        destruct (Nat.leb_spec (26 + N.to_nat n) (length S0)).
        -- rewrite (proj2 (Nat.leb_le _ _)) by lia. rewrite slice_ok by lia. replace (26 + N.to_nat n - 26)%nat with (N.to_nat n) by lia. reflexivity.
        -- unfold slice. rewrite (proj2 (Nat.leb_gt (26 + N.to_nat n) (length S0))) by lia. rewrite andb_false_r. destruct (_ <=? _)%nat; reflexivity.
      * unfold number, andthen. rewrite take_skipn by lia. rewrite (proj2 (Nat.leb_gt _ _)) by lia. reflexivity.
    + rewrite (proj2 (Nat.leb_gt _ _)) by lia. reflexivity. Qed.
Lemma S1udf_eq s : bytes s -> got (S1udf_unmarshal Debug s) = S1udf_reads s.
Proof. intros Hb. loosen s. destruct (fits _ _) eqn:Hf; [|reflexivity]. destruct s as [|e s]; [reflexivity|]. destruct s as [|x s]; [reflexivity|]. cbn [length].
  set (S0 := t :: a :: b :: c :: e :: x :: s) in *. change (S (S (S (S (S (S (length s)))))))%nat with (length S0). assert (HL : (5 < length S0)%nat) by (unfold S0; cbn [length]; lia). assert (En : nth_error S0 5 = Some x) by reflexivity. assert (E4 : nth_error S0 4 = Some e) by reflexivity.
  assert (Es : x :: s = skipn 5 S0) by reflexivity. clearbody S0. unfold at_. rewrite E4, En. cbn [bind]. unfold andthen at 1. cbn [take1]. rewrite Es. unfold andthen at 1. rewrite counted_address_at, En, land15. destruct (x =? 4); [|destruct (x =? 16); [|reflexivity]]; rewrite take_skipn by lia.
  - change (6 + 4)%nat with 10%nat. destruct (Nat.leb_spec 10 (length S0)) as [H9|H9].
    + rewrite slice_ok by lia. cbn [bind option_map]. apply step_be; [lia|]. intros L1. reflexivity.
    + unfold slice at 1. rewrite (proj2 (Nat.leb_gt 10 (length S0))) by lia. reflexivity.
  - change (6 + 16)%nat with 22%nat. rewrite got_need. destruct (Nat.leb_spec 22 (length S0)) as [H9|H9]; [|reflexivity].
    rewrite slice_ok by lia. cbn [bind option_map]. apply step_be; [lia|]. intros L1. reflexivity. Qed.
Lemma SecondaryRatUsageDataReport_eq s : bytes s -> got (SecondaryRatUsageDataReport_unmarshal Debug s) = SecondaryRatUsageDataReport_reads s.
Proof. intros Hb. opens s. fixd 27%nat s. cbn [length Nat.leb].
  set (S0 := t :: a :: b :: c :: x :: x0 :: x1 :: x2 :: x3 :: x4 :: x5 :: x6 :: x7 :: x8 :: x9 :: x10 :: x11 :: x12 :: x13 :: x14 :: x15 :: x16 :: x17 :: x18 :: x19 :: x20 :: x21 :: x22 :: x23 :: x24 :: x25 :: s) in *.
  change (@at_ GTPV2Error S0 4) with (@Ok GTPV2Error _ x). change (@at_ GTPV2Error S0 5) with (@Ok GTPV2Error _ x0). change (@at_ GTPV2Error S0 6) with (@Ok GTPV2Error _ x1). unfold be_at.
  change (@slice GTPV2Error S0 7 (7 + 4)) with (@Ok GTPV2Error _ [x2; x3; x4; x5]). change (@slice GTPV2Error S0 11 (11 + 4)) with (@Ok GTPV2Error _ [x6; x7; x8; x9]).
  change (@slice GTPV2Error S0 15 (15 + 8)) with (@Ok GTPV2Error _ [x10; x11; x12; x13; x14; x15; x16; x17]). change (@slice GTPV2Error S0 23 (23 + 8)) with (@Ok GTPV2Error _ [x18; x19; x20; x21; x22; x23; x24; x25]).
  cbn [bind]. rewrite !be_list_base, land15. bits. unfold andthen at 1 2 3. cbn [take1]. unfold andthen at 1, number at 1, andthen at 1, take at 1. cbn [length Nat.leb firstn skipn yield]. unfold andthen at 1, number at 1, andthen at 1, take at 1. cbn [length Nat.leb firstn skipn yield].
  unfold andthen at 1, number at 1, andthen at 1, take at 1. cbn [length Nat.leb firstn skipn yield]. unfold andthen at 1, number at 1, andthen at 1, take at 1. cbn [length Nat.leb firstn skipn yield].
  unfold if_set. destruct (bit_at x 2); [|reflexivity]. unfold need. destruct s as [|x26 s]; [reflexivity|]. change (32 <=? length S0)%nat with true. cbv iota. change (x26 :: s) with (skipn 31 S0).
  unfold andthen at 1 2. destruct (lv_r S0 31 (IEIncorrect 201)) as [H1 _]. destruct (lv_at S0 31 _) as [[l k]| | |]; destruct (counted (skipn 31 S0)) as [[l' q]|]; try contradiction H1; cbn [bind]; try reflexivity. destruct H1 as [<- _]. reflexivity. Qed.
Lemma SelectionMode_eq s : bytes s -> got (SelectionMode_unmarshal Debug s) = SelectionMode_reads s.
Proof. intros Hb. open_ 1%nat s. Qed.
Lemma ServiceIndicator_eq s : bytes s -> got (ServiceIndicator_unmarshal Debug s) = ServiceIndicator_reads s.
Proof. intros Hb. open_ 1%nat s. bys Hb. do 2 f_equal. per_octet x. Qed.

Lemma bool_of_got x e r : got (bool_of x e) = option_map fst (yes_no (x :: r)).
Proof. unfold bool_of, yes_no, andthen, accept. cbn [take1]. destruct (N.eqb_spec x 0) as [->|]; [reflexivity|]. destruct (N.eqb_spec x 1) as [->|]; [reflexivity|]. destruct (N.ltb_spec x 2); [lia|reflexivity]. Qed.
Lemma ServicesAuthorized_eq s : bytes s -> got (ServicesAuthorized_unmarshal Debug s) = ServicesAuthorized_reads s.
Proof. intros Hb. opens s. destruct s as [|x [|x0 s]]; [reflexivity|cbn [length Nat.leb]; unfold yes_no, andthen, accept; cbn [take1]; destruct (x <? 2); reflexivity|]. cbn [length Nat.leb]. unfold at_. cbn [nth_error bind]. rewrite got_bind, (bool_of_got x _ (x0 :: s)). unfold yes_no, andthen, accept. cbn [take1]. destruct (x <? 2); [|reflexivity]. cbn [yield option_map fst take1].
  rewrite got_bind, (bool_of_got x0 _ s). unfold yes_no, andthen, accept. cbn [take1]. destruct (x0 <? 2); reflexivity. Qed.
Lemma ServingNetwork_eq s : bytes s -> got (ServingNetwork_unmarshal Debug s) = ServingNetwork_reads s.
Proof. intros Hb. opens s. fixd 3%nat s. cbn [length Nat.leb]. rewrite plmn_at4. reflexivity. Qed.
Lemma ServingPlmnRateControl_eq s : bytes s -> got (ServingPlmnRateControl_unmarshal Debug s) = ServingPlmnRateControl_reads s.
Proof. intros Hb. open_ 4%nat s. Qed.
Lemma SgiPtpTunnelAddress_eq s : bytes s -> got (SgiPtpTunnelAddress_unmarshal Debug s) = SgiPtpTunnelAddress_reads s.
Proof. intros Hb. loosen s. destruct s as [|x s]; [destruct (fits _ _); reflexivity|]. cbn [length Nat.leb]. rewrite ?got_hdr4, ?got_checked. destruct (fits _ _) eqn:Hf; [|reflexivity].
  unfold at_. cbn [nth_error bind]. rewrite land3. bits. unfold andthen at 1. cbn [take1]. set (S0 := t :: a :: b :: c :: x :: s) in *. change (S (S (S (S (S (length s))))))%nat with (length S0). assert (HL : (5 <= length S0)%nat) by (unfold S0; cbn [length]; lia). assert (Es : s = skipn 5 S0) by reflexivity. clearbody S0. rewrite Es. clear Es.
  unfold andthen at 1. destruct (x mod 4 =? 1); [|destruct (x mod 4 =? 2); [|reflexivity]]; rewrite got_need; unfold andthen at 1; rewrite take_skipn by exact HL.
  - change (5 + 4)%nat with 9%nat. destruct (Nat.leb_spec 9 (length S0)) as [H9|]; [|reflexivity]. rewrite slice_ok by lia. cbn [bind yield]. eapply step_r; [apply opt_be_r; exact H9|]. intros; reflexivity.
  - change (5 + 16)%nat with 21%nat. destruct (Nat.leb_spec 21 (length S0)) as [H9|]; [|reflexivity]. rewrite slice_ok by lia. cbn [bind yield]. eapply step_r; [apply opt_be_r; exact H9|]. intros; reflexivity. Qed.

(* a decoder of the front of a list *)
Definition reads {A} (dec : list N -> res A) (p : reader A) : Prop := forall s, bytes s -> got (dec s) = option_map fst (p s).
Lemma parses_reads {A} (dec : list N -> res A) size p : parses dec size p -> reads dec p.
Proof. intros H s Hs. specialize (H s Hs). destruct (p s) as [[x r]|]; [destruct H as (-> & _); reflexivity|exact H]. Qed.
Lemma got_orelse {A} (r : res A) e : got (orelse r e) = got r.
Proof. destruct r; reflexivity. Qed.
Ltac whole := cbv beta iota zeta delta [option_map fst plmn_ Cgi_ Sai_ Rai_ Tai_ Ecgi_ Lai_ Macro_ ExtMacro_ Cell_ andthen take1 take number yield length Nat.leb firstn skipn accept].
Ltac rd n s := intros s Hb; fixd n s.
Lemma Cell_parses : parses CellIdentifier_dec (fun _ => 8%nat) Cell_.
Proof. part 8%nat s. part_end. unfold CellIdentifier_dec. rewrite plmn_at0. run. arith. reflexivity. Qed.
Lemma SourceRnc_reads : reads SourceRncIdentifier_dec SourceRnc_.
Proof.
  rd 5%nat s. unfold SourceRncIdentifier_dec. rewrite !plmn_at0. destruct s as [|y [|z s]]; [run; arith; reflexivity|reflexivity|]. run. arith. reflexivity.
Qed.
Lemma Rnc_reads : reads RncIdentifier_dec Rnc_.
Proof.
  rd 8%nat s. unfold RncIdentifier_dec. change (@slice GTPV2Error (x :: x0 :: x1 :: x2 :: x3 :: x4 :: x5 :: x6 :: s) 0 6) with (@Ok GTPV2Error _ [x; x0; x1; x2; x3; x4]). cbn [bind].
  assert (Hc : bytes [x; x0; x1; x2; x3; x4]) by (bys Hb; repeat constructor; assumption). pose proof (Rai_parses _ Hc) as H. cbv beta iota zeta delta [plmn_ Rai_ andthen take1 take number yield length Nat.leb firstn skipn] in H. destruct H as (-> & _). cbn [orelse bind].
  destruct s as [|y [|z s]]; run; arith; reflexivity.
Qed.
Lemma MacroTac_reads : reads MacroEnbIdentifier_dec MacroTac_.
Proof.
  rd 8%nat s. unfold MacroEnbIdentifier_dec. change (@slice GTPV2Error (x :: x0 :: x1 :: x2 :: x3 :: x4 :: x5 :: x6 :: s) 0 6) with (@Ok GTPV2Error _ [x; x0; x1; x2; x3; x4]). cbn [bind].
  assert (Hc : bytes [x; x0; x1; x2; x3; x4]) by (bys Hb; repeat constructor; assumption). pose proof (Macro_parses _ Hc) as H. cbv beta iota zeta delta [plmn_ Macro_ andthen take1 take number yield length Nat.leb firstn skipn] in H. destruct H as (-> & _). cbn [orelse bind].
  run; arith; reflexivity.
Qed.
Lemma ExtTac_reads : reads ExtendedMacroEnbIdentifier_dec ExtTac_.
Proof.
  rd 8%nat s. unfold ExtendedMacroEnbIdentifier_dec. change (@slice GTPV2Error (x :: x0 :: x1 :: x2 :: x3 :: x4 :: x5 :: x6 :: s) 0 6) with (@Ok GTPV2Error _ [x; x0; x1; x2; x3; x4]). cbn [bind].
  assert (Hc : bytes [x; x0; x1; x2; x3; x4]) by (bys Hb; repeat constructor; assumption). pose proof (ExtMacro_parses _ Hc) as H. cbv beta iota zeta delta [plmn_ ExtMacro_ andthen take1 take number yield length Nat.leb firstn skipn] in H. destruct H as (-> & _). cbn [orelse bind].
  run; arith; reflexivity.
Qed.
Lemma MacroNg_reads : reads MacronGeNbIdentifier_dec MacroNg_.
Proof.
  rd 9%nat s. unfold MacronGeNbIdentifier_dec. change (@slice GTPV2Error (x :: x0 :: x1 :: x2 :: x3 :: x4 :: x5 :: x6 :: x7 :: s) 0 6) with (@Ok GTPV2Error _ [x; x0; x1; x2; x3; x4]). cbn [bind].
  assert (Hc : bytes [x; x0; x1; x2; x3; x4]) by (bys Hb; repeat constructor; assumption). pose proof (Macro_parses _ Hc) as H. cbv beta iota zeta delta [plmn_ Macro_ andthen take1 take number yield length Nat.leb firstn skipn] in H. destruct H as (-> & _). cbn [orelse bind].
  run; arith; reflexivity.
Qed.
Lemma ExtNg_reads : reads ExtendedGeNbIdentifier_dec ExtNg_.
Proof.
  rd 9%nat s. unfold ExtendedGeNbIdentifier_dec. change (@slice GTPV2Error (x :: x0 :: x1 :: x2 :: x3 :: x4 :: x5 :: x6 :: x7 :: s) 0 6) with (@Ok GTPV2Error _ [x; x0; x1; x2; x3; x4]). cbn [bind].
  assert (Hc : bytes [x; x0; x1; x2; x3; x4]) by (bys Hb; repeat constructor; assumption). pose proof (ExtMacro_parses _ Hc) as H. cbv beta iota zeta delta [plmn_ ExtMacro_ andthen take1 take number yield length Nat.leb firstn skipn] in H. destruct H as (-> & _). cbn [orelse bind].
  run; arith; reflexivity.
Qed.
Lemma Gnb_reads : reads GNbIdentifier_dec Gnb_.
Proof. rd 11%nat s. unfold GNbIdentifier_dec. rewrite plmn_at0. run. arith. reflexivity. Qed.
Lemma EnGnb_reads : reads EnGNbIdentifier_dec EnGnb_.
Proof.
  rd 8%nat s. unfold EnGNbIdentifier_dec. rewrite plmn_at0. run. arith. bits. cbv beta iota zeta delta [plmn_ EnGnb_ andthen take1 take number yield length Nat.leb firstn skipn accept].
  destruct (bit_at x2 6); [|reflexivity]. destruct s as [|y [|z s]]; [destruct (bit_at x2 7); reflexivity|destruct (bit_at x2 7); reflexivity|]. run. destruct (bit_at x2 7); [|reflexivity]. do 3 (destruct s; [reflexivity|]). run. arith. reflexivity.
Qed.
Lemma SourceIdentification_eq s : bytes s -> got (SourceIdentification_unmarshal Debug s) = SourceIdentification_reads s.
Proof. intros Hb. opens s. fixd 9%nat s. cbn [length Nat.leb]. change (@slice GTPV2Error (t :: a :: b :: c :: x :: x0 :: x1 :: x2 :: x3 :: x4 :: x5 :: x6 :: x7 :: s) 4 12) with (@Ok GTPV2Error _ [x; x0; x1; x2; x3; x4; x5; x6]). cbn [bind].
  assert (Hc : bytes [x; x0; x1; x2; x3; x4; x5; x6]) by (bys Hb; repeat constructor; assumption). pose proof (Cell_parses _ Hc) as H. cbv beta iota zeta delta [plmn_ Cell_ andthen take1 take number yield length Nat.leb firstn skipn] in H. destruct H as (-> & _). cbn [orelse bind].
  change (@slice_from GTPV2Error (t :: a :: b :: c :: x :: x0 :: x1 :: x2 :: x3 :: x4 :: x5 :: x6 :: x7 :: s) 12) with (@Ok GTPV2Error _ (x7 :: s)). cbn [bind]. rewrite got_bind, got_orelse. assert (Hs : bytes s) by (bys Hb; exact Hb).
  assert (HC : Cell_ (x :: x0 :: x1 :: x2 :: x3 :: x4 :: x5 :: x6 :: x7 :: s) = Some ({| ce_plmn := plmn_of x x0 x1; ce_lac := base256 [x2; x3]; ce_rac := x4; ce_ci := base256 [x5; x6] |}, x7 :: s)) by reflexivity. unfold andthen at 1. rewrite HC. clear HC.
  unfold andthen at 1. cbn [take1]. unfold source_type_dec. change (@at_ GTPV2Error (x7 :: s) 0) with (@Ok GTPV2Error _ x7). change (@slice_from GTPV2Error (x7 :: s) 1) with (@Ok GTPV2Error _ s). cbn [bind]. unfold andthen at 1.
  destruct (x7 =? 0); [|destruct (x7 =? 1); [|reflexivity]]; rewrite got_bind, got_orelse; unfold andthen at 1.
  - rewrite (parses_reads _ _ _ Cell_parses s Hs). destruct (Cell_ s) as [[v q]|]; reflexivity.
  - rewrite (SourceRnc_reads s Hs). destruct (SourceRnc_ s) as [[v q]|]; reflexivity. Qed.
Lemma SpecialIEWithTypeExt_eq s : bytes s -> got (SpecialIEWithTypeExt_unmarshal Debug s) = SpecialIEWithTypeExt_reads s.
Proof. intros Hb. unf; hd s. rewrite got_need. unfold checked_, element. cbn [length]. destruct s as [|x s]; [cbn [length Nat.leb]; destruct (fits _ _) eqn:Hf; [apply fits_inv in Hf; cbn in Hf; lia|reflexivity]|]. cbn [length Nat.leb]. rewrite got_hdr4.
  destruct s as [|y s].
  { destruct (fits _ _) eqn:Hf; [|reflexivity]. apply fits_inv in Hf as [_ Hl]. cbn [length] in Hl. unfold andthen at 1, accept. destruct (N.leb_spec 2 (256 * a + b)); [lia|reflexivity]. }
  unfold be_at. change (@slice GTPV2Error (t :: a :: b :: c :: x :: y :: s) 4 (4 + 2)) with (@Ok GTPV2Error _ [x; y]). cbn [bind]. rewrite be_list_base, got_checked. destruct (fits _ _) eqn:Hf; [|reflexivity]. apply fits_inv in Hf as [Hr Hl]. cbn [length] in Hl.
  unfold andthen at 1, accept. destruct (N.leb_spec 2 (256 * a + b)).
  - rewrite slice_ok by (cbn [length]; lia). cbn [bind got]. unfold andthen, number, andthen, take. cbn [length Nat.leb firstn skipn yield]. rewrite (proj2 (Nat.leb_le _ _)) by lia.
    unfold std. rewrite land15. replace (4 + N.to_nat (256 * a + b) - 6)%nat with (N.to_nat (256 * a + b) - 2)%nat by lia. reflexivity.
  - unfold slice. rewrite (proj2 (Nat.leb_gt 6 (4 + N.to_nat (256 * a + b)))) by lia. reflexivity. Qed.
Lemma Spi_eq s : bytes s -> got (Spi_unmarshal Debug s) = Spi_reads s.
Proof. intros Hb. opens s. fixd 1%nat s. cbn [length Nat.leb]. unfold at_. cbn [nth_error bind]. rewrite got_bind, (bool_of_got x _ s). destruct (yes_no (x :: s)) as [[v q]|]; reflexivity. Qed.
Lemma Sqn_eq s : bytes s -> got (Sqn_unmarshal Debug s) = Sqn_reads s.
Proof. intros Hb. open_ 4%nat s. Qed.
Lemma SourceRncPdcpContextInfo_eq s : bytes s -> got (SourceRncPdcpContextInfo_unmarshal Debug s) = SourceRncPdcpContextInfo_reads s.
Proof. intros Hb. closes s. destruct (fits _ _) eqn:Hf; [|reflexivity]. pose proof (fits_inv _ _ Hf). unfold end16. rewrite (end16_fits _ _ Hf). cbn [bind]. rewrite ?slice4 by lia. reflexivity. Qed.
Lemma SrvccCause_eq s : bytes s -> got (SrvccCause_unmarshal Debug s) = SrvccCause_reads s.
Proof. intros Hb. open_ 1%nat s. bys Hb. do 2 f_equal. per_octet x. Qed.
Lemma StnSr_eq s : bytes s -> got (StnSr_unmarshal Debug s) = StnSr_reads s.
Proof. intros Hb. closes s. destruct s as [|x s]; [cbn [length Nat.leb]; destruct (fits _ _) eqn:Hf; [apply fits_inv in Hf; cbn in Hf; lia|reflexivity]|]. destruct (fits _ _) eqn:Hf; [|reflexivity]. unfold end16. rewrite (end16_fits _ _ Hf). apply fits_inv in Hf as [Hr Hl]. cbn [length] in Hl.
  unfold at_. cbn [nth_error bind]. rewrite slice5 by (cbn [length]; lia). cbn [bind got]. destruct (N.to_nat (256 * a + b)) as [|n] eqn:En; [lia|]. cbn [firstn Nat.sub option_map]. rewrite Nat.sub_0_r, tbcd_number. reflexivity. Qed.
Lemma TrafficAggregateDescription_eq s : bytes s -> got (TrafficAggregateDescription_unmarshal Debug s) = TrafficAggregateDescription_reads s.
Proof. intros Hb. closes s. destruct (fits _ _) eqn:Hf; [|reflexivity]. pose proof (fits_inv _ _ Hf). rewrite ?slice4 by lia. reflexivity. Qed.
Lemma TargetIdentification_eq s : bytes s -> got (TargetIdentification_unmarshal Debug s) = TargetIdentification_reads s.
Proof. intros Hb. opens s. destruct s as [|x s]; [reflexivity|]. cbn [length Nat.leb]. assert (Hs : bytes s) by (bys Hb; exact Hb). assert (Hx : byte x) by (bys Hb; assumption). change (@slice_from GTPV2Error (t :: a :: b :: c :: x :: s) 4) with (@Ok GTPV2Error _ (x :: s)). cbn [bind].
  rewrite got_bind, got_orelse. unfold target_type_dec. change (@at_ GTPV2Error (x :: s) 0) with (@Ok GTPV2Error _ x). change (@slice_from GTPV2Error (x :: s) 1) with (@Ok GTPV2Error _ s). cbn [bind]. unfold andthen at 1. cbn [take1].
  destruct (N.eqb_spec x 0) as [->|]; [|destruct (N.eqb_spec x 1) as [->|]; [|destruct (N.eqb_spec x 2) as [->|]; [|destruct (N.eqb_spec x 3) as [->|]; [|destruct (N.eqb_spec x 4) as [->|]; [|destruct (N.eqb_spec x 5) as [->|]; [|destruct (N.eqb_spec x 6) as [->|]; [|destruct (N.eqb_spec x 7) as [->|]; [|destruct (N.eqb_spec x 8) as [->|]]]]]]]]].
  10: { unfold entry. rewrite nth_overflow by (cbn [length]; lia). reflexivity. }
  all: unfold tt_of; rewrite got_bind, got_orelse; unfold entry; match goal with |- context [nth (N.to_nat ?n) ?l _] => let v := eval compute in (N.to_nat n) in change (N.to_nat n) with v end; cbn [nth]; unfold as_, andthen at 1.
  - rewrite (Rnc_reads s Hs). destruct (Rnc_ s) as [[v q]|]; reflexivity.
  - rewrite (MacroTac_reads s Hs). destruct (MacroTac_ s) as [[v q]|]; reflexivity.
  - rewrite (parses_reads _ _ _ Cell_parses s Hs). destruct (Cell_ s) as [[v q]|]; reflexivity.
  - rewrite (MacroTac_reads s Hs). destruct (MacroTac_ s) as [[v q]|]; reflexivity.
  - rewrite (ExtTac_reads s Hs). destruct (ExtTac_ s) as [[v q]|]; reflexivity.
  - rewrite (Gnb_reads s Hs). destruct (Gnb_ s) as [[v q]|]; reflexivity.
  - rewrite (MacroNg_reads s Hs). destruct (MacroNg_ s) as [[v q]|]; reflexivity.
  - rewrite (ExtNg_reads s Hs). destruct (ExtNg_ s) as [[v q]|]; reflexivity.
  - rewrite (EnGnb_reads s Hs). destruct (EnGnb_ s) as [[v q]|]; reflexivity. Qed.
Lemma Throttling_eq s : bytes s -> got (Throttling_unmarshal Debug s) = Throttling_reads s.
Proof. intros Hb. opens s. fixd 2%nat s. cbn [length Nat.leb]. unfold at_. cbn [nth_error bind]. unfold andthen. cbn [take1 yield got wrap]. bys Hb. do 2 f_equal. rewrite land31.
  replace (if N.shiftr x 5 <? 5 then N.shiftr x 5 else if N.shiftr x 5 =? 7 then 0 else 1) with (entry (x / 32) [0; 1; 2; 3; 4; 1; 1; 0] 0) by (per_octet x).
  replace (if x0 <? 101 then x0 else 0) with (at_most_100 x0) by (per_octet x0). reflexivity. Qed.
Lemma Tmgi_eq s : bytes s -> got (Tmgi_unmarshal Debug s) = Tmgi_reads s.
Proof. intros Hb. open_ 6%nat s. Qed.
Lemma Tmsi_eq s : bytes s -> got (Tmsi_unmarshal Debug s) = Tmsi_reads s.
Proof. intros Hb. open_ 4%nat s. Qed.
Lemma TraceInformation_eq s : bytes s -> got (TraceInformation_unmarshal Debug s) = TraceInformation_reads s.
Proof. intros Hb. opens s. fixd 34%nat s. cbn [length Nat.leb]. rewrite plmn_at4. run. arith. reflexivity. Qed.
Lemma TraceReference_eq s : bytes s -> got (TraceReference_unmarshal Debug s) = TraceReference_reads s.
Proof. intros Hb. opens s. fixd 6%nat s. cbn [length Nat.leb]. rewrite plmn_at4. run. arith. reflexivity. Qed.
Lemma TransactionIdentifier_eq s : bytes s -> got (TransactionIdentifier_unmarshal Debug s) = TransactionIdentifier_reads s.
Proof. intros Hb. unf; hd s. rewrite got_need. destruct s as [|x s]; [reflexivity|]. cbn [length Nat.leb]. rewrite got_hdr4. unfold element, at_. cbn [nth_error bind]. bys Hb. rewrite top_flag by assumption. rewrite land7, shiftr4.
  unfold andthen at 1. cbn [take1]. destruct (1 <? 256 * a + b); [|cbn [got yield]; unfold std; rewrite land15; reflexivity]. destruct s as [|y s]; [reflexivity|]. cbn [nth_error bind got need length Nat.leb]. unfold octet_as, andthen. cbn [take1 yield]. unfold std. rewrite land15. reflexivity. Qed.

Lemma lv_raw_r s c : simr s (lv_raw s c) (counted (skipn c s)).
Proof.
  unfold lv_raw, counted, andthen, at_. destruct (nth_error s c) as [n|] eqn:E; [|rewrite (skipn_none _ _ E); apply simr_panic].
  rewrite (skipn_cons _ _ _ E). cbn [bind take1]. assert (c < length s)%nat by (apply nth_error_Some; congruence). rewrite take_skipn by lia.
  rewrite (Nat.add_1_r c). destruct (Nat.leb_spec (S c + N.to_nat n) (length s)) as [Hl|Hl].
  - rewrite slice_ok by lia. cbn [bind]. replace (S c + N.to_nat n - S c)%nat with (N.to_nat n) by lia. apply simr_ok. exact Hl.
  - unfold slice. rewrite (proj2 (Nat.leb_gt (S c + N.to_nat n) (length s))) by lia. rewrite andb_false_r. apply simr_panic.
Qed.
Lemma TwanId_eq s : bytes s -> got (TwanId_unmarshal Debug s) = TwanId_reads s.
Proof. intros Hb. opens s. fixd 2%nat s. cbn [length Nat.leb]. set (S0 := t :: a :: b :: c :: x :: x0 :: s) in *. change (S (S (S (S (S (S (length s))))))) with (length S0). assert (E4 : nth_error S0 4 = Some x) by reflexivity. change (x0 :: s) with (skipn 5 S0) at 1.
  assert (Es : x0 :: s = skipn 5 S0) by reflexivity. clearbody S0. unfold at_ at 1. rewrite E4. cbn [bind]. unfold andthen at 1. cbn [take1]. rewrite ?Es. bits.
  eapply step_r; [apply lv_raw_r|]. intros ssid k1 H1.
  eapply (step_r S0).
  { unfold if_set. destruct (bit_at x 0); [|apply simr_ok; exact H1]. unfold andthen. rewrite take_skipn by exact H1. destruct (Nat.leb_spec (k1 + 6) (length S0)) as [Hl|Hl].
    - rewrite slice_ok by lia. cbn [bind yield]. replace (k1 + 6 - k1)%nat with 6%nat by lia. apply simr_ok. exact Hl.
    - unfold slice. rewrite (proj2 (Nat.leb_gt (k1 + 6) (length S0))) by lia. rewrite andb_false_r. apply simr_panic. }
  intros bs k2 H2. eapply (step_r S0).
  { unfold if_set. destruct (bit_at x 1); [|apply simr_ok; exact H2]. rewrite (proj2 (Nat.leb_le _ _)) by exact H2. eapply step_r'; [apply lv_raw_r|]. intros v k Hk. apply simr_ok. exact Hk. }
  intros cv k3 H3. eapply (step_r S0).
  { unfold if_set. destruct (bit_at x 2); [|apply simr_ok; exact H3]. assert (HH : length (skipn k3 S0) = (length S0 - k3)%nat) by apply skipn_length. unfold plmn_, andthen.
    destruct (skipn k3 S0) as [|p1 [|p2 [|p3 r]]] eqn:Ek; cbn [length] in HH; try (unfold plmn_at, slice; rewrite (proj2 (Nat.leb_gt (k3 + 3) (length S0))) by lia; rewrite andb_false_r; apply simr_panic).
    rewrite (plmn_at_skip S0 k3 p1 p2 p3 r Ek). cbn [bind take1 yield]. replace r with (skipn (k3 + 3) S0) by (rewrite <- skipn_skipn', Ek; reflexivity). apply simr_ok. lia. }
  intros pl k4 H4. eapply (step_r S0).
  { unfold if_set. destruct (bit_at x 3); [|apply simr_ok; exact H4]. rewrite (proj2 (Nat.leb_le _ _)) by exact H4. unfold utf8_, andthen. destruct (lv_raw_r S0 k4) as [R1 R2].
    destruct (lv_raw S0 k4) as [[l k]| | |]; destruct (counted (skipn k4 S0)) as [[l' q]|]; try contradiction R1; cbn [bind]; try (split; [exact I|discriminate]). destruct R1 as [<- ->]. specialize (R2 _ _ eq_refl). unfold utf8_or.
    destruct (utf8_strict l); [cbn [bind yield]; apply simr_ok; exact R2|apply simr_err]. }
  intros nm k5 H5. unfold if_set. destruct (bit_at x 4); [|reflexivity]. unfold andthen at 1 2 3 4. destruct (Nat.ltb_spec k5 (length S0)) as [Hl|Hl]; [|rewrite skipn_all2 by exact Hl; reflexivity].
  unfold at_ at 1. destruct (nth_error S0 k5) as [i|] eqn:Ei; [|rewrite (skipn_none _ _ Ei); reflexivity]. rewrite (skipn_cons _ _ _ Ei). cbn [bind take1]. rewrite (Nat.add_1_r k5).
  destruct (lv_r S0 (S k5) (IEInvalidLength 169)) as [R1 R2]. destruct (lv_at S0 (S k5) _) as [[d k6]| | |]; destruct (counted (skipn (S k5) S0)) as [[d' q]|]; try contradiction R1; cbn [bind]; try reflexivity. destruct R1 as [<- ->]. specialize (R2 _ _ eq_refl).
  rewrite (proj2 (Nat.leb_le _ _)) by exact R2. unfold andthen at 1. destruct (lv_r S0 k6 (IEInvalidLength 169)) as [R3 _]. destruct (lv_at S0 k6 _) as [[e k7]| | |]; destruct (counted (skipn k6 S0)) as [[e' q]|]; try contradiction R3; cbn [bind]; try reflexivity. destruct R3 as [<- _]. reflexivity. Qed.
Lemma TwanIdTimeStamp_eq s : bytes s -> got (TwanIdTimeStamp_unmarshal Debug s) = TwanIdTimeStamp_reads s.
Proof. intros Hb. open_ 4%nat s. Qed.
Lemma Twmi_eq s : bytes s -> got (Twmi_unmarshal Debug s) = Twmi_reads s.
Proof. intros Hb. open_ 1%nat s. Qed.

Lemma uci_mode x : byte x -> AccessMode_of (N.shiftr (N.land x 192) 6) = entry (x / 64) [AccessMode_ClosedMode; AccessMode_HybridMode] AccessMode_Reserved.
Proof. intros Hx. per_octet x. Qed.
Lemma uci_lcsg x : byte x -> negb (N.shiftr (N.land x 2) 1 =? 0) = bit_at x 1.
Proof. intros Hx. per_octet x. Qed.
Lemma uci_cmi x : byte x -> Cmi_of (N.land x 1) = if bit_at x 0 then Cmi_CsgMembership else Cmi_NonCsgMembership.
Proof. intros Hx. per_octet x. Qed.
Lemma Uci_eq s : bytes s -> got (Uci_unmarshal Debug s) = Uci_reads s.
Proof. intros Hb. opens s. fixd 8%nat s. cbn [length Nat.leb]. rewrite plmn_at4. change (@at_ GTPV2Error (t :: a :: b :: c :: x :: x0 :: x1 :: x2 :: x3 :: x4 :: x5 :: x6 :: s) 11) with (@Ok GTPV2Error _ x6). cbn [bind]. bys Hb. rewrite uci_mode, uci_lcsg, uci_cmi by assumption. run. arith. reflexivity. Qed.
Lemma UeTimeZone_eq s : bytes s -> got (UeTimeZone_unmarshal Debug s) = UeTimeZone_reads s.
Proof. intros Hb. opens s. fixd 2%nat s. cbn [length Nat.leb]. run. bys Hb. do 2 f_equal. rewrite land3.
  replace (if N.shiftr x 7 =? 0 then Z.of_N (N.land x 127) else if N.shiftr x 7 =? 1 then (- Z.of_N (N.land x 127))%Z else 0%Z) with (if bit_at x 7 then (- Z.of_N (x mod 128))%Z else Z.of_N (x mod 128)) by (per_octet x). reflexivity. Qed.

Lemma flags_order x : byte x -> to_flags x = map (fun k => k + 1) (filter (bit_at x) [0; 1; 2; 3; 4; 5; 6; 7]).
Proof. intros Hx. per_octet x. Qed.
Lemma as_step {A B} (dec : list N -> res A) size (p : reader A) (f : A -> B) s : parses dec size p -> bytes s ->
  match as_ f p s with
  | Some (y, r) => (let? v := dec s in Ok (f v)) = Ok y /\ exists x, y = f x /\ r = skipn (size x) s /\ (size x <= length s)%nat
  | None => got (let? v := dec s in Ok (f v)) = None
  end.
Proof.
  intros Hp Hs. unfold as_, andthen. specialize (Hp s Hs). destruct (p s) as [[x r]|].
  - destruct Hp as (-> & -> & Hl). cbn [yield bind]. split; [reflexivity|]. exists x. auto.
  - rewrite got_bind, Hp. reflexivity.
Qed.
Ltac sized := match goal with Hl : (_ <= _)%nat |- (?l <= _)%nat => cbv beta in Hl; let v := eval compute in l in change l with v; lia end.
Lemma location_step k s : k < 8 -> bytes s ->
  match location_of k s with
  | Some (y, r) => loc_dec (k + 1) s = Ok y /\ r = skipn (loc_step (k + 1)) s /\ (loc_step (k + 1) <= length s + 1)%nat
  | None => got (loc_dec (k + 1) s) = None
  end.
Proof.
  intros Hk Hs. assert (In k [0; 1; 2; 3; 4; 5; 6; 7]) as Hi.
  { assert (k = 0 \/ k = 1 \/ k = 2 \/ k = 3 \/ k = 4 \/ k = 5 \/ k = 6 \/ k = 7) by lia. cbn [In]. intuition. }
  cbn [In] in Hi. destruct Hi as [<-|[<-|[<-|[<-|[<-|[<-|[<-|[<-|[]]]]]]]]].
  - pose proof (as_step _ _ _ Loc_Cgi s Cgi_parses Hs) as H. change (location_of 0) with (as_ Loc_Cgi Cgi_). destruct (as_ _ _ s) as [[y r]|]; [|exact H]. destruct H as (H & x & _ & -> & Hl). split; [exact H|]. split; [reflexivity|]. sized.
  - pose proof (as_step _ _ _ Loc_Sai s Sai_parses Hs) as H. change (location_of 1) with (as_ Loc_Sai Sai_). destruct (as_ _ _ s) as [[y r]|]; [|exact H]. destruct H as (H & x & _ & -> & Hl). split; [exact H|]. split; [reflexivity|]. sized.
  - change (location_of 2) with (as_ Loc_Rai Rai7_). unfold as_, Rai7_. unfold andthen. pose proof (Rai_parses s Hs) as H. destruct (Rai_ s) as [[x r]|].
    + destruct H as (H & -> & Hl). cbn [pass yield]. change (loc_dec (2 + 1) s) with (let? v := Rai_dec s in Ok (Loc_Rai v)). rewrite H. split; [reflexivity|]. rewrite skipn_skipn'. split; [reflexivity|]. sized.
    + change (loc_dec (2 + 1) s) with (let? v := Rai_dec s in Ok (Loc_Rai v)). rewrite got_bind, H. reflexivity.
  - pose proof (as_step _ _ _ Loc_Tai s Tai_parses Hs) as H. change (location_of 3) with (as_ Loc_Tai Tai_). destruct (as_ _ _ s) as [[y r]|]; [|exact H]. destruct H as (H & x & _ & -> & Hl). split; [exact H|]. split; [reflexivity|]. sized.
  - pose proof (as_step _ _ _ Loc_Ecgi s Ecgi_parses Hs) as H. change (location_of 4) with (as_ Loc_Ecgi Ecgi_). destruct (as_ _ _ s) as [[y r]|]; [|exact H]. destruct H as (H & x & _ & -> & Hl). split; [exact H|]. split; [reflexivity|]. sized.
  - pose proof (as_step _ _ _ Loc_Lai s Lai_parses Hs) as H. change (location_of 5) with (as_ Loc_Lai Lai_). destruct (as_ _ _ s) as [[y r]|]; [|exact H]. destruct H as (H & x & _ & -> & Hl). split; [exact H|]. split; [reflexivity|]. sized.
  - pose proof (as_step _ _ _ Loc_Macro s Macro_parses Hs) as H. change (location_of 6) with (as_ Loc_Macro Macro_). destruct (as_ _ _ s) as [[y r]|]; [|exact H]. destruct H as (H & x & _ & -> & Hl). split; [exact H|]. split; [reflexivity|]. sized.
  - pose proof (as_step _ _ _ Loc_ExtMacro s ExtMacro_parses Hs) as H. change (location_of 7) with (as_ Loc_ExtMacro ExtMacro_). destruct (as_ _ _ s) as [[y r]|]; [|exact H]. destruct H as (H & x & _ & -> & Hl). split; [exact H|]. split; [reflexivity|]. sized.
Qed.
Lemma location_empty k : k < 8 -> location_of k [] = None.
Proof. intros Hk. assert (k = 0 \/ k = 1 \/ k = 2 \/ k = 3 \/ k = 4 \/ k = 5 \/ k = 6 \/ k = 7) as H by lia. destruct H as [->|[->|[->|[->|[->|[->|[->| ->]]]]]]]; reflexivity. Qed.
Lemma locations_loop ks : Forall (fun k => k < 8) ks -> forall s c, bytes s -> (c <= length s + 1)%nat ->
  got (loc_loop (map (fun k => k + 1) ks) s c) = option_map fst (locations ks (skipn c s)).
Proof.
  induction 1 as [|k ks Hk Hks IH]; intros s c Hs Hc; [reflexivity|]. cbn [map loc_loop locations]. destruct (Nat.leb_spec c (length s)) as [Hl|Hl].
  - rewrite slice_from_ok by exact Hl. cbn [bind]. rewrite got_bind. unfold andthen at 1. pose proof (location_step k (skipn c s) Hk (bytes_skipn _ _ Hs)) as H. destruct (location_of k (skipn c s)) as [[y r]|].
    + destruct H as (-> & -> & Hx). rewrite skipn_length in Hx. cbn [got]. rewrite got_bind, IH by (assumption || lia). rewrite skipn_skipn'. unfold andthen. destruct (locations ks _) as [[l q]|]; reflexivity.
    + rewrite H. reflexivity.
  - unfold slice_from. rewrite (proj2 (Nat.leb_gt _ _)) by exact Hl. rewrite skipn_all2 by lia. unfold andthen at 1. rewrite location_empty by exact Hk. reflexivity.
Qed.
Lemma Uli_eq s : bytes s -> got (Uli_unmarshal Debug s) = Uli_reads s.
Proof. intros Hb. loosen s. destruct (fits _ _) eqn:Hf; [|reflexivity]. destruct s as [|x s]; [reflexivity|]. unfold at_. cbn [nth_error bind]. assert (Hx : byte x) by (bys Hb; assumption). rewrite flags_order by exact Hx. rewrite got_bind, locations_loop.
  - cbn [skipn]. unfold andthen. cbn [take1]. destruct (locations _ s) as [[l q]|]; reflexivity.
  - apply Forall_forall. intros k Hk. apply filter_In in Hk as [Hk _]. cbn [In] in Hk. intuition lia.
  - exact Hb.
  - cbn [length]. lia. Qed.
Lemma UliTimestamp_eq s : bytes s -> got (UliTimestamp_unmarshal Debug s) = UliTimestamp_reads s.
Proof. intros Hb. open_ 4%nat s. Qed.
Lemma Unknown_eq s : bytes s -> got (Unknown_unmarshal Debug s) = Unknown_reads s.
Proof. intros Hb. unf; hd s. change (4 <=? length (t :: a :: b :: c :: s))%nat with true. cbv iota. rewrite got_hdr4, got_checked. unfold checked_, element, whole. destruct (fits _ _) eqn:Hf; [|reflexivity]. unfold end16. rewrite (end16_fits _ _ Hf). apply fits_inv in Hf as [Hr Hl].
  cbn [bind]. rewrite slice4 by exact Hl. unfold take. rewrite (proj2 (Nat.leb_le _ _)) by exact Hl. reflexivity. Qed.
Lemma UpFunctionSelectionIndicationFlags_eq s : bytes s -> got (UpFunctionSelectionIndicationFlags_unmarshal Debug s) = UpFunctionSelectionIndicationFlags_reads s.
Proof. intros Hb. opens s. fixd 1%nat s. cbn [length Nat.leb]. unfold at_. cbn [nth_error bind]. rewrite got_bind, (bool_of_got x _ s). destruct (yes_no (x :: s)) as [[v q]|]; reflexivity. Qed.
Lemma UpSecurityPolicy_eq s : bytes s -> got (UpSecurityPolicy_unmarshal Debug s) = UpSecurityPolicy_reads s.
Proof. intros Hb. open_ 1%nat s. bys Hb. do 2 f_equal. per_octet x. Qed.
Lemma WlanOffloadIndication_eq s : bytes s -> got (WlanOffloadIndication_unmarshal Debug s) = WlanOffloadIndication_reads s.
Proof. intros Hb. open_ 1%nat s. Qed.
