(* PropsV2ExactGroups.v - C65, continued: the condition of V2ForwardSpec.v is exact for groups, too. A group does not arrive if one of
   the elements it holds would not, or if it holds an element that it is never sent with. *)
From Verif Require Import Base BaseFacts Digits DigitsFacts Labels LabelsFacts LabelsLen V2ForwardSpec V2MsgReadSpec V2Forward V2ForwardC V2ListFacts V2DecMore V2DecFacts V2IeFacts V2Cursor V2Kind PropsV2Exact.
From Verif Require V2DecLoop V2OwnFacts V2CrashMm V2CommonFacts V2Volume PropsV2Ie PropsV2Forward PropsV2Report PropsV2Reach.
Local Open Scope N_scope.
Notation length := List.length.

(* --- elements with something behind them --------------------------------------------------------------------------------- *)
Lemma whole_r {E} a b c d (v r : list N) : @slice E (a :: b :: c :: d :: v ++ r) 4 (4 + N.to_nat (nlen v)) = Ok v.
Proof. apply slice4. unfold nlen. rewrite Nat2N.id. reflexivity. Qed.
Lemma firstn_app_2' {A} n (a b : list A) : n = length a -> firstn n (a ++ b) = a.
Proof. intros ->. rewrite firstn_app, Nat.sub_diag, firstn_all. apply app_nil_r. Qed.
Lemma apn_exact_r x m r : nlen (ie_marshal (IE_Apn x)) <= 65535 -> decode_one (decoder m) m (ie_marshal (IE_Apn x) ++ r) = Ok (again (IE_Apn x)) -> ascii (ie_v x).
Proof.
  intros S D. apply size_value in S. opened D Apn_marshal disp_71. unfold Apn_unmarshal in D. apply need_inv in D as [_ D]. rewrite hdr4_cons in D.
  rewrite be16_len in D by lia. apply checked_inv in D as [_ D]. rewrite whole_r in D. cbn [bind] in D. apply bind_inv in D as (n & Hn & D). apply Ok_inj in D.
  unfold std, true_length in D. injection D as _ _ _ D. subst n. apply labels_kept in Hn. exact Hn.
Qed.
Lemma fqdn_exact_r x m r : nlen (ie_marshal (IE_Fqdn x)) <= 65535 -> decode_one (decoder m) m (ie_marshal (IE_Fqdn x) ++ r) = Ok (again (IE_Fqdn x)) -> ascii (ie_v x).
Proof.
  intros S D. apply size_value in S. opened D Fqdn_marshal disp_136. unfold Fqdn_unmarshal in D. apply need_inv in D as [_ D]. rewrite hdr4_cons in D.
  rewrite be16_len in D by lia. apply checked_inv in D as [_ D]. rewrite whole_r in D. cbn [bind] in D. apply bind_inv in D as (n & Hn & D). apply Ok_inj in D.
  unfold std, true_length in D. injection D as _ _ _ D. subst n. apply labels_kept in Hn. exact Hn.
Qed.
Lemma pgwfqdn_exact_r x m r : nlen (ie_marshal (IE_PgwFqdn x)) <= 65535 -> decode_one (decoder m) m (ie_marshal (IE_PgwFqdn x) ++ r) = Ok (again (IE_PgwFqdn x)) -> ascii (ie_v x).
Proof.
  intros S D. apply size_value in S. opened D PgwFqdn_marshal disp_215. unfold PgwFqdn_unmarshal in D. apply need_inv in D as [_ D]. rewrite hdr4_cons in D.
  rewrite be16_len in D by lia. apply checked_inv in D as [_ D]. rewrite whole_r in D. cbn [bind] in D. apply bind_inv in D as (n & Hn & D). apply Ok_inj in D.
  unfold std, true_length in D. apply (f_equal ie_v) in D. cbn [ie_v std] in D. subst n. apply labels_kept in Hn. exact Hn.
Qed.
Lemma arc_exact_r x m r : nlen (ie_marshal (IE_ApnRelativeCapacity x)) <= 65535 -> decode_one (decoder m) m (ie_marshal (IE_ApnRelativeCapacity x) ++ r) = Ok (again (IE_ApnRelativeCapacity x)) ->
  ascii (arc_name (ie_v x)).
Proof.
  intros S D. apply size_value in S. opened D ApnRelativeCapacity_marshal disp_184. unfold ApnRelativeCapacity_unmarshal in D. apply need_inv in D as [_ D]. rewrite hdr4_cons in D.
  rewrite be16_len in D by lia. apply checked_inv in D as [_ D]. apply bind_inv in D as (c & _ & D). cbv zeta in D. apply bind_inv in D as (s & Hs & D).
  apply bind_inv in D as (n & Hn & D). apply Ok_inj in D. unfold std, true_length in D. apply (f_equal ie_v) in D. cbn [ie_v std] in D.
  assert (n = arc_name (ie_v x)) by (rewrite <- D; reflexivity). subst n.
  unfold ApnRelativeCapacity_value in Hs. cbn [app] in Hs. rewrite slice_ok in Hs by (cbn [length]; rewrite ?app_length, nlen_cons; unfold nlen; lia).
  apply Ok_inj in Hs. cbn [skipn] in Hs. rewrite firstn_app_2' in Hs by (rewrite nlen_cons; unfold nlen; lia). subst s. exact (labels_kept _ Hn).
Qed.
Lemma praa_exact_r x m r : decode_one (decoder m) m (ie_marshal (IE_PresenceReportingAreaAction x) ++ r) = Ok (again (IE_PresenceReportingAreaAction x)) ->
  (length (pa_ext (ie_v x)) <= 63)%nat.
Proof.
  intros D. opened D PresenceReportingAreaAction_marshal disp_177. unfold PresenceReportingAreaAction_unmarshal in D. cbv zeta in D. apply need_inv in D as [_ D]. rewrite hdr4_cons in D.
  apply checked_inv in D as [_ D]. apply bind_inv in D as (y & _ & D). apply bind_inv in D as (pr & _ & D).
  apply bind_inv in D as (n8 & H8 & D). apply bind_inv in D as (n9 & _ & D). apply bind_inv in D as (n10 & _ & D). apply bind_inv in D as (n11 & _ & D).
  apply bind_inv in D as (n12 & _ & D). apply bind_inv in D as (n13 & _ & D). apply need_inv in D as [_ D].
  apply bind_inv in D as ([tai c1] & M1 & D). apply bind_inv in D as ([mac c2] & M2 & D). apply bind_inv in D as ([home c3] & M3 & D).
  apply bind_inv in D as ([ecgi c4] & M4 & D). apply bind_inv in D as ([rai c5] & M5 & D). apply bind_inv in D as ([sai c6] & M6 & D).
  apply bind_inv in D as ([cgi c7] & M7 & D). apply bind_inv in D as (ext & P & D). apply Ok_inj in D. unfold true_length in D. apply (f_equal ie_v) in D. cbn [ie_v std] in D.
  apply many_len in M1 as [A1 B1]. apply many_len in M2 as [A2 B2]. apply many_len in M3 as [A3 B3]. apply many_len in M4 as [A4 B4].
  apply many_len in M5 as [A5 B5]. apply many_len in M6 as [A6 B6]. apply many_len in M7 as [A7 B7].
  set (v := ie_v x) in *.
  assert (S8 : n8 <= 255).
  { unfold PresenceReportingAreaAction_value in H8. cbv zeta in H8. apply Ok_inj in H8. subst n8. unfold nlen. rewrite !firstn_length. lia. }
  assert (T15 : (length tai <= 15)%nat).
  { rewrite A1, N.shiftr_div_pow2. change (2 ^ 4) with 16. pose proof (N.div_le_mono n8 255 16 ltac:(lia) S8) as G. change (255 / 16) with 15 in G. lia. }
  pose proof (land_le n8 4) as R15. pose proof (land_le n9 6) as R9. pose proof (land_le n10 6) as R10. pose proof (land_le n11 6) as R11.
  pose proof (land_le n12 6) as R12. pose proof (land_le n13 6) as R13. change (N.ones 4) with 15 in R15. change (N.ones 6) with 63 in R9, R10, R11, R12, R13.
  rewrite <- A5 in R15. rewrite <- A2 in R9. rewrite <- A3 in R10. rewrite <- A4 in R11. rewrite <- A6 in R12. rewrite <- A7 in R13.
  change (N.to_nat 15) with 15%nat in R15. change (N.to_nat 63) with 63%nat in R9, R10, R11, R12, R13.
  destruct (Nat.leb_spec c7 (length (177 :: (nlen (PresenceReportingAreaAction_value v) mod 65536 / 256) mod 256 :: (nlen (PresenceReportingAreaAction_value v) mod 65536) mod 256 :: ie_ins x :: PresenceReportingAreaAction_value v ++ r))) as [_|_];
    [|apply Ok_inj in P; subst ext; rewrite <- D; cbn; lia].
  apply bind_inv in P as (k & Hk & P). apply bind_inv in P as ([ext' c8] & M8 & P). apply Ok_inj in P. subst ext'. apply many_len in M8 as [A8 _].
  apply at_inv in Hk as [_ Hk].
  assert (E : k = nlen (firstn 63 (pa_ext v))).
  { assert (V : exists pre rest, PresenceReportingAreaAction_value v = pre ++ nlen (firstn 63 (pa_ext v)) :: rest /\ (4 + length pre)%nat = c7).
    { assert (Q1 : pa_tai v = tai) by (rewrite <- D; reflexivity). assert (Q2 : pa_macro v = mac) by (rewrite <- D; reflexivity).
      assert (Q3 : pa_home v = home) by (rewrite <- D; reflexivity). assert (Q4 : pa_ecgi v = ecgi) by (rewrite <- D; reflexivity).
      assert (Q5 : pa_rai v = rai) by (rewrite <- D; reflexivity). assert (Q6 : pa_sai v = sai) by (rewrite <- D; reflexivity).
      assert (Q7 : pa_cgi v = cgi) by (rewrite <- D; reflexivity).
      unfold PresenceReportingAreaAction_value. cbv zeta. rewrite Q1, Q2, Q3, Q4, Q5, Q6, Q7. rewrite !(firstn_all2 (n := 15)) by lia.
      rewrite (firstn_all2 (n := 63) mac) by lia. rewrite (firstn_all2 (n := 63) home) by lia. rewrite (firstn_all2 (n := 63) ecgi) by lia.
      rewrite (firstn_all2 (n := 63) sai) by lia. rewrite (firstn_all2 (n := 63) cgi) by lia.
      exists (N.lor (flag (pa_inapra v) 8) (pa_action v) :: enc_be 3 (pa_prai v) ++ [16 * nlen tai + nlen rai; nlen mac; nlen home; nlen ecgi; nlen sai; nlen cgi] ++
        enc_all Tai_enc tai ++ enc_all MacroEnbId_enc mac ++ enc_all MacroEnbId_enc home ++ enc_all Ecgi_enc ecgi ++ enc_all Rai_enc rai ++ enc_all Sai_enc sai ++ enc_all Cgi_enc cgi),
        (enc_all ExtMacroEnbId_enc (firstn 63 (pa_ext v))). split; [apply ten_parts|].
      cbn [length]. rewrite !app_length. rewrite (enc_all_is Tai_enc 5) by reflexivity. rewrite !(enc_all_is MacroEnbId_enc 6) by reflexivity.
      rewrite (enc_all_is Ecgi_enc 7) by reflexivity. rewrite (enc_all_is Rai_enc 7) by reflexivity. rewrite (enc_all_is Sai_enc 7) by reflexivity.
      rewrite (enc_all_is Cgi_enc 7) by reflexivity. rewrite enc_be_length. cbn [length]. lia. }
    destruct V as (pre & rest & V & L). rewrite V in Hk at 3. rewrite <- L in Hk. cbn [plus nth_error] in Hk.
    rewrite <- app_assoc in Hk. rewrite nth_error_app2, Nat.sub_diag in Hk by lia. cbn [app nth_error] in Hk. congruence. }
  rewrite <- D at 1. cbn [pa_ext]. rewrite A8, E. unfold nlen. rewrite firstn_length. lia.
Qed.
Lemma node_exact_r x m r : bytes (ni_name (ie_v x)) -> bytes (ni_realm (ie_v x)) ->
  decode_one (decoder m) m (ie_marshal (IE_NodeIdentifier x) ++ r) = Ok (again (IE_NodeIdentifier x)) -> ascii (ni_name (ie_v x)) /\ ascii (ni_realm (ie_v x)).
Proof.
  intros B1 B2 D. opened D NodeIdentifier_marshal disp_176. unfold NodeIdentifier_unmarshal in D. apply need_inv in D as [_ D]. rewrite hdr4_cons in D.
  apply checked_inv in D as [_ D]. apply bind_inv in D as (l & Hl & D). cbv zeta in D. apply need_inv in D as [_ D]. apply bind_inv in D as (nm & Hn & D).
  apply bind_inv in D as ([re c] & Hr & D). apply Ok_inj in D. unfold true_length in D. apply (f_equal ie_v) in D. cbn [ie_v std] in D.
  assert (Q1 : ni_name (ie_v x) = nm) by (rewrite <- D; reflexivity). assert (Q2 : ni_realm (ie_v x) = re) by (rewrite <- D; reflexivity).
  apply Ok_inj in Hl. apply V2DecLoop.slice_len in Hn as [Hn _]. assert (A1 : ascii (ni_name (ie_v x))).
  { apply utf8_fits; [exact B1|]. rewrite Hl, Q1. lia. }
  split; [exact A1|]. apply utf8_fits; [exact B2|]. apply lv_at_inv in Hr as (k & Hk & G & _). rewrite Q2 at 1. rewrite G, N2Nat.id.
  assert (Ll : N.to_nat l = length (ni_name (ie_v x))) by (rewrite Q1; lia). rewrite Ll in Hk. cbn [plus nth_error] in Hk.
  unfold NodeIdentifier_value, lv in Hk. rewrite (utf8_ascii _ A1) in Hk. cbn [app nth_error] in Hk. rewrite <- app_assoc in Hk. rewrite nth_error_app2, Nat.sub_diag in Hk by lia. cbn [app nth_error] in Hk. congruence.
Qed.

(* --- a sequence is read element by element ------------------------------------------------------------------------------- *)
Notation dec := (decoder Debug).
Notation one := (decode_one (decoder Debug) Debug).
(* whatever it is read as, it is read as an element of its kind and its octets *)
Definition in_frame (e : ie) : Prop := forall r x, one (ie_marshal e ++ r) = Ok x ->
  kind_of x = kind_of e /\ ie_instance x = ie_instance e /\ ie_len Debug x = Ok (length (ie_marshal e)).
Definition read_as (e x : ie) : Prop := kind_of x = kind_of e /\ ie_instance x = ie_instance e /\ exists r, one (ie_marshal e ++ r) = Ok x.
Lemma frames ms : forall f l, Forall in_frame ms -> Forall (fun e => ie_marshal e <> []) ms ->
  ie_loop one Debug f (encoder ms) = Ok l -> Forall2 read_as ms l.
Proof.
  induction ms as [|e ms IH]; intros f l F NE D.
  - unfold encoder in D. cbn [map concat] in D. destruct f; cbn [ie_loop] in D; apply Ok_inj in D; subst l; constructor.
  - inversion F as [|? ? Fe Fm]; subst. inversion NE as [|? ? Ne Nm]; subst. change (encoder (e :: ms)) with (ie_marshal e ++ encoder ms) in D.
    remember (ie_marshal e ++ encoder ms) as b eqn:B. destruct b as [|t b]; [destruct (ie_marshal e); [congruence|discriminate B]|].
    destruct f as [|f]; [discriminate D|]. cbn [ie_loop] in D. rewrite B in D. apply bind_inv in D as (x & X & D). apply bind_inv in D as (n & L & D). apply bind_inv in D as (l' & R & D).
    apply Ok_inj in D. subst l. destruct (Fe _ _ X) as (K & I & G). rewrite G in L. apply Ok_inj in L. subst n. constructor; [split; [exact K|split; [exact I|eauto]]|].
    rewrite skipn_app, skipn_all, Nat.sub_diag in R. exact (IH _ _ Fm Nm R).
Qed.
Lemma frames_dec ms l : Forall in_frame ms -> Forall (fun e => ie_marshal e <> []) ms -> dec (encoder ms) = Ok l -> Forall2 read_as ms l.
Proof. intros F NE D. rewrite V2DecLoop.decoder_eq in D. exact (frames _ _ _ F NE D). Qed.
Lemma good_frame e : ie_wf (again e) -> routed (again e) -> in_frame e.
Proof.
  intros W R r x D. destruct (PropsV2Forward.C65_same_element e) as (K & I & M). rewrite <- M in D. rewrite (PropsV2Ie.C16_dispatched_roundtrip Debug _ r W R) in D.
  apply Ok_inj in D. subst x. split; [exact K|]. split; [exact I|]. rewrite (PropsV2Ie.C17_ie_length Debug _ W), M. reflexivity.
Qed.

(* --- the elements of a group ---------------------------------------------------------------------------------------------- *)
Definition the_kind {A} (sel : ie -> option (Tliv A)) (c : Tliv A -> ie) (k : kind) : Prop :=
  (forall e a, sel e = Some a -> e = c a) /\ (forall a, sel (c a) = Some a) /\ (forall a, kind_of (c a) = k) /\ (forall e, sel e = None -> kind_of e <> k) /\
  (forall a, ie_instance (c a) = ie_ins a).
Ltac the_kind := split; [intros e a H; destruct e; try discriminate H; injection H as ->; reflexivity|split; [reflexivity|split; [reflexivity|split;
  [intros e H; destruct e; try discriminate H; discriminate|reflexivity]]]].
Section Rel.
  Context {A : Type} (sel : ie -> option (Tliv A)) (c : Tliv A -> ie) (k : kind) (K : the_kind sel c k).
  Definition rel (a b : Tliv A) : Prop := exists r, one (ie_marshal (c a) ++ r) = Ok (c b).
  Definition orel (a b : option (Tliv A)) : Prop := match a, b with Some a, Some b => rel a b | None, None => True | _, _ => False end.
  Lemma sel_rel e x : read_as e x -> orel (sel e) (sel x) /\ match sel e, sel x with Some a, Some b => ie_ins a = ie_ins b | _, _ => True end.
  Proof using K.
    destruct K as (K1 & K2 & K3 & K4 & K5). intros (E & I & r & D). unfold orel. destruct (sel e) as [a|] eqn:Ea; destruct (sel x) as [b|] eqn:Eb.
    - apply K1 in Ea, Eb. subst e x. split; [exists r; exact D|]. rewrite !K5 in I. congruence.
    - apply K1 in Ea. subst e. rewrite K3 in E. apply K4 in Eb. contradiction.
    - apply K1 in Eb. subst x. rewrite K3 in E. apply K4 in Ea. congruence.
    - auto.
  Qed.
  Lemma pick_rel ok e x : read_as e x -> orel (pick sel ok e) (pick sel ok x).
  Proof using K.
    intros R. apply sel_rel in R as [R I]. unfold pick, orel in *. destruct (sel e), (sel x); try contradiction; try exact Logic.I.
    rewrite I. destruct (ok _); [exact R|exact Logic.I].
  Qed.
  Context (p : ie -> option (Tliv A)) (P : forall e x, read_as e x -> orel (p e) (p x)).
  Lemma first_rel ms l : Forall2 read_as ms l -> orel (first_of p ms) (first_of p l).
  Proof using P. induction 1 as [|e x ms l E F IH]; [exact Logic.I|]. cbn [first_of]. apply P in E. unfold orel in E. destruct (p e), (p x); try contradiction; [exact E|exact IH]. Qed.
  Lemma last_rel ms l : Forall2 read_as ms l -> orel (last_of p ms) (last_of p l).
  Proof using P.
    induction 1 as [|e x ms l E F IH]; [exact Logic.I|]. cbn [last_of]. apply P in E. unfold orel in IH. destruct (last_of p ms), (last_of p l); try contradiction; [exact IH|exact E].
  Qed.
  Lemma all_rel ms l : Forall2 read_as ms l -> Forall2 rel (all_of p ms) (all_of p l).
  Proof using P. induction 1 as [|e x ms l E F IH]; [constructor|]. cbn [all_of]. apply P in E. unfold orel in E. destruct (p e), (p x); try contradiction; [constructor; assumption|exact IH]. Qed.
End Rel.

(* --- received elements ---------------------------------------------------------------------------------------------------- *)
Lemma framed {A} (c : Tliv A -> ie) T value (x : Tliv A) k : (forall y, ie_marshal (c y) = marshal_ie T value y) -> (forall y, ie_instance (c y) = ie_ins y) ->
  kind_of (c x) = k -> (forall e, has_code e T -> kind_of e = k /\ sized_by_length e) -> T <> 169 ->
  nlen (ie_marshal (c x)) <= 65535 -> ie_instance (c x) < 16 -> in_frame (c x).
Proof.
  intros M I Kx H T9 S L r e D. pose proof (decode_one_post dec Debug _ _ D) as [C Q]. destruct (V2Report.decode_one_reports dec Debug _ _ D) as [_ R].
  rewrite M in *. unfold marshal_ie in *. apply size_value in S as S'. rewrite tliv_eq in C, Q, R. cbn [app nth] in C, Q, R. destruct (H e (C T9)) as [K Z].
  split; [congruence|]. split.
  - rewrite R, I in *. unfold V2Report.told_ins. destruct (_ && _); [|reflexivity]. rewrite PropsV2Report.land15. apply N.mod_small. exact L.
  - rewrite V2DecLoop.ie_len_sized; [|exact Z|]; rewrite Q; unfold declared; cbn [nth]; rewrite be16_len by lia; [|lia]. rewrite tliv_length. unfold nlen. f_equal. lia.
Qed.
Ltac by_code := let e := fresh "e" in let H := fresh "H" in intros e H; destruct e as []; unfold has_code in H;
  first [discriminate H | split; [reflexivity|exact Logic.I] | exfalso; apply H; repeat (first [left; reflexivity|right]) | exfalso; match goal with i : MmContext |- _ => destruct i end; discriminate H].
Ltac framed := match goal with |- in_frame (?c ?x) => refine (framed c _ _ x _ (fun y => eq_refl) (fun y => eq_refl) eq_refl _ _ _ _) end; [by_code|discriminate|assumption|assumption].
(* the elements that groups hold, and the groups *)
Definition in_groups (e : ie) : bool :=
  match e with
  | IE_Sqn _ | IE_Metric _ | IE_ApnRelativeCapacity _ | IE_EpcTimer _ | IE_Apn _ | IE_RemoteUserId _ | IE_RemoteUeIpInformation _ | IE_PC5QosFlow _ | IE_BitRate _
  | IE_PgwFqdn _ | IE_IpAddress _ | IE_Fqcsid _ | IE_GroupId _ | IE_Ebi _ | IE_NodeIdentifier _ | IE_Cause _ | IE_BearerTft _ | IE_Fteid _ | IE_BearerQos _
  | IE_ChargingId _ | IE_BearerFlags _ | IE_Pco _ | IE_Apco _ | IE_Epco _ | IE_MaxPacketLossRate _ | IE_RanNasCause _ | IE_ServicesAuthorized _
  | IE_ApnRestriction _ | IE_SelectionMode _ | IE_Fqdn _ | IE_ApnAmbr _ | IE_ChargingCharacteristics _ | IE_ChangeReportingAction _
  | IE_CSGInformationReportingAction _ | IE_HenbInfoReporting _ | IE_Indication _ | IE_Spi _ | IE_ChangeToReportFlags _ | IE_PresenceReportingAreaAction _
  | IE_WlanOffloadIndication _ | IE_PdnType _ | IE_HeaderCompressionConfiguration _ => true
  | _ => false
  end.
Definition a_group (e : ie) : bool :=
  match e with
  | IE_LoadControlInfo _ | IE_OverloadControlInfo _ | IE_RemoteUeContext _ | IE_PC5QosParameters _ | IE_PgwChangeInfo _ | IE_ScefPdnConnections _
  | IE_BearerContext _ | IE_V2xInformation _ | IE_PdnConnections _ => true
  | _ => false
  end.
Definition always (e : ie) : bool := match e with IE_RemoteUeContext _ | IE_PC5QosParameters _ => true | _ => false end.
Definition low (e : ie) : Prop := ie_instance e < 16.
Definition read_back (e : ie) : Prop := exists r, one (ie_marshal e ++ r) = Ok (again e).
Record goes (e : ie) : Prop := { g_low : low e; g_size : nlen (ie_marshal e) <= 65535; g_frame : in_frame e; g_back : read_back e -> survives e; g_always : always e = true -> survives e }.
Definition meets (e : ie) : Prop := nlen (ie_marshal e) <= 65535 -> (in_groups e = true -> goes e) /\ (a_group e = true -> low e -> goes e).
Lemma type_not_169 m s e : decode_one (decoder m) m s = Ok e -> in_groups e || a_group e = true -> nth 0 s 0 <> 169.
Proof.
  intros D H E. destruct s as [|t s]; [discriminate E|]. cbn [nth] in E. subst t. rewrite disp_169 in D by reflexivity. apply lift_inv in D as (? & _ & EQ). subst e. discriminate H.
Qed.
Lemma in_groups_low m s e : decode_one (decoder m) m s = Ok e -> in_groups e = true -> low e.
Proof.
  intros D H. pose proof (type_not_169 _ _ _ D ltac:(rewrite H; reflexivity)) as T9. destruct (decode_one_post (decoder m) m s _ D) as [C _]. specialize (C T9).
  destruct (V2Report.decode_one_reports (decoder m) m s _ D) as [_ R]. unfold low. rewrite R. clear R D T9. remember (nth 0 s 0) as t eqn:T. clear T.
  destruct e; try discriminate H; unfold has_code in C; subst t;
    (lazymatch goal with |- V2Report.told_ins ?t ?o < 16 => change (N.land o 15 < 16); rewrite PropsV2Report.land15; apply N.mod_lt; discriminate end).
Qed.
Lemma plain_meets s e : bytes s -> one s = Ok e -> kept e -> a_group e = false -> meets e.
Proof.
  intros B D K G S. split; [|congruence]. intros H. pose proof (in_groups_low _ _ _ D H) as L.
  assert (X : in_frame e /\ (read_back e -> survives e) /\ (always e = true -> survives e)).
  { assert (Good : survives e -> in_frame e /\ (read_back e -> survives e) /\ (always e = true -> survives e)).
    { intros V. destruct (K ltac:(repeat split; assumption)) as [W R]. split; [exact (good_frame e W R)|auto]. }
    unfold low in L. destruct e; try discriminate H; try (apply Good; exact Logic.I); clear Good;
    (split; [framed|split; [intros [r Q]|intros Z; discriminate Z]]).
    all: first [exact (apn_exact_r _ _ _ S Q) | exact (fqdn_exact_r _ _ _ S Q) | exact (pgwfqdn_exact_r _ _ _ S Q) | exact (arc_exact_r _ _ _ S Q)
      | exact (praa_exact_r _ _ _ Q) | destruct (node_bytes _ _ _ B D) as [N1 N2]; exact (node_exact_r _ _ _ N1 N2 Q) ]. }
  destruct X as (X1 & X2 & X3). constructor; assumption.
Qed.

(* --- what a received group holds ------------------------------------------------------------------------------------------ *)
Definition sound (e : ie) : Prop := meets e /\ in_groups e || a_group e = true /\ (a_group e = true -> low e).
Lemma sound_goes e : sound e -> nlen (ie_marshal e) <= 65535 -> goes e.
Proof.
  intros (M & H & L) S. destruct (M S) as [M1 M2]. destruct (in_groups e); [exact (M1 eq_refl)|]. cbn [orb] in H. exact (M2 H (L H)).
Qed.
Section Sound.
  Context {A : Type} (c : Tliv A -> ie) (sel : ie -> option (Tliv A)) (l : list ie) (ok : N -> bool).
  Context (E : forall e x, sel e = Some x -> e = c x) (Hin : forall x, in_groups (c x) || a_group (c x) = true) (L : forall x, a_group (c x) = true -> ok (ie_ins x) = true -> low (c x)).
  Context (F : Forall meets l).
  Lemma one_sound x : In x (every sel ok l) -> sound (c x).
  Proof using E Hin L F.
    intros H. apply every_from in H as (e & I & S & O). apply E in S. subst e. split; [exact (proj1 (Forall_forall _ _) F _ I)|]. split; [apply Hin|]. intros G. exact (L x G O).
  Qed.
  Lemma every_sound : Forall sound (map c (every sel ok l)).
  Proof using E Hin L F. apply Forall_map, Forall_forall. exact one_sound. Qed.
  Lemma oldest_sound : Forall sound (opt_ies c (oldest sel ok l)).
  Proof using E Hin L F. destruct (oldest sel ok l) as [x|] eqn:O; cbn [opt_ies]; [|constructor]. constructor; [|constructor]. apply one_sound, oldest_from, O. Qed.
  Lemma newest_sound : Forall sound (opt_ies c (newest sel ok l)).
  Proof using E Hin L F. destruct (newest sel ok l) as [x|] eqn:O; cbn [opt_ies]; [|constructor]. constructor; [|constructor]. apply one_sound, newest_from, O. Qed.
  Lemma newest_single_sound : Forall sound (map c (opt_list (option_map (fun x => [x]) (newest sel ok l)))).
  Proof using E Hin L F. destruct (newest sel ok l) as [x|] eqn:O; cbn [option_map opt_list map]; [|constructor]. constructor; [|constructor]. apply one_sound, newest_from, O. Qed.
  Lemma newest_or_sound d : sound (c d) -> Forall sound [c (or_else d (newest sel ok l))].
  Proof using E Hin L F. intros D. constructor; [|constructor]. destruct (newest sel ok l) as [x|] eqn:O; cbn [or_else]; [apply one_sound, newest_from, O|exact D]. Qed.
  Lemma oldest_or_sound d : sound (c d) -> Forall sound [c (or_else d (oldest sel ok l))].
  Proof using E Hin L F. intros D. constructor; [|constructor]. destruct (oldest sel ok l) as [x|] eqn:O; cbn [or_else]; [apply one_sound, oldest_from, O|exact D]. Qed.
End Sound.
Lemma default_sound e : in_groups e = true -> a_group e = false -> ie_instance e = 0 -> (plain_survives e) -> always e = false -> survives e -> ie_wf (again e) -> routed (again e) -> sound e.
Proof.
  intros H G I P Z S W R. split; [|split; [rewrite H; reflexivity|congruence]]. intros N. split; [|congruence]. intros _.
  constructor; [unfold low; rewrite I; reflexivity|exact N|apply good_frame; assumption|auto|congruence].
Qed.
Ltac dflt L := apply default_sound; [reflexivity|reflexivity|reflexivity|repeat constructor|reflexivity|repeat constructor|exact (proj1 L)|exact Logic.I].
Lemma ebi_sound : sound (IE_Ebi no_ebi). Proof. dflt ebi_default. Qed.
Lemma apn_sound : sound (IE_Apn no_apn). Proof. dflt (apn_default (ins_is 0) eq_refl). Qed.
Lemma fteid_sound : sound (IE_Fteid no_fteid). Proof. dflt fteid_default. Qed.
Lemma ambr_sound : sound (IE_ApnAmbr no_ambr). Proof. dflt ambr_default. Qed.
Lemma sqn_sound : sound (IE_Sqn no_sqn). Proof. dflt sqn_default. Qed.
Lemma metric_sound : sound (IE_Metric no_metric). Proof. dflt metric_default. Qed.
Lemma timer_sound : sound (IE_EpcTimer no_timer). Proof. dflt timer_default. Qed.
Lemma user_sound : sound (IE_RemoteUserId no_user). Proof. dflt user_default. Qed.
Lemma node_sound : sound (IE_NodeIdentifier no_node). Proof. dflt node_default. Qed.
Ltac sel_c := let e := fresh "e" in let x := fresh "x" in let H := fresh "H" in intros e x H; destruct e; try discriminate H; injection H as ->; reflexivity.
Ltac lows := let x := fresh "x" in let G := fresh "G" in let O := fresh "O" in intros x G O; first [discriminate G | unfold low; cbn [ie_instance]; apply N.eqb_eq in O; rewrite O; reflexivity].
Ltac dflts := first [exact ebi_sound | exact apn_sound | exact fteid_sound | exact ambr_sound | exact sqn_sound | exact metric_sound | exact timer_sound | exact user_sound | exact node_sound].
Ltac seg F := first
  [ apply every_sound; [sel_c|reflexivity|lows|exact F] | apply oldest_sound; [sel_c|reflexivity|lows|exact F] | apply newest_sound; [sel_c|reflexivity|lows|exact F]
  | apply newest_single_sound; [sel_c|reflexivity|lows|exact F]
  | apply newest_or_sound; [sel_c|reflexivity|lows|exact F|dflts] | apply oldest_or_sound; [sel_c|reflexivity|lows|exact F|dflts] ].
Ltac segs F := repeat (apply Forall_app; split; [solve [seg F]|]); seg F.
Ltac fields := cbn [ie_v lc_sqn lc_metric lc_list oc_sqn oc_metric oc_validity oc_list re_user_id re_ue_ip p5_flows p5_abrs
    pw_fqdns pw_ips pw_fqcsid pw_groupids sf_apn sf_ebi sf_scef bc_ebi bc_cause bc_tft bc_fteids bc_qos bc_charging bc_flags bc_pco bc_apco
    bc_epco bc_loss bc_ran bc_bss bc_ti vx_auth vx_brs vx_qos pn_apn pn_restriction pn_selection pn_ipv4 pn_ipv6 pn_ebi pn_pgw pn_node_name
    pn_bearers pn_ambr pn_charging pn_reporting pn_csg pn_henb pn_indication pn_spi pn_report_flags pn_home pn_praa pn_wlan pn_remotes
    pn_pdn_type pn_compr pn_change pn_policy].
Lemma LoadControl_sound l : Forall meets l -> Forall sound (LoadControl_members (LoadControl_holds l)).
Proof. intros F. unfold LoadControl_members, LoadControl_holds. fields. segs F. Qed.
Lemma OverloadControlInfo_sound l : Forall meets l -> Forall sound (OverloadControlInfo_members (OverloadControlInfo_holds l)).
Proof. intros F. unfold OverloadControlInfo_members, OverloadControlInfo_holds. fields. segs F. Qed.
Lemma RemoteUeContext_sound l : Forall meets l -> Forall sound (RemoteUeContext_members (RemoteUeContext_holds l)).
Proof. intros F. unfold RemoteUeContext_members, RemoteUeContext_holds. fields. segs F. Qed.
Lemma PC5QosParameters_sound l : Forall meets l -> Forall sound (PC5QosParameters_members (PC5QosParameters_holds l)).
Proof. intros F. unfold PC5QosParameters_members, PC5QosParameters_holds. fields. segs F. Qed.
Lemma PgwChangeInfo_sound l : Forall meets l -> Forall sound (PgwChangeInfo_members (PgwChangeInfo_holds l)).
Proof. intros F. unfold PgwChangeInfo_members, PgwChangeInfo_holds. fields. segs F. Qed.
Lemma ScefPdnConnections_sound l : Forall meets l -> Forall sound (ScefPdnConnections_members (ScefPdnConnections_holds l)).
Proof. intros F. unfold ScefPdnConnections_members, ScefPdnConnections_holds. fields. segs F. Qed.
Lemma BearerContext_sound l : Forall meets l -> Forall sound (BearerContext_members (BearerContext_holds l)).
Proof. intros F. unfold BearerContext_members, BearerContext_holds. fields. segs F. Qed.
Lemma V2xInformation_sound l : Forall meets l -> Forall sound (V2xInformation_members (V2xInformation_holds l)).
Proof. intros F. unfold V2xInformation_members, V2xInformation_holds. fields. segs F. Qed.
Lemma PdnConnections_sound l : Forall meets l -> Forall sound (PdnConnections_members (PdnConnections_holds l)).
Proof. intros F. unfold PdnConnections_members, PdnConnections_holds. fields. segs F. Qed.

(* the members of a group that is small enough *)
Lemma in_size e ms : In e ms -> nlen (ie_marshal e) <= nlen (encoder ms).
Proof. intros H. apply in_split in H as (a & b & ->). rewrite encoder_app. change (encoder (e :: b)) with (ie_marshal e ++ encoder b). rewrite !nlen_app. lia. Qed.
Lemma all_goes ms : Forall sound ms -> nlen (encoder ms) <= 65535 -> Forall goes ms.
Proof. intros F S. apply Forall_forall. intros e I. apply sound_goes; [exact (proj1 (Forall_forall _ _) F e I)|]. pose proof (in_size _ _ I). lia. Qed.
Lemma group_inv T a b i v r g : GroupedIe_unmarshal dec Debug (T :: a :: b :: i :: v ++ r) = Ok g -> be16 a b = nlen v -> nlen v <= 65531 -> v <> [] /\ dec v = Ok (ie_v g).
Proof.
  unfold GroupedIe_unmarshal. intros D E S. destruct (_ <=? _)%nat; [|cbn [at_ bind] in D; discriminate D]. apply bind_inv in D as (t & _ & D). rewrite hdr4_cons, E in D.
  apply checked_inv in D as [NZ D]. apply bind_inv in D as (e & He & D). apply bind_inv in D as (s & Hs & D). apply bind_inv in D as (l & Hl & D). apply Ok_inj in D. subst g. cbn [ie_v].
  unfold end16 in He. rewrite add16_small in He by lia. cbn [bind] in He. apply Ok_inj in He. subst e.
  replace (N.to_nat (nlen v + 4)) with (4 + N.to_nat (nlen v))%nat in Hs by lia. rewrite whole_r in Hs. apply Ok_inj in Hs. subst s.
  split; [intros ->; apply NZ; reflexivity|exact Hl].
Qed.
Lemma not_empty e : goes e -> ie_marshal e <> [].
Proof. intros _ H. pose proof (ie_marshal_pos e) as P. rewrite H in P. cbn in P. lia. Qed.
Lemma members_read ms l : Forall goes ms -> dec (encoder ms) = Ok l -> Forall2 read_as ms l.
Proof. intros F D. apply frames_dec; [| |exact D]; eapply Forall_impl; try exact F; intros e G; [apply (g_frame _ G)|apply (not_empty _ G)]. Qed.

Lemma fit_one {A} (S : ie -> Prop) (c : Tliv A -> ie) x : Forall goes [c x] -> S (c x) -> fit_for S (c x).
Proof. intros F H. apply Forall_inv in F. split; [exact (g_low _ F)|]. split; [exact (g_size _ F)|exact H]. Qed.
Lemma fit_opt {A} (S : ie -> Prop) (c : Tliv A -> ie) o : Forall goes (opt_ies c o) -> (forall x, o = Some x -> S (c x)) -> given (fun x => fit_for S (c x)) o.
Proof. destruct o as [x|]; [|intros; exact Logic.I]. intros F H. exact (fit_one S c x F (H x eq_refl)). Qed.
Lemma fit_many {A} (S : ie -> Prop) (c : Tliv A -> ie) l : Forall goes (map c l) -> (forall x, In x l -> S (c x)) -> Forall (fun x => fit_for S (c x)) l.
Proof.
  intros F H. apply Forall_forall. intros x I. apply (fit_one S c x); [|exact (H x I)]. constructor; [|constructor]. exact (proj1 (Forall_forall _ _) F _ (in_map c _ _ I)).
Qed.
Lemma fit_some {A} (S : ie -> Prop) (c : Tliv A -> ie) o : Forall goes (map c (opt_list o)) -> (forall l x, o = Some l -> In x l -> S (c x)) -> given (Forall (fun x => fit_for S (c x))) o.
Proof. destruct o as [l|]; [|intros; exact Logic.I]. intros F H. apply fit_many; [exact F|]. intros x I. exact (H l x eq_refl I). Qed.
Ltac parts G := repeat match type of G with Forall _ (_ ++ _) => let H := fresh "G" in apply Forall_app in G as [H G] end.
Ltac fit := first [eapply fit_one; [eassumption|] | eapply fit_opt; [eassumption|intros ? ?] | eapply fit_many; [eassumption|intros ? ?] | eapply fit_some; [eassumption|intros ? ? ? ?]];
  try exact Logic.I.
Notation any := (fun _ => True).
Lemma every_mem {A} (sel : ie -> option (Tliv A)) ok l : Forall (mem any ok) (every sel ok l).
Proof. apply Forall_forall. intros x H. apply every_from in H as (_ & _ & _ & O). split; [exact Logic.I|exact O]. Qed.
Lemma oldest_mem {A} (sel : ie -> option (Tliv A)) ok l : opt_ok (mem any ok) (oldest sel ok l).
Proof. destruct (oldest sel ok l) as [x|] eqn:O; [|exact Logic.I]. apply oldest_from in O. exact (proj1 (Forall_forall _ _) (every_mem sel ok l) _ O). Qed.
Lemma newest_or_mem {A} (sel : ie -> option (Tliv A)) ok l d : ok (ie_ins d) = true -> mem any ok (or_else d (newest sel ok l)).
Proof. intros H. destruct (newest sel ok l) as [x|] eqn:O; [|split; [exact Logic.I|exact H]]. apply newest_from in O. exact (proj1 (Forall_forall _ _) (every_mem sel ok l) _ O). Qed.
(* reading back a member that stands in the place of the one sent *)
Lemma rel_back {A} (c : Tliv A -> ie) x y : rel c x y -> again (c x) = c y -> goes (c x) -> survives (c x).
Proof. intros [r D] E G. apply (g_back _ G). exists r. rewrite E. exact D. Qed.

(* --- the groups ------------------------------------------------------------------------------------------------------------ *)
(* the start of each proof: [D] says what the members read are, [R2] that they are read one by one *)
Ltac start SO MV F S v G SZ NE := split; [discriminate|]; intros _ L;
  match goal with |- goes (_ (mkIe _ _ _ ?h)) => pose proof (SO _ F) as G; set (v := h) in * end;
  assert (SZ : nlen (encoder ltac:(match type of G with Forall _ ?ms => exact ms end)) <= 65531) by (rewrite MV; exact (size_value _ _ _ _ S));
  apply all_goes in G; [|lia].
Ltac inner D MV G SZ R2 NE g := let Hg := fresh "Hg" in cbn [ie_v] in D; apply bind_inv in D as (g & Hg & D); rewrite MV in SZ; apply group_inv in Hg as [NE Hg]; [|apply be16_len; lia|exact SZ];
  cbn [ie_v] in Hg; rewrite <- MV in Hg; pose proof (members_read _ _ G Hg) as R2.
Ltac conjs := repeat match goal with |- _ /\ _ => apply conj end.
Ltac got D := apply Ok_inj in D; apply (f_equal ie_v) in D; unfold regroup, true_lengths, true_length in D; cbn [ie_v] in D.

Lemma RemoteUeContext_meets n k l : Forall meets l -> meets (IE_RemoteUeContext (mkIe 191 n k (RemoteUeContext_holds l))).
Proof.
  intros F S. start RemoteUeContext_sound RemoteUeContext_members_value F S v G SZ NE.
  assert (V : survives (IE_RemoteUeContext (mkIe 191 n k v))).
  { cbn [survives group_survives ie_v]. unfold RemoteUeContext_members in G. parts G. conjs; fit. }
  constructor; [exact L|exact S|unfold low in L; framed|auto|auto].
Qed.
Lemma PC5QosParameters_meets n k l : Forall meets l -> meets (IE_PC5QosParameters (mkIe 209 n k (PC5QosParameters_holds l))).
Proof.
  intros F S. start PC5QosParameters_sound PC5QosParameters_members_value F S v G SZ NE.
  assert (V : survives (IE_PC5QosParameters (mkIe 209 n k v))).
  { cbn [survives group_survives ie_v]. unfold PC5QosParameters_members in G. parts G. conjs; fit. }
  constructor; [exact L|exact S|unfold low in L; framed|auto|auto].
Qed.
Lemma V2xInformation_meets n k l : Forall meets l -> meets (IE_V2xInformation (mkIe 208 n k (V2xInformation_holds l))).
Proof.
  intros F S. start V2xInformation_sound V2xInformation_members_value F S v G SZ NE.
  constructor; [exact L|exact S|unfold low in L; framed| |discriminate]. intros [r D]. opened D V2xInformation_marshal disp_208. unfold V2xInformation_unmarshal in D.
  inner D V2xInformation_members_value G SZ R2 NE g.
  cbn [survives ie_v]. unfold V2xInformation_members in G. parts G. conjs; [fit|fit|fit|exact NE].
  match goal with H : vx_qos v = Some _ |- _ => rewrite H in G; cbn [opt_ies] in G; apply Forall_inv in G; exact (g_always _ G eq_refl) end.
Qed.
Lemma BearerContext_meets n k l : Forall meets l -> meets (IE_BearerContext (mkIe 93 n k (BearerContext_holds l))).
Proof.
  intros F S. start BearerContext_sound BearerContext_members_value F S v G SZ NE.
  constructor; [exact L|exact S|unfold low in L; framed| |discriminate]. intros [r D]. opened D BearerContext_marshal disp_93. unfold BearerContext_unmarshal in D.
  inner D BearerContext_members_value G SZ R2 NE g. got D.
  assert (K1 : the_kind as_Fcontainer IE_Fcontainer K_Fcontainer) by the_kind. assert (K2 : the_kind as_TransactionIdentifier IE_TransactionIdentifier K_TransactionIdentifier) by the_kind.
  assert (B1 : bc_bss v = None).
  { change (bc_bss v) with (bc_bss (BearerContext_again v)). rewrite <- D. unfold BearerContext_from. cbn [bc_bss].
    pose proof (first_rel _ _ (pick_rel _ _ _ K1 (ins_is 0)) _ _ R2) as Q. rewrite misses_first in Q by (unfold BearerContext_members; none). unfold orel in Q. destruct (first_of _ _); [contradiction|reflexivity]. }
  assert (B2 : bc_ti v = None).
  { change (bc_ti v) with (bc_ti (BearerContext_again v)). rewrite <- D. unfold BearerContext_from. cbn [bc_ti].
    pose proof (first_rel _ _ (pick_rel _ _ _ K2 (ins_is 0)) _ _ R2) as Q. rewrite misses_first in Q by (unfold BearerContext_members; none). unfold orel in Q. destruct (first_of _ _); [contradiction|reflexivity]. }
  cbn [survives group_survives ie_v]. unfold BearerContext_members in G. parts G. conjs; try fit; assumption.
Qed.
Lemma LoadControl_meets n k l : Forall meets l -> meets (IE_LoadControlInfo (mkIe 181 n k (LoadControl_holds l))).
Proof.
  intros F S. start LoadControl_sound LoadControl_members_value F S v G SZ NE.
  constructor; [exact L|exact S|unfold low in L; framed| |discriminate]. intros [r D]. opened D LoadControl_marshal disp_181. unfold LoadControl_unmarshal in D.
  inner D LoadControl_members_value G SZ R2 NE g. destruct (_ <? _)%nat; [discriminate D|]. got D. apply (f_equal lc_list) in D. cbn [LoadControl_from LoadControl_again lc_list] in D.
  assert (K1 : the_kind as_ApnRelativeCapacity IE_ApnRelativeCapacity K_ApnRelativeCapacity) by the_kind.
  pose proof (last_rel _ _ (fun e x R => proj1 (sel_rel _ _ _ K1 e x R)) _ _ R2) as Q. unfold LoadControl_members in Q, G. rewrite !last_skip in Q by none.
  cbn [survives group_survives ie_v]. parts G. conjs; fit. rename l0 into w. change (survives (IE_ApnRelativeCapacity x)). subst v. unfold LoadControl_holds in *. cbn [lc_list] in *.
  destruct (newest as_ApnRelativeCapacity any_instance l) as [y|]; [|discriminate]. cbn [option_map opt_list map last_of] in *.
  assert (w = [y]) by congruence. subst w. destruct H0 as [->|[]]. cbn [as_ApnRelativeCapacity] in Q. unfold orel in Q. destruct (last_of as_ApnRelativeCapacity (ie_v g)) as [z|]; [|contradiction].
  injection D as ->. apply (rel_back _ _ _ Q); [reflexivity|]. apply Forall_inv in G. exact G.
Qed.
Lemma OverloadControlInfo_meets n k l : Forall meets l -> meets (IE_OverloadControlInfo (mkIe 180 n k (OverloadControlInfo_holds l))).
Proof.
  intros F S. start OverloadControlInfo_sound OverloadControlInfo_members_value F S v G SZ NE.
  constructor; [exact L|exact S|unfold low in L; framed| |discriminate]. intros [r D]. opened D OverloadControlInfo_marshal disp_180. unfold OverloadControlInfo_unmarshal in D.
  inner D OverloadControlInfo_members_value G SZ R2 NE g. destruct (_ <? _)%nat; [discriminate D|]. got D. apply (f_equal oc_list) in D. cbn [OverloadControlInfo_from OverloadControlInfo_again oc_list] in D.
  assert (K1 : the_kind as_Apn IE_Apn K_Apn) by the_kind.
  pose proof (last_rel _ _ (fun e x R => proj1 (sel_rel _ _ _ K1 e x R)) _ _ R2) as Q. unfold OverloadControlInfo_members in Q, G. rewrite !last_skip in Q by none.
  cbn [survives group_survives ie_v]. parts G. conjs; fit. rename l0 into w. change (survives (IE_Apn x)). subst v. unfold OverloadControlInfo_holds in *. cbn [oc_list] in *.
  destruct (newest as_Apn any_instance l) as [y|]; [|discriminate]. cbn [option_map opt_list map last_of] in *.
  assert (w = [y]) by congruence. subst w. destruct H0 as [->|[]]. cbn [as_Apn] in Q. unfold orel in Q. destruct (last_of as_Apn (ie_v g)) as [z|]; [|contradiction].
  injection D as ->. apply (rel_back _ _ _ Q); [reflexivity|]. apply Forall_inv in G. exact G.
Qed.
Lemma many_back {A} (c : Tliv A -> ie) tl (xs ys : list (Tliv A)) : Forall2 (rel c) xs ys -> ys = map tl xs -> (forall x, again (c x) = c (tl x)) ->
  Forall goes (map c xs) -> forall x, In x xs -> survives (c x).
Proof.
  intros R. induction R as [|x y xs ys E R IH]; intros Q A0 G z I; [destruct I|]. cbn [map] in Q, G. injection Q as -> Q. inversion G as [|? ? G1 G2]; subst.
  destruct I as [<-|I]; [exact (rel_back _ _ _ E (A0 _) G1)|]. exact (IH eq_refl A0 G2 z I).
Qed.
Lemma opt_back {A} (c : Tliv A -> ie) tl o o' : orel c o o' -> o' = option_map tl o -> (forall x, again (c x) = c (tl x)) ->
  Forall goes (opt_ies c o) -> forall x, o = Some x -> survives (c x).
Proof. intros R -> A0 G x ->. cbn [option_map orel opt_ies] in *. apply Forall_inv in G. exact (rel_back _ _ _ R (A0 x) G). Qed.
Lemma one_back {A} (c : Tliv A -> ie) tl x o' d : orel c (Some x) o' -> default d o' = tl x -> (forall x, again (c x) = c (tl x)) ->
  Forall goes [c x] -> survives (c x).
Proof. intros R E A0 G. unfold orel in R. destruct o' as [y|]; [|contradiction]. cbn [default] in E. subst y. apply Forall_inv in G. exact (rel_back _ _ _ R (A0 x) G). Qed.
Lemma PgwChangeInfo_meets n k l : Forall meets l -> meets (IE_PgwChangeInfo (mkIe 214 n k (PgwChangeInfo_holds l))).
Proof.
  intros F S. start PgwChangeInfo_sound PgwChangeInfo_members_value F S v G SZ NE.
  constructor; [exact L|exact S|unfold low in L; framed| |discriminate]. intros [r D]. opened D PgwChangeInfo_marshal disp_214. unfold PgwChangeInfo_unmarshal in D.
  inner D PgwChangeInfo_members_value G SZ R2 NE g. got D. apply (f_equal pw_fqdns) in D. cbn [PgwChangeInfo_from PgwChangeInfo_again pw_fqdns] in D.
  assert (K1 : the_kind as_PgwFqdn IE_PgwFqdn K_PgwFqdn) by the_kind. pose proof (all_rel _ _ (pick_rel _ _ _ K1 (ins_below 2)) _ _ R2) as Q.
  assert (M : Forall (mem any (ins_below 2)) (pw_fqdns v)) by apply every_mem.
  assert (E : all_of (pick as_PgwFqdn (ins_below 2)) (PgwChangeInfo_members v) = pw_fqdns v) by (unfold PgwChangeInfo_members; at_seg 1).
  rewrite E in Q. cbn [survives group_survives ie_v]. unfold PgwChangeInfo_members in G. parts G. conjs; try fit; [|exact NE].
  lazymatch goal with |- plain_survives ?e => change (survives e) end. eapply many_back; [exact Q|exact D|reflexivity|eassumption|eassumption].
Qed.
Lemma ScefPdnConnections_meets n k l : Forall meets l -> meets (IE_ScefPdnConnections (mkIe 195 n k (ScefPdnConnections_holds l))).
Proof.
  intros F S. start ScefPdnConnections_sound ScefPdnConnections_members_value F S v G SZ NE.
  constructor; [exact L|exact S|unfold low in L; framed| |discriminate]. intros [r D]. opened D ScefPdnConnections_marshal disp_195. unfold ScefPdnConnections_unmarshal in D.
  inner D ScefPdnConnections_members_value G SZ R2 NE g. got D. pose proof (f_equal sf_apn D) as D1. pose proof (f_equal sf_scef D) as D2. cbn [ScefPdnConnections_from ScefPdnConnections_again sf_apn sf_scef] in D1, D2.
  assert (K1 : the_kind as_Apn IE_Apn K_Apn) by the_kind. pose proof (last_rel _ _ (pick_rel _ _ _ K1 (ins_is 0)) _ _ R2) as Q1.
  assert (K2 : the_kind as_NodeIdentifier IE_NodeIdentifier K_NodeIdentifier) by the_kind. pose proof (last_rel _ _ (pick_rel _ _ _ K2 (ins_is 0)) _ _ R2) as Q2.
  assert (M1 : mem any (ins_is 0) (sf_apn v)) by (apply newest_or_mem; reflexivity). assert (M2 : mem any (ins_is 0) (sf_scef v)) by (apply newest_or_mem; reflexivity).
  assert (E1 : last_of (pick as_Apn (ins_is 0)) (ScefPdnConnections_members v) = Some (sf_apn v)) by (unfold ScefPdnConnections_members; at_seg 0).
  assert (E2 : last_of (pick as_NodeIdentifier (ins_is 0)) (ScefPdnConnections_members v) = Some (sf_scef v)) by (unfold ScefPdnConnections_members; at_seg 2).
  rewrite E1 in Q1. rewrite E2 in Q2. cbn [survives group_survives ie_v]. unfold ScefPdnConnections_members in G. parts G. conjs; fit.
  - change (survives (IE_Apn (sf_apn v))). eapply one_back; [exact Q1|exact D1|reflexivity|eassumption].
  - change (survives (IE_NodeIdentifier (sf_scef v))). eapply one_back; [exact Q2|exact D2|reflexivity|eassumption].
Qed.
Lemma PdnConnections_meets n k l : Forall meets l -> meets (IE_PdnConnections (mkIe 109 n k (PdnConnections_holds l))).
Proof.
  intros F S. start PdnConnections_sound PdnConnections_members_value F S v G SZ NE.
  constructor; [exact L|exact S|unfold low in L; framed| |discriminate]. intros [r D]. opened D PdnConnections_marshal disp_109. unfold PdnConnections_unmarshal in D.
  inner D PdnConnections_members_value G SZ R2 NE g. got D. pose proof (f_equal pn_apn D) as D1. pose proof (f_equal pn_node_name D) as D2. pose proof (f_equal pn_home D) as D3.
  pose proof (f_equal pn_praa D) as D4. pose proof (f_equal pn_bearers D) as D5. clear D.
  cbn [PdnConnections_from PdnConnections_again pn_apn pn_node_name pn_home pn_praa pn_bearers] in D1, D2, D3, D4, D5.
  assert (K1 : the_kind as_Apn IE_Apn K_Apn) by the_kind. assert (K2 : the_kind as_Fqdn IE_Fqdn K_Fqdn) by the_kind.
  assert (K3 : the_kind as_PresenceReportingAreaAction IE_PresenceReportingAreaAction K_PresenceReportingAreaAction) by the_kind.
  assert (K4 : the_kind as_BearerContext IE_BearerContext K_BearerContext) by the_kind.
  pose proof (last_rel _ _ (pick_rel _ _ _ K1 (ins_is 0)) _ _ R2) as Q1. pose proof (first_rel _ _ (pick_rel _ _ _ K2 (ins_is 0)) _ _ R2) as Q2.
  pose proof (first_rel _ _ (pick_rel _ _ _ K2 (ins_is 1)) _ _ R2) as Q3. pose proof (first_rel _ _ (pick_rel _ _ _ K3 (ins_is 0)) _ _ R2) as Q4.
  pose proof (all_rel _ _ (pick_rel _ _ _ K4 (ins_is 0)) _ _ R2) as Q5.
  assert (M1 : mem any (ins_is 0) (pn_apn v)) by (apply newest_or_mem; reflexivity). assert (M2 : opt_ok (mem any (ins_is 0)) (pn_node_name v)) by apply oldest_mem.
  assert (M3 : opt_ok (mem any (ins_is 1)) (pn_home v)) by apply oldest_mem. assert (M4 : opt_ok (mem any (ins_is 0)) (pn_praa v)) by apply oldest_mem.
  assert (M5 : Forall (mem any (ins_is 0)) (pn_bearers v)) by apply every_mem.
  assert (E1 : last_of (pick as_Apn (ins_is 0)) (PdnConnections_members v) = Some (pn_apn v)) by (unfold PdnConnections_members; at_seg 0).
  assert (E2 : first_of (pick as_Fqdn (ins_is 0)) (PdnConnections_members v) = pn_node_name v) by (unfold PdnConnections_members; at_seg 7).
  assert (E3 : first_of (pick as_Fqdn (ins_is 1)) (PdnConnections_members v) = pn_home v) by (unfold PdnConnections_members; at_seg 17).
  assert (E4 : first_of (pick as_PresenceReportingAreaAction (ins_is 0)) (PdnConnections_members v) = pn_praa v) by (unfold PdnConnections_members; at_seg 18).
  assert (E5 : all_of (pick as_BearerContext (ins_is 0)) (PdnConnections_members v) = pn_bearers v) by (unfold PdnConnections_members; at_seg 8).
  rewrite E1 in Q1. rewrite E2 in Q2. rewrite E3 in Q3. rewrite E4 in Q4. rewrite E5 in Q5. cbn [survives ie_v]. unfold PdnConnections_members in G. parts G. conjs; fit.
  - change (survives (IE_Apn (pn_apn v))). eapply one_back; [exact Q1|exact D1|reflexivity|eassumption].
  - lazymatch goal with |- group_survives ?e => change (survives e) end. eapply opt_back; [exact Q2|exact D2|reflexivity|eassumption|eassumption].
  - lazymatch goal with |- group_survives ?e => change (survives e) end. eapply many_back; [exact Q5|exact D5|reflexivity|eassumption|eassumption].
  - lazymatch goal with |- group_survives ?e => change (survives e) end. eapply opt_back; [exact Q3|exact D3|reflexivity|eassumption|eassumption].
  - lazymatch goal with |- group_survives ?e => change (survives e) end. eapply opt_back; [exact Q4|exact D4|reflexivity|eassumption|eassumption].
  - lazymatch goal with |- group_survives (IE_RemoteUeContext ?x) => change (survives (IE_RemoteUeContext x)) end.
    match goal with G : Forall goes (map IE_RemoteUeContext _), H : In _ _ |- _ => exact (g_always _ (proj1 (Forall_forall _ _) G _ (in_map IE_RemoteUeContext _ _ H)) eq_refl) end.
Qed.

(* --- every received element ------------------------------------------------------------------------------------------------ *)
Definition entry_meets (x : N * (extent * meaning)) : Prop :=
  match snd (snd x) with Plain _ => True | Group f => forall n k l e, Forall meets l -> f (mkIe (fst x) n k l) = Some e -> meets e end.
Lemma group_meets {A} (c : Tliv A -> ie) (f : list ie -> A) t x : (forall n k l, Forall meets l -> meets (c (mkIe t n k (f l)))) -> entry_meets (t, (x, group c f)).
Proof. intros H n k l e F E. injection E as <-. cbn [ie_t ie_length ie_ins ie_v fst snd]. apply H, F. Qed.
Lemma pc5_meets x : entry_meets (209, (x, pc5_group)).
Proof.
  intros n k l e F E. cbn [ie_t ie_length ie_ins ie_v fst snd] in E. destruct (every as_PC5QosFlow (only 0) l) eqn:Ef; [discriminate E|]. injection E as <-.
  apply PC5QosParameters_meets, F.
Qed.
Lemma catalogue_meets : Forall entry_meets catalogue.
Proof.
  unfold catalogue. repeat (apply Forall_cons; [first [exact Logic.I
    | apply group_meets; first [exact LoadControl_meets | exact OverloadControlInfo_meets | exact RemoteUeContext_meets | exact PgwChangeInfo_meets | exact ScefPdnConnections_meets
      | exact BearerContext_meets | exact V2xInformation_meets | exact PdnConnections_meets] | apply pc5_meets]|]). apply Forall_nil.
Qed.
Lemma code_meets t x f : kind_of_code t = (x, Group f) -> forall n k l e, Forall meets l -> f (mkIe t n k l) = Some e -> meets e.
Proof.
  unfold kind_of_code. destruct (find _ catalogue) as [e|] eqn:E; [|discriminate].
  apply find_some in E as [I E]. apply N.eqb_eq in E. intros H. destruct e as [t' y]. cbn [fst snd] in *. subst. exact (proj1 (Forall_forall _ _) catalogue_meets _ I).
Qed.
Lemma plain_not_group s e n t q x r : head_says s e n -> bytes s -> s = t :: q -> kind_of_code t = (x, Plain r) -> a_group e = false.
Proof.
  intros H B -> K. apply PropsV2Reach.head_iff in H as (_ & D & _); [|exact B]. destruct (a_group e) eqn:G; [|reflexivity]. exfalso.
  pose proof (type_not_169 _ _ _ D ltac:(rewrite G; apply orb_true_r)) as T9. destruct (decode_one_post dec Debug _ _ D) as [C _]. specialize (C T9). cbn [nth] in C. clear D T9.
  destruct e; try discriminate G; unfold has_code in C; subst t; discriminate K.
Qed.
Lemma says_meets : (forall s l, octets_say s l -> bytes s -> Forall meets l) /\ (forall s e n, head_says s e n -> bytes s -> meets e).
Proof.
  apply says_ind.
  - intros _. constructor.
  - intros s e n l H IHh T IHt B. constructor; [apply IHh, B|apply IHt, bytes_skipn, B].
  - intros t q x r e n K R N0 B. pose proof (head_plain t q x r e n K R N0) as H. pose proof (proj2 says_kept _ _ _ H B) as Ke.
    pose proof (plain_not_group _ _ _ _ _ _ _ H B eq_refl K) as G. apply PropsV2Reach.head_iff in H as (_ & D & _); [|exact B]. exact (plain_meets _ _ B D Ke G).
  - intros t a b c q x f l e n K F O IH E N0 B. refine (code_meets _ _ _ K _ _ _ _ _ E). apply IH.
    apply bytes_firstn. unfold bytes in B. do 4 (apply Forall_cons_iff in B; destruct B as [_ B]). exact B.
Qed.

(* ------------------------------------------------------------------------- *)
(* C65: exactly the elements that meet the condition arrive, groups included. *)
Definition not_sent_on (e : ie) : Prop := match e with IE_MmContext _ | IE_Unknown _ => True | _ => False end.
Theorem C65_exact_groups : forall b l e, bytes b -> decoder Debug b = Ok l -> In e l -> ~ not_sent_on e ->
  ie_instance e < 16 -> nlen (ie_marshal e) <= 65535 -> (arrives e <-> survives e).
Proof.
  intros b l e B D I G S1 S2. destruct (a_group e) eqn:GR.
  - pose proof D as D'. apply decoder_iff in D'; [|exact B]. split.
    + intros A. assert (NE : ie_marshal e <> []) by (intros Z; pose proof (ie_marshal_pos e) as P; rewrite Z in P; cbn in P; lia).
      destruct (arrives_says e Debug NE A) as (A1 & _ & _).
      pose proof (proj1 (Forall_forall _ _) (proj1 says_meets _ _ D' B) e I S2) as [_ M]. apply (g_back _ (M GR S1)). exists []. rewrite app_nil_r. exact A1.
    + intros A m after F. pose proof (proj1 (Forall_forall _ _) (proj1 says_kept _ _ D' B) e I) as K. destruct (K ltac:(repeat split; assumption)) as [W R].
      rewrite <- (PropsV2Ie.C18_ie_list_roundtrip m (again e :: after)) by (constructor; [split; assumption|exact F]). unfold encoder. cbn [map concat]. rewrite marshal_of_again. reflexivity.
  - apply (C65_exact b l e B D I); [|exact S1|exact S2]. destruct e; try discriminate GR; intros Z; try contradiction Z; apply G; exact Logic.I.
Qed.
Print Assumptions C65_exact_groups.

(* A bearer context with a bearer identity arrives; one with a transaction identifier does not, although the identifier alone would. *)
Example C65_groups_example : exists e, decoder Debug [93; 0; 5; 0; 73; 0; 1; 0; 5] = Ok [e] /\ a_group e = true /\ arrives e.
Proof.
  eexists. split; [vm_compute; reflexivity|]. split; [reflexivity|]. eapply (C65_exact_groups [93; 0; 5; 0; 73; 0; 1; 0; 5]).
  - repeat constructor.
  - vm_compute. reflexivity.
  - left. reflexivity.
  - intros [].
  - reflexivity.
  - vm_compute. discriminate.
  - repeat split; vm_compute; repeat constructor; discriminate.
Qed.
Example C65_groups_lost : exists e, decoder Debug [93; 0; 10; 0; 73; 0; 1; 0; 5; 137; 0; 1; 0; 7] = Ok [e] /\ a_group e = true /\ ~ arrives e /\
  exists x, decoder Debug [137; 0; 1; 0; 7] = Ok [x] /\ arrives x.
Proof.
  eexists. split; [vm_compute; reflexivity|]. split; [reflexivity|]. split.
  - intros A. apply (C65_exact_groups [93; 0; 10; 0; 73; 0; 1; 0; 5; 137; 0; 1; 0; 7] _ _ ltac:(repeat constructor) ltac:(vm_compute; reflexivity) ltac:(left; reflexivity) ltac:(intros [])) in A;
      [|reflexivity|vm_compute; discriminate]. cbn [survives group_survives ie_v] in A. repeat match type of A with _ /\ _ => destruct A as [_ A] end. discriminate A.
  - eexists. split; [vm_compute; reflexivity|]. eapply (C65_exact_groups [137; 0; 1; 0; 7]).
    + repeat constructor.
    + vm_compute. reflexivity.
    + left. reflexivity.
    + intros [].
    + reflexivity.
    + vm_compute. discriminate.
    + exact Logic.I.
Qed.
