(* PropsV1Report.v - C84: when a GTPv1 element, extension header or header says that it is empty. *)
From Verif Require Import Base BaseFacts Digits V1U V1CHdr V1CIe V1CKind V1CMsgSpec V1Report PropsV1Within.
Local Open Scope N_scope.
Notation length := List.length.

(* --- specification --------------------------------------------------------------------------------------------------- *)
(* An element has no value if it has a length (type codes from 128 on) and that is zero. *)
Definition has_length (k : kind1) : Prop := tv_size k = None.
Definition length_zero (b : list N) : Prop := nth 1 b 0 = 0 /\ nth 2 b 0 = 0.
(* the kinds that are refused when their length is zero *)
Definition refused_without_value (k : kind1) : bool :=
  match k with
  | K1_Eua | K1_Apn | K1_Pco | K1_Gsn | K1_Msisdn | K1_Qos | K1_Tft | K1_TriggerId | K1_OmcId | K1_ChargingGw | K1_Pe => true
  | _ => false
  end.
(* the digits in a string of octets: two to an octet, the low half first; 10 to 15 are not digits *)
Definition digits_of (b : list N) : list N := filter (fun d => d <? 10) (flat_map (fun x => [N.land x 15; N.shiftr x 4]) b).

(* --- proofs: GTPv1-C elements ---------------------------------------------------------------------------------------- *)
Lemma be16_zero x y : be16 x y = 0 <-> x = 0 /\ y = 0. Proof. unfold be16. lia. Qed.
Definition told {A} (b : list N) (r : res (Tlv A)) : Prop := forall x, r = Ok x -> (tlv_length x =? 0) = true <-> length_zero b.
Lemma at_nth_ (b : list N) i x : at_ (E:=GTPV1Error) b i = Ok x -> nth i b 0 = x.
Proof. unfold at_. destruct (nth_error b i) eqn:E; intros H; [|discriminate H]. apply Ok_inj in H. subst. apply nth_error_nth. exact E. Qed.
Ltac bd H := match type of H with bind ?r _ = Ok _ => let x := fresh "x" in let E := fresh "E" in destruct r as [x| | |] eqn:E; try discriminate H; cbn [bind] in H end.
Lemma fixed_told {A} T n (k : list N -> res A) b : told b (fixed_unmarshal T n k b).
Proof.
  intros x H. unfold fixed_unmarshal in H. destruct (n <=? length b)%nat; [|discriminate H]. bd H. bd H. bd H. apply Ok_inj in H. subst x. cbn [tlv_length].
  rewrite N.eqb_eq, be16_zero. unfold length_zero. rewrite (at_nth_ _ _ _ E), (at_nth_ _ _ _ E0). reflexivity.
Qed.
Lemma var_value {A} T (k : N -> list N -> res A) m b x : var_unmarshal T k m b = Ok x -> tlv_length x <> 0 /\ ~ length_zero b.
Proof.
  intros H. unfold var_unmarshal in H. destruct (3 <=? length b)%nat; [|discriminate H]. bd H. bd H. cbv zeta in H. bd H.
  destruct x2; [|discriminate H]. bd H. apply Ok_inj in H. subst x. cbn [tlv_length].
  unfold check_tlv_ie_buffer in E1. destruct (N.eqb_spec (be16 x0 x1) 0) as [Z|Z]; [discriminate E1|]. split; [exact Z|].
  unfold length_zero. rewrite (at_nth_ _ _ _ E), (at_nth_ _ _ _ E0), <- be16_zero. exact Z.
Qed.
Lemma var_told {A} T (k : N -> list N -> res A) m b : told b (var_unmarshal T k m b).
Proof. intros x H. destruct (var_value _ _ _ _ _ H) as [P Q]. rewrite N.eqb_eq. tauto. Qed.
Lemma camel_told m b : told b (Camel_unmarshal m b).
Proof.
  intros x H. unfold Camel_unmarshal in H. destruct (3 <=? length b)%nat; [|discriminate H]. bd H. bd H. cbv zeta in H. bd H.
  destruct (N.to_nat x2 <=? length b)%nat; [|discriminate H]. bd H. apply Ok_inj in H. subst x. cbn [tlv_length].
  rewrite N.eqb_eq, be16_zero. unfold length_zero. rewrite (at_nth_ _ _ _ E), (at_nth_ _ _ _ E0). reflexivity.
Qed.
(* A received element says that it is empty exactly if it has a length and that is zero: all kinds but the IMSI and the IMEI. *)
Theorem C84_received_partial : forall k m b i, k <> K1_Imsi -> k <> K1_Imei -> ie1_unmarshal k m b = Ok i ->
  (is_empty1 i = true <-> has_length k /\ length_zero b).
Proof.
  intros k m b i NI NE H. destruct k; try contradiction; unfold ie1_unmarshal in H; bd H; apply Ok_inj in H; subst i; cbn [is_empty1].
  all: first [split; [discriminate|intros [X _]; discriminate X]
    | transitivity (length_zero b); [|unfold has_length; cbn [tv_size]; tauto];
      first [exact (camel_told _ _ _ E) | exact (fixed_told _ _ _ _ _ E) | exact (var_told _ _ _ _ _ E)]].
Qed.
(* Of these, eleven kinds are never received empty. *)
Theorem C84_never_empty : forall k m b i, refused_without_value k = true -> ie1_unmarshal k m b = Ok i -> is_empty1 i = false /\ ~ length_zero b.
Proof.
  intros k m b i R H. destruct k; try discriminate R; unfold ie1_unmarshal in H; bd H; apply Ok_inj in H; subst i; cbn [is_empty1];
    destruct (var_value _ _ _ _ _ E) as [P Q]; (split; [apply N.eqb_neq; exact P|exact Q]).
Qed.
(* An IMSI, which always has eight octets, says that it is empty if its only digit is a 0, and not if it has no digit. *)
Lemma decode_digits s : tbcd_decode s = map (fun d => 48 + d) (digits_of s).
Proof.
  unfold tbcd_decode, digits_of. rewrite flat_map_concat_map. induction (concat (map (fun x => [N.land x 15; N.shiftr x 4]) s)) as [|d l IH]; [reflexivity|].
  cbn [filter_map filter]. unfold from_digit at 1. destruct (d <? 10); [cbn [map]; f_equal|]; exact IH.
Qed.
Theorem C84_imsi_refuted :
  (forall m b i, ie1_unmarshal K1_Imsi m b = Ok i -> (is_empty1 i = true <-> digits_of (firstn 8 (skipn 1 b)) = [0])) /\
  (forall m r, exists i, ie1_unmarshal K1_Imsi m ([2; 240; 255; 255; 255; 255; 255; 255; 255] ++ r) = Ok i /\ is_empty1 i = true) /\
  (forall m r, exists i, ie1_unmarshal K1_Imsi m ([2; 255; 255; 255; 255; 255; 255; 255; 255] ++ r) = Ok i /\ is_empty1 i = false).
Proof.
  split; [|split].
  - intros m b i H. unfold ie1_unmarshal in H. bd H. apply Ok_inj in H. subst i. unfold Imsi_unmarshal, tv_unmarshal in E.
    destruct (9 <=? length b)%nat; [|discriminate E]. bd E. bd E0. apply Ok_inj in E, E0. subst x x0. cbn [is_empty1 tv_v].
    unfold slice in E1. destruct (_ && _); [|discriminate E1]. apply Ok_inj in E1. subst x1. change (9 - 1)%nat with 8%nat. rewrite decode_digits.
    destruct (digits_of (firstn 8 (skipn 1 b))) as [|d [|e l]]; cbn [map]; [split; discriminate| |split; discriminate].
    rewrite N.eqb_eq. split; [intros X; f_equal; lia|intros X; injection X as ->; reflexivity].
  - intros m r. eexists. split; reflexivity.
  - intros m r. eexists. split; reflexivity.
Qed.
(* An IMEI is read as eight octets and never says that it is empty, also if its length is zero. *)
Theorem C84_imei_refuted :
  (forall m b i, ie1_unmarshal K1_Imei m b = Ok i -> is_empty1 i = false) /\
  (forall m v r, length v = 8%nat -> exists i, ie1_unmarshal K1_Imei m ([154; 0; 0] ++ v ++ r) = Ok i /\ is_empty1 i = false).
Proof.
  assert (H1 : forall m b i, ie1_unmarshal K1_Imei m b = Ok i -> is_empty1 i = false).
  { intros m b i H. unfold ie1_unmarshal in H. bd H. apply Ok_inj in H. subst i. unfold Imei_unmarshal in E. destruct (11 <=? length b)%nat; [|discriminate E].
    bd E. apply Ok_inj in E. subst x. reflexivity. }
  split; [exact H1|]. intros m v r L. destruct (ie1_unmarshal K1_Imei m ([154; 0; 0] ++ v ++ r)) as [i| | |] eqn:E; [exists i; split; [reflexivity|exact (H1 _ _ _ E)]|exfalso..].
  all: destruct v as [|? [|? [|? [|? [|? [|? [|? [|? [|? ?]]]]]]]]]; try discriminate L; cbn in E; discriminate E.
Qed.
(* The elements of a fixed size are accepted without value: they say that they are empty, and have contents, which are those of the
   octets that follow. *)
Theorem C84_contents_refuted : forall m k, 0 < value_size k -> k <> K1_Imei -> k <> K1_Msisdn -> k <> K1_Pe ->
  exists own r1 r2 e1 e2, element_octets k own /\ length_zero own /\ ie1_unmarshal k m (own ++ r1) = Ok e1 /\ ie1_unmarshal k m (own ++ r2) = Ok e2 /\
    is_empty1 e1 = true /\ is_empty1 e2 = true /\ e1 <> e2.
Proof.
  intros m k V NE HM NP. destruct (C81_beyond_refuted m k 0 V ltac:(intros ->; contradiction)) as (own & r1 & r2 & e1 & e2 & O & D & E1 & E2 & X).
  exists own, r1, r2, e1, e2. split; [exact O|]. assert (Z : length_zero own) by (unfold declares in D; unfold length_zero; lia). split; [exact Z|].
  split; [exact E1|]. split; [exact E2|]. destruct O as [_ O]. destruct (tv_size k) eqn:T; [destruct k; discriminate|]. destruct O as [O _].
  assert (Q : forall r, length_zero (own ++ r)) by (intros r; unfold length_zero; rewrite !app_nth1 by lia; exact Z).
  assert (NI : k <> K1_Imsi) by (intros ->; discriminate T).
  split; [|split; [|exact X]]; (eapply C84_received_partial; [..|split; [exact T|apply Q]]); eassumption.
Qed.
(* An element that is built says so if the length field that is given is zero; what is sent has the length of the contents. *)
Theorem C84_built_refuted : forall v, 0 < nlen v < 65536 ->
  is_empty1 (I1_Pco (mkTlv 132 0 v)) = true /\ ie1_marshal (I1_Pco (mkTlv 132 0 v)) = [132; nlen v / 256; nlen v mod 256] ++ v.
Proof.
  intros v L. split; [reflexivity|]. cbn [ie1_marshal]. unfold tlv_marshal, set_tlv_ie_length. cbn [tlv_t tlv_length tlv_v enc16 app set_nth].
  replace (nlen (_ :: _ :: _ :: v)) with (nlen v + 3) by (unfold nlen; cbn [length]; lia).
  replace (nlen v + 3 - 3) with (nlen v) by lia. rewrite (N.mod_small (nlen v)) by lia. rewrite (N.mod_small (nlen v / 256)) by (apply N.div_lt_upper_bound; lia). reflexivity.
Qed.

(* --- proofs: extension headers and headers --------------------------------------------------------------------------- *)
Definition end_mark (b : list N) : Prop := nth 0 b 0 = 0.
Lemma at0_nth (b : list N) t : at_ (E:=GTPV1Error) b 0 = Ok t -> nth 0 b 0 = t.
Proof. apply at_nth_. Qed.
(* GTPv1-C: only the end mark says that it is empty, and no extension header is received with a length of zero. *)
Theorem C84_extension : forall m b e, cext_unmarshal m b = Ok e -> (cext_is_empty e = true <-> end_mark b) /\
  match e with
  | CX_PDCPPDUNumber x | CX_SuspendRequest x | CX_SuspendResponse x | CX_MBMSSupportIndication x | CX_MSInfoChangeReporting x => cnum_is_empty x = false
  | CX_Unknown x => cunknown_is_empty x = false
  | CX_NoMore => True
  end.
Proof.
  assert (Z : forall t m b x, Num16_unmarshal t m b = Ok x -> cnum_is_empty x = false).
  { intros t m b x H. unfold Num16_unmarshal, ext_checked in H. bd H. destruct (N.eqb_spec x0 0) as [Y|Y]; [discriminate H|]. bd H.
    destruct (_ <=? _)%nat; [|discriminate H]. bd H. bd H. apply Ok_inj in H. subst x. unfold cnum_is_empty. cbn [ne_length]. apply N.eqb_neq. exact Y. }
  intros m b e H. unfold cext_unmarshal in H. bd H. pose proof (at0_nth _ _ E) as A. unfold end_mark. rewrite A. unfold NO_MORE_EXTENSION_HEADERS in H.
  destruct (N.eqb_spec x 0) as [X|X]; [apply Ok_inj in H; subst e; split; [cbn; tauto|exact I]|].
  repeat (match type of H with (if ?c then _ else _) = _ => destruct c end; [bd H; apply Ok_inj in H; subst e; split; [cbn [cext_is_empty]; split; [discriminate|intros; contradiction]|exact (Z _ _ _ _ E0)]|]).
  bd H. apply Ok_inj in H. subst e. split; [cbn [cext_is_empty]; split; [discriminate|intros; contradiction]|reflexivity].
Qed.
(* The header of GTPv1-C: exactly if no optional field is there and everything is zero but the length, which is 8. *)
Lemma be32_zero a b c d : be32 a b c d = 0 <-> a = 0 /\ b = 0 /\ c = 0 /\ d = 0. Proof. unfold be32. lia. Qed.
Lemma be16_eight a b : be16 a b = 8 <-> a = 0 /\ b = 8. Proof. unfold be16. lia. Qed.
Lemma no_flags x : N.land x 7 <> 0 -> N.land (N.shiftr x 2) 1 = 1 \/ N.land (N.shiftr x 1) 1 = 1 \/ N.land x 1 = 1.
Proof.
  change 7 with (N.ones 3). change 1 with (N.ones 1). rewrite !N.land_ones, !N.shiftr_div_pow2.
  change (2 ^ 3) with 8. change (2 ^ N.ones 1) with 2. change (2 ^ 2) with 4. change (2 ^ 1) with 2. change (N.ones 1) with 1. change (2^1) with 2. intros H.
  pose proof (N.mod_upper_bound (x / 4) 2 ltac:(lia)). pose proof (N.mod_upper_bound (x / 2) 2 ltac:(lia)). pose proof (N.mod_upper_bound x 2 ltac:(lia)).
  assert (x mod 8 = 4 * ((x / 4) mod 2) + 2 * ((x / 2) mod 2) + x mod 2) by (clear; Zify.zify; Z.to_euclidean_division_equations; lia). lia.
Qed.
Theorem C84_header : forall m b h, chdr_unmarshal m b = Ok h ->
  (chdr_is_empty h = true <-> N.land (nth 0 b 0) 7 = 0 /\ nth 1 b 0 = 0 /\ (nth 2 b 0 = 0 /\ nth 3 b 0 = 8) /\ nth 4 b 0 = 0 /\ nth 5 b 0 = 0 /\ nth 6 b 0 = 0 /\ nth 7 b 0 = 0).
Proof.
  intros m b h H. unfold chdr_unmarshal in H. destruct (length b <? 8)%nat; [discriminate H|]. bd H. destruct (_ && _); [|discriminate H].
  bd H. bd H. bd H. bd H. bd H. bd H. bd H. cbv zeta in H.
  rewrite (at_nth_ _ _ _ E), (at_nth_ _ _ _ E0), (at_nth_ _ _ _ E1), (at_nth_ _ _ _ E2), (at_nth_ _ _ _ E3), (at_nth_ _ _ _ E4), (at_nth_ _ _ _ E5), (at_nth_ _ _ _ E6).
  destruct (N.eqb_spec (N.land x 7) 0) as [F|F].
  - apply Ok_inj in H. subst h. unfold chdr_is_empty. cbn [c_msgtype c_length c_teid c_sqn c_npdu c_ext is_some negb]. rewrite !andb_true_r, !andb_true_iff, !N.eqb_eq, be32_zero, be16_eight. tauto.
  - assert (P : forall q : Prop, False -> (false = true <-> N.land x 7 = 0 /\ q)) by (intros ? []). clear P.
    assert (G : chdr_is_empty h = false); [|rewrite G; split; [discriminate|intros [W _]; contradiction]].
    destruct (N.eqb_spec (N.land (N.shiftr x 1) 1) 1) as [S1|S1]; [|destruct (N.eqb_spec (N.land x 1) 1) as [P1|P1]; [|destruct (N.eqb_spec (N.land (N.shiftr x 2) 1) 1) as [X1|X1]; [|exfalso; destruct (no_flags _ F) as [Y|[Y|Y]]; contradiction]]].
    + bd H. bd H. bd H. apply Ok_inj in H. subst h. bd E7. destruct (length _ <? 2)%nat; [discriminate E7|]. bd E7. bd E7. apply Ok_inj in E7. subst x7.
      unfold chdr_is_empty. cbn [c_sqn is_some negb]. rewrite !andb_false_r. reflexivity.
    + bd H. bd H. bd H. apply Ok_inj in H. subst h. bd E8. destruct (length _ <? 3)%nat; [discriminate E8|]. bd E8. apply Ok_inj in E8. subst x8.
      unfold chdr_is_empty. cbn [c_npdu is_some negb]. rewrite !andb_false_r. reflexivity.
    + cbn [bind] in H. match type of H with bind ?r _ = _ => destruct r as [ex| | |] eqn:EX; try discriminate H; cbn [bind] in H end. apply Ok_inj in H. subst h.
      bd EX. destruct (length _ <? 4)%nat; [discriminate EX|]. bd EX. bd EX. apply Ok_inj in EX. subst ex.
      unfold chdr_is_empty. cbn [c_ext is_some negb]. rewrite !andb_false_r. reflexivity.
Qed.

(* --- proofs: GTP-U --------------------------------------------------------------------------------------------------- *)
(* In GTP-U the end mark says that it is empty, and so do PDCP PDU numbers, UDP ports and service class indicators whose value is
   zero, although it is there. *)
Definition zero_number (b : list N) : Prop :=
  ((nth 0 b 0 = 192 \/ nth 0 b 0 = 64) /\ nth 2 b 0 = 0 /\ nth 3 b 0 = 0) \/ (nth 0 b 0 = 32 /\ nth 2 b 0 = 0).
Lemma Num16_u t m b x : Num16_unmarshal t m b = Ok x -> (ne_value x =? 0) = true <-> nth 2 b 0 = 0 /\ nth 3 b 0 = 0.
Proof.
  intros H. unfold Num16_unmarshal, ext_checked in H. bd H. destruct (x0 =? 0); [discriminate H|]. bd H. destruct (_ <=? _)%nat; [|discriminate H]. bd H. bd H. apply Ok_inj in H. subst x.
  cbn [ne_value]. rewrite N.eqb_eq, be16_zero, (at_nth_ _ _ _ E1), (at_nth_ _ _ _ E2). reflexivity.
Qed.
Lemma Sci_u m b x : Sci_unmarshal m b = Ok x -> (ne_value x =? 0) = true <-> nth 2 b 0 = 0.
Proof.
  intros H. unfold Sci_unmarshal, ext_checked in H. bd H. destruct (x0 =? 0); [discriminate H|]. bd H. destruct (_ <=? _)%nat; [|discriminate H]. bd H. apply Ok_inj in H. subst x.
  cbn [ne_value]. rewrite N.eqb_eq, (at_nth_ _ _ _ E1). reflexivity.
Qed.
Lemma Long_u m b x : Long_unmarshal m b = Ok x -> (ne_length x =? 0) = false.
Proof.
  intros H. unfold Long_unmarshal in H. bd H. destruct (_ || _); [|discriminate H]. unfold ext_checked in H. bd H. destruct (N.eqb_spec x1 0) as [Z|Z]; [discriminate H|]. bd H.
  destruct (_ <=? _)%nat; [|discriminate H]. bd H. bd H. bd H. apply Ok_inj in H. subst x. apply N.eqb_neq. exact Z.
Qed.
Lemma Blob_u t m b x : Forall (fun o => o < 256) b -> Blob_unmarshal t m b = Ok x -> no_octets (be_container x) = false.
Proof.
  intros B H. unfold Blob_unmarshal, ext_checked in H. bd H. destruct (N.eqb_spec x0 0) as [Z|Z]; [discriminate H|]. bd H.
  destruct (Nat.leb_spec (N.to_nat x1) (length b)) as [L|L]; [|discriminate H]. bd H. apply Ok_inj in H. subst x. cbn [be_container].
  assert (X : 4 <= x1 \/ x1 = 0).
  { unfold mul8, ov in E0. destruct (x0 * 4 <? 256); [apply Ok_inj in E0; lia|]. destruct m; [discriminate E0|]. apply Ok_inj in E0. subst x1.
    change 256 with (64 * 4). rewrite N.mul_mod_distr_r by lia. lia. }
  unfold slice in E1. destruct ((2 <=? N.to_nat x1)%nat && _) eqn:Q; [|discriminate E1]. apply Ok_inj in E1. apply andb_prop in Q. destruct Q as [Q _]. apply Nat.leb_le in Q.
  destruct x2 as [|o l]; [|reflexivity]. apply (f_equal (@List.length N)) in E1. rewrite firstn_length, skipn_length in E1. cbn [length] in E1. lia.
Qed.
Theorem C84_u_extension_refuted : forall m b e, Forall (fun o => o < 256) b -> ext_unmarshal m b = Ok e -> (ext_is_empty e = true <-> end_mark b \/ zero_number b).
Proof.
  intros m b e B H. unfold ext_unmarshal in H. bd H. unfold end_mark, zero_number. rewrite (at0_nth _ _ E).
  unfold NO_MORE_EXTENSION_HEADERS, PDCP_PDU_NUMBER, UDP_PORT, LONG_PDCP_PDU_NUMBER_I, LONG_PDCP_PDU_NUMBER_II, SCI, RAN_CONTAINER, XW_RAN_CONTAINER, NR_RAN_CONTAINER, PDU_SESSION_CONTAINER in H.
  destruct (N.eqb_spec x 0) as [X|X]; [apply Ok_inj in H; subst e; cbn; tauto|].
  destruct (N.eqb_spec x 192) as [X1|X1]; [bd H; apply Ok_inj in H; subst e; cbn [ext_is_empty]; rewrite (Num16_u _ _ _ _ E0); intuition lia|].
  destruct (N.eqb_spec x 64) as [X2|X2]; [bd H; apply Ok_inj in H; subst e; cbn [ext_is_empty]; rewrite (Num16_u _ _ _ _ E0); intuition lia|].
  destruct (N.eqb_spec x 3) as [X3|X3]; [bd H; apply Ok_inj in H; subst e; cbn [ext_is_empty]; rewrite (Long_u _ _ _ E0); split; [discriminate|intuition lia]|].
  destruct (N.eqb_spec x 130) as [X4|X4]; [bd H; apply Ok_inj in H; subst e; cbn [ext_is_empty]; rewrite (Long_u _ _ _ E0); split; [discriminate|intuition lia]|].
  destruct (N.eqb_spec x 32) as [X5|X5]; [bd H; apply Ok_inj in H; subst e; cbn [ext_is_empty]; rewrite (Sci_u _ _ _ E0); intuition lia|].
  repeat (match type of H with (if ?c then _ else _) = _ => destruct c end; [bd H; apply Ok_inj in H; subst e; cbn [ext_is_empty]; rewrite (Blob_u _ _ _ _ B E0); split; [discriminate|intuition lia]|]).
  bd H. unfold Unknown_unmarshal in E0. bd E0. apply Ok_inj in H; subst e; cbn [ext_is_empty]; rewrite (Blob_u _ _ _ _ B E0); split; [discriminate|intuition lia].
Qed.
(* So do a TEID of zero, a restart counter of zero and the address 0.0.0.0. *)
Theorem C84_u_teid_refuted : forall b x, Teid_unmarshal b = Ok x -> (teid_is_empty x = true <-> nth 1 b 0 = 0 /\ nth 2 b 0 = 0 /\ nth 3 b 0 = 0 /\ nth 4 b 0 = 0).
Proof.
  intros b x H. unfold Teid_unmarshal in H. destruct (4 <? length b)%nat; [|discriminate H]. bd H. bd H. bd H. bd H. bd H. apply Ok_inj in H. subst x.
  unfold teid_is_empty. cbn [te_teid]. rewrite N.eqb_eq, be32_zero, (at_nth_ _ _ _ E0), (at_nth_ _ _ _ E1), (at_nth_ _ _ _ E2), (at_nth_ _ _ _ E3). reflexivity.
Qed.
Theorem C84_u_recovery_refuted : forall b x, Rec_unmarshal b = Ok x -> (rec_is_empty x = true <-> nth 1 b 0 = 0).
Proof.
  intros b x H. unfold Rec_unmarshal in H. destruct (1 <? length b)%nat; [|discriminate H]. bd H. bd H. apply Ok_inj in H. subst x.
  unfold rec_is_empty. cbn [rec_value]. rewrite N.eqb_eq, (at_nth_ _ _ _ E0). reflexivity.
Qed.
Theorem C84_u_address_refuted : forall m b x, Gsn_unmarshal m b = Ok x ->
  (gsn_is_empty x = true <-> (nth 1 b 0 = 0 /\ nth 2 b 0 = 4) /\ nth 3 b 0 = 0 /\ nth 4 b 0 = 0 /\ nth 5 b 0 = 0 /\ nth 6 b 0 = 0).
Proof.
  intros m b x H. unfold Gsn_unmarshal in H. destruct (3 <=? length b)%nat; [|discriminate H]. bd H. bd H. cbv zeta in H. destruct (be16 x0 x1 =? 0); [discriminate H|]. bd H.
  destruct x2; [|discriminate H]. rewrite (at_nth_ _ _ _ E), (at_nth_ _ _ _ E0).
  assert (F : be16 x0 x1 = 4 <-> x0 = 0 /\ x1 = 4) by (unfold be16; lia).
  destruct (N.eqb_spec (be16 x0 x1) 4) as [Z|Z].
  - bd H. bd H. bd H. bd H. apply Ok_inj in H. subst x. unfold gsn_is_empty. cbn [gsn_ip]. rewrite !andb_true_iff, !N.eqb_eq.
    rewrite (at_nth_ _ _ _ E2), (at_nth_ _ _ _ E3), (at_nth_ _ _ _ E4), (at_nth_ _ _ _ E5). tauto.
  - destruct (be16 x0 x1 =? 16); [|discriminate H]. destruct (19 <=? length b)%nat; [|discriminate H]. bd H. apply Ok_inj in H. subst x. unfold gsn_is_empty. cbn [gsn_ip].
    split; [discriminate|tauto].
Qed.
(* A private extension says so if nothing follows its identifier in the packet, whatever its length; a list of extension header
   types never does in a debug build. *)
Theorem C84_u_private_refuted : forall m b x, Pe_unmarshal m b = Ok x -> (pe_is_empty x = true <-> length b = 5%nat).
Proof.
  intros m b x H. unfold Pe_unmarshal in H. destruct (3 <=? length b)%nat; [|discriminate H]. bd H. bd H. cbv zeta in H. destruct (be16 x0 x1 =? 0); [discriminate H|]. bd H.
  destruct x2; [|discriminate H]. bd H. bd H. bd H. apply Ok_inj in H. subst x. unfold pe_is_empty. cbn [pe_value].
  unfold slice_from in E4. destruct (Nat.leb_spec 5 (length b)) as [L|L]; [|discriminate E4]. apply Ok_inj in E4. pose proof (skipn_length 5 b) as K. rewrite E4 in K.
  destruct x4; cbn [no_octets length] in *; split; intros; try reflexivity; try discriminate; lia.
Qed.
Theorem C84_u_list : forall b x, Ehtl_unmarshal Debug b = Ok x -> ehtl_is_empty x = false.
Proof.
  intros b x H. unfold Ehtl_unmarshal in H. bd H. destruct (N.eqb_spec x0 0) as [Z|Z]; [discriminate H|]. bd H. destruct (Nat.leb_spec (N.to_nat x1) (length b)) as [L|L]; [|discriminate H]. bd H.
  apply Ok_inj in H. subst x. unfold add8, ov in E0. destruct (x0 + 2 <? 256); [|discriminate E0]. apply Ok_inj in E0. subst x1.
  unfold slice_from in E1. destruct (2 <=? length b)%nat; [|discriminate E1]. apply Ok_inj in E1. pose proof (skipn_length 2 b) as K. rewrite E1 in K.
  unfold ehtl_is_empty. cbn [ehtl_list]. destruct x2; [cbn [length] in K; lia|reflexivity].
Qed.
Theorem C84_u_list_refuted : exists b x, Ehtl_unmarshal Release b = Ok x /\ nth 1 b 0 = 254 /\ ehtl_is_empty x = true.
Proof. exists [141; 254]. eexists. split; [vm_compute; reflexivity|split; reflexivity]. Qed.

(* --- the hypotheses are met ------------------------------------------------------------------------------------------ *)
Example C84_case_rat : exists i, ie1_unmarshal K1_RatType Debug [151; 0; 0; 2] = Ok i /\ is_empty1 i = true. Proof. eexists. split; reflexivity. Qed.
Example C84_case_camel : exists i, ie1_unmarshal K1_Camel Debug [155; 0; 0] = Ok i /\ is_empty1 i = true. Proof. eexists. split; reflexivity. Qed.
Example C84_case_pco : exists i, ie1_unmarshal K1_Pco Debug [132; 0; 2; 7; 8] = Ok i /\ is_empty1 i = false. Proof. eexists. split; reflexivity. Qed.
Example C84_case_contents : 0 < value_size K1_Uli. Proof. reflexivity. Qed.
Example C84_case_ext : exists e, cext_unmarshal Debug [192; 1; 0; 0] = Ok e /\ cext_is_empty e = false. Proof. eexists. split; reflexivity. Qed.
Example C84_case_header : exists h, chdr_unmarshal Debug [48; 0; 0; 8; 0; 0; 0; 0] = Ok h /\ chdr_is_empty h = true. Proof. eexists. split; reflexivity. Qed.
Example C84_case_u_ext : exists e, ext_unmarshal Debug [192; 1; 0; 0] = Ok e /\ ext_is_empty e = true. Proof. eexists. split; reflexivity. Qed.
Example C84_case_u_teid : exists x, Teid_unmarshal [16; 0; 0; 0; 0] = Ok x /\ teid_is_empty x = true. Proof. eexists. split; reflexivity. Qed.
Example C84_case_u_recovery : exists x, Rec_unmarshal [14; 0] = Ok x /\ rec_is_empty x = true. Proof. eexists. split; reflexivity. Qed.
Example C84_case_u_address : exists x, Gsn_unmarshal Debug [133; 0; 4; 0; 0; 0; 0] = Ok x /\ gsn_is_empty x = true. Proof. eexists. split; reflexivity. Qed.
Example C84_case_u_private : exists x, Pe_unmarshal Debug [255; 0; 2; 0; 9; 1] = Ok x /\ pe_is_empty x = false. Proof. eexists. split; reflexivity. Qed.
Example C84_case_u_list : exists x, Ehtl_unmarshal Debug [141; 1; 192] = Ok x /\ ehtl_is_empty x = false. Proof. eexists. split; reflexivity. Qed.

Print Assumptions C84_received_partial.
Print Assumptions C84_never_empty.
Print Assumptions C84_imsi_refuted.
Print Assumptions C84_imei_refuted.
Print Assumptions C84_contents_refuted.
Print Assumptions C84_built_refuted.
Print Assumptions C84_extension.
Print Assumptions C84_header.
Print Assumptions C84_u_extension_refuted.
Print Assumptions C84_u_teid_refuted.
Print Assumptions C84_u_recovery_refuted.
Print Assumptions C84_u_address_refuted.
Print Assumptions C84_u_private_refuted.
Print Assumptions C84_u_list.
Print Assumptions C84_u_list_refuted.
