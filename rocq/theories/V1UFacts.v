From Verif Require Import BaseFacts V1U V1USpec.
Local Open Scope N_scope.

Lemma ext_checked_ok {A} m t l v (k : N -> N -> res A) :
  1 <= l <= 63 -> (N.to_nat (4 * l) <= length v + 2)%nat ->
  ext_checked m (t :: l :: v) k = k l (l * 4).
Proof.
  intros Hl Hv. unfold ext_checked, at_; cbn [nth_error bind].
  destruct (N.eqb_spec l 0); [lia|]. rewrite mul8_small by lia. cbn [bind length].
  destruct (Nat.leb_spec (N.to_nat (l * 4)) (S (S (length v)))); [reflexivity|lia].
Qed.

Lemma blob_unmarshal_ok t m x r :
  be_type x = t -> wf_blob x -> Blob_unmarshal t m (Blob_marshal x ++ r) = Ok x.
Proof.
  destruct x as [ty l c]; cbn [be_type]. intros -> [Hl Hc]; cbn in Hl, Hc; unfold nlen in Hc.
  unfold Blob_unmarshal, Blob_marshal; cbn [app be_type be_length be_container].
  rewrite ext_checked_ok; [|lia|rewrite app_length; lia].
  change (t :: l :: c ++ r) with ([t; l] ++ c ++ r).
  rewrite slice_app_mid; [reflexivity|reflexivity|cbn; lia].
Qed.

Lemma num16_unmarshal_ok t m x r :
  wf_num [t] 1 65536 x -> Num16_unmarshal t m (Num16_marshal x ++ r) = Ok x.
Proof.
  destruct x as [ty l v]; unfold wf_num; cbn [In ne_type ne_length ne_value]; intros [[<-|[]] [-> Hv]].
  unfold Num16_unmarshal, Num16_marshal; cbn [app ne_type ne_length ne_value enc16].
  rewrite ext_checked_ok by (cbn [length app]; lia).
  unfold at_; cbn [nth_error bind]. rewrite be16_enc by assumption. reflexivity.
Qed.

Lemma sci_unmarshal_ok m x r :
  wf_num [32] 1 256 x -> Sci_unmarshal m (Sci_marshal x ++ r) = Ok x.
Proof.
  destruct x as [ty l v]; unfold wf_num; cbn [In ne_type ne_length ne_value]; intros [[<-|[]] [-> Hv]].
  unfold Sci_unmarshal, Sci_marshal; cbn [app ne_type ne_length ne_value].
  rewrite ext_checked_ok by (cbn [length app]; lia). reflexivity.
Qed.

Lemma long_unmarshal_ok m x r :
  wf_num [3; 130] 2 16777216 x -> Long_unmarshal m (Long_marshal x ++ r) = Ok x.
Proof.
  destruct x as [ty l v]; unfold wf_num; cbn [In ne_type ne_length ne_value]; intros [Ht [-> Hv]].
  unfold Long_unmarshal, Long_marshal; cbn [app ne_type ne_length ne_value enc32].
  unfold at_ at 1; cbn [nth_error bind].
  replace ((ty =? LONG_PDCP_PDU_NUMBER_I) || (ty =? LONG_PDCP_PDU_NUMBER_II)) with true
    by (destruct Ht as [<-|[<-|[]]]; reflexivity).
  rewrite ext_checked_ok by (cbn [length app]; lia).
  unfold at_; cbn [nth_error bind]. do 2 f_equal. unfold be32. lia.
Qed.

Lemma long_marshal_type x r : nth_error (Long_marshal x ++ r) 0 = Some (ne_type x).
Proof. reflexivity. Qed.

Lemma not_known t : ~ In t known_ext_types ->
  (t =? NO_MORE_EXTENSION_HEADERS) = false /\ (t =? PDCP_PDU_NUMBER) = false /\
  (t =? UDP_PORT) = false /\ (t =? LONG_PDCP_PDU_NUMBER_I) = false /\
  (t =? LONG_PDCP_PDU_NUMBER_II) = false /\ (t =? SCI) = false /\
  (t =? RAN_CONTAINER) = false /\ (t =? XW_RAN_CONTAINER) = false /\
  (t =? NR_RAN_CONTAINER) = false /\ (t =? PDU_SESSION_CONTAINER) = false.
Proof.
  intros H. cbn in H.
  repeat split; apply N.eqb_neq; intros ->; apply H; cbv; tauto.
Qed.

Lemma ext_roundtrip m e r : wf_ext e -> ext_unmarshal m (ext_marshal e ++ r) = Ok e.
Proof.
  intros H. destruct e as [|x|x|x|x|x|x|x|x|x]; cbn [wf_ext] in H; try contradiction;
    cbn [ext_marshal]; unfold ext_unmarshal.
  - assert (ne_type x = 192) as Ht by (destruct H as [[<-|[]] _]; reflexivity).
    unfold at_. replace (nth_error (Num16_marshal x ++ r) 0) with (Some 192) by (rewrite <- Ht; reflexivity).
    cbn [bind]. change (192 =? NO_MORE_EXTENSION_HEADERS) with false. change (192 =? PDCP_PDU_NUMBER) with true. cbv iota.
    change PDCP_PDU_NUMBER with 192. rewrite num16_unmarshal_ok by exact H. reflexivity.
  - assert (ne_type x = 64) as Ht by (destruct H as [[<-|[]] _]; reflexivity).
    unfold at_. replace (nth_error (Num16_marshal x ++ r) 0) with (Some 64) by (rewrite <- Ht; reflexivity).
    cbn [bind]. change (64 =? NO_MORE_EXTENSION_HEADERS) with false. change (64 =? PDCP_PDU_NUMBER) with false.
    change (64 =? UDP_PORT) with true. cbv iota.
    change UDP_PORT with 64. rewrite num16_unmarshal_ok by exact H. reflexivity.
  - unfold at_. rewrite long_marshal_type. cbn [bind].
    assert (Ht : ne_type x = 3 \/ ne_type x = 130) by (destruct H as [[<-|[<-|[]]] _]; auto).
    rewrite long_unmarshal_ok by exact H.
    destruct Ht as [Ht|Ht]; rewrite Ht; reflexivity.
  - assert (ne_type x = 32) as Ht by (destruct H as [[<-|[]] _]; reflexivity).
    unfold at_. replace (nth_error (Sci_marshal x ++ r) 0) with (Some 32) by (rewrite <- Ht; reflexivity).
    cbn [bind]. rewrite sci_unmarshal_ok by exact H. reflexivity.
  - destruct H as [Ht H]. unfold at_.
    replace (nth_error (Blob_marshal x ++ r) 0) with (Some 129) by (rewrite <- Ht; reflexivity).
    cbn [bind]. change RAN_CONTAINER with 129. rewrite (blob_unmarshal_ok 129) by assumption. reflexivity.
  - destruct H as [Ht H]. unfold at_.
    replace (nth_error (Blob_marshal x ++ r) 0) with (Some 131) by (rewrite <- Ht; reflexivity).
    cbn [bind]. change XW_RAN_CONTAINER with 131. rewrite (blob_unmarshal_ok 131) by assumption. reflexivity.
  - destruct H as [Ht H]. unfold at_.
    replace (nth_error (Blob_marshal x ++ r) 0) with (Some 132) by (rewrite <- Ht; reflexivity).
    cbn [bind]. change NR_RAN_CONTAINER with 132. rewrite (blob_unmarshal_ok 132) by assumption. reflexivity.
  - destruct H as [Ht H]. unfold at_.
    replace (nth_error (Blob_marshal x ++ r) 0) with (Some 133) by (rewrite <- Ht; reflexivity).
    cbn [bind]. change PDU_SESSION_CONTAINER with 133. rewrite (blob_unmarshal_ok 133) by assumption. reflexivity.
  - destruct H as [Ht H]. unfold at_.
    replace (nth_error (Blob_marshal x ++ r) 0) with (Some (be_type x)) by reflexivity.
    cbn [bind]. destruct (not_known _ Ht) as (-> & -> & -> & -> & -> & -> & -> & -> & -> & ->).
    unfold Unknown_unmarshal, at_.
    replace (nth_error (Blob_marshal x ++ r) 0) with (Some (be_type x)) by reflexivity.
    cbn [bind]. rewrite blob_unmarshal_ok by auto. reflexivity.
Qed.

Lemma ext_len_ok m e : wf_ext e -> ext_len m e = Ok (length (ext_marshal e)).
Proof.
  intros H.
  assert (Hl : forall l n, 1 <= l <= 63 -> n = N.to_nat (4 * l) -> ext_len_of m l = Ok n).
  { intros l n Hl ->. unfold ext_len_of. rewrite mul8_small by lia. cbn [bind]. f_equal. lia. }
  destruct e as [|x|x|x|x|x|x|x|x|x]; cbn [wf_ext] in H; try contradiction;
    cbn [ext_len ext_marshal]; destruct x as [t l v]; try destruct H as [_ H]; destruct H as [H1 H2];
    cbn in H1, H2; unfold nlen in *;
    apply Hl; cbn; rewrite ?app_length; cbn; lia.
Qed.

Lemma ext_marshal_pos e : wf_ext e -> (4 <= length (ext_marshal e))%nat.
Proof.
  destruct e as [|x|x|x|x|x|x|x|x|x]; cbn [wf_ext]; try contradiction; destruct x as [t l v];
    unfold wf_blob, nlen; cbn; lia.
Qed.

Lemma wf_not_nomore e : wf_ext e -> e <> NoMoreExtensionHeaders.
Proof. intros H ->. exact H. Qed.

Lemma ext_loop_ok m l : Forall wf_ext l -> forall fuel pre data r,
  (length l < fuel)%nat ->
  ext_loop m fuel (pre ++ concat (map ext_marshal l) ++ 0 :: r) (length pre) data
  = Ok (data ++ l).
Proof.
  induction 1 as [|e l He Hl IH]; intros fuel pre data r Hf.
  - destruct fuel as [|fuel]; [lia|]. cbn [ext_loop map concat app].
    rewrite slice_from_ok by (rewrite app_length; lia).
    rewrite skipn_app_exact by reflexivity. cbn. rewrite app_nil_r. reflexivity.
  - destruct fuel as [|fuel]; [cbn in Hf; lia|]. cbn [ext_loop map concat app].
    rewrite slice_from_ok by (rewrite app_length; lia).
    rewrite skipn_app_exact by reflexivity. cbn [bind].
    rewrite <- app_assoc, ext_roundtrip by assumption. cbn [bind].
    rewrite (ext_len_ok m e He). cbn [bind].
    assert (E : match e with
            | NoMoreExtensionHeaders => Ok data
            | _ => ext_loop m fuel (pre ++ ext_marshal e ++ concat (map ext_marshal l) ++ 0 :: r)
                     (length pre + length (ext_marshal e)) (data ++ [e])
            end = ext_loop m fuel (pre ++ ext_marshal e ++ concat (map ext_marshal l) ++ 0 :: r)
                     (length pre + length (ext_marshal e)) (data ++ [e]))
      by (destruct e; [contradiction | reflexivity ..]).
    rewrite E. clear E.
    rewrite <- app_length, app_assoc, IH by (cbn in Hf; lia).
    rewrite <- app_assoc. reflexivity.
Qed.

Lemma concat_len_ge l : Forall wf_ext l -> (length l <= length (concat (map ext_marshal l)))%nat.
Proof.
  induction 1 as [|e l He Hl IH]; cbn; [lia|]. rewrite app_length.
  pose proof (ext_marshal_pos e He). lia.
Qed.

Lemma unmarshal_ext_ok m l r : Forall wf_ext l ->
  unmarshal_ext_hdr m (concat (map ext_marshal l) ++ 0 :: r) = Ok l.
Proof.
  intros H. unfold unmarshal_ext_hdr.
  apply (ext_loop_ok m l H _ [] [] r). rewrite app_length; cbn.
  pose proof (concat_len_ge l H). lia.
Qed.

Lemma ext_len_sum_ok m l : Forall wf_ext l ->
  ext_len_sum m l = Ok (length (concat (map ext_marshal l))).
Proof.
  induction 1 as [|e l He Hl IH]; [reflexivity|]. cbn [ext_len_sum map concat].
  rewrite ext_len_ok by assumption. cbn [bind]. rewrite IH. cbn [bind]. rewrite app_length. reflexivity.
Qed.

Lemma flags_cases h :
  construct_flags h = 48 + 4 * b2n (is_some (extension_headers h))
     + 2 * b2n (is_some (sequence_number h)) + b2n (is_some (npdu_number h)).
Proof. unfold construct_flags. destruct (extension_headers h), (sequence_number h), (npdu_number h); reflexivity. Qed.

Lemma hdr_optional_ok m a0 a1 a2 a3 a4 a5 a6 a7 s n0 r mt len td (np : bool) l :
  u16 s -> Forall wf_ext l ->
  hdr_optional m (a0 :: a1 :: a2 :: a3 :: a4 :: a5 :: a6 :: a7 ::
                  (s / 256) mod 256 :: s mod 256 :: n0 :: concat (map ext_marshal l) ++ 0 :: r)
    mt len td np true
  = Ok (mkHdr mt len td (Some s) (if np then Some n0 else None) (Some l)).
Proof.
  intros Hs Hl. unfold hdr_optional.
  rewrite !slice_from_ok by (cbn [length]; lia). cbn [bind skipn].
  replace (4 <=? _)%nat with true
    by (symmetry; apply Nat.leb_le; cbn [length]; rewrite app_length; cbn [length]; lia).
  rewrite (unmarshal_ext_ok m l r Hl).
  unfold at_; cbn [nth_error bind]. rewrite be16_enc by assumption.
  destruct np; reflexivity.
Qed.

Lemma hdr_optional_noext m a0 a1 a2 a3 a4 a5 a6 a7 s n0 n1 r mt len td (np : bool) :
  u16 s ->
  hdr_optional m (a0 :: a1 :: a2 :: a3 :: a4 :: a5 :: a6 :: a7 ::
                  (s / 256) mod 256 :: s mod 256 :: n0 :: n1 :: r)
    mt len td np false
  = Ok (mkHdr mt len td (Some s) (if np then Some n0 else None) None).
Proof.
  intros Hs. unfold hdr_optional.
  rewrite !slice_from_ok by (cbn [length]; lia). cbn [bind skipn length Nat.leb].
  unfold at_; cbn [nth_error bind]. rewrite be16_enc by assumption.
  destruct np; reflexivity.
Qed.

(* Every header, in every combination of optional fields. *)
Lemma hdr_unmarshal_marshal m h r : wf_header h -> h_length h <> 0 ->
  hdr_unmarshal m (hdr_marshal h ++ r) = Ok (received_header h).
Proof.
  intros (Hlen & Hteid & Hs & He) Hnz.
  destruct h as [mt len td s n e]; cbn [msgtype h_length teid sequence_number npdu_number extension_headers] in *.
  unfold hdr_unmarshal, hdr_marshal, received_header;
    cbn [msgtype h_length teid sequence_number npdu_number extension_headers].
  rewrite flags_cases;
    cbn [msgtype h_length teid sequence_number npdu_number extension_headers].
  assert (Hz : u16 0) by (unfold u16; lia).
  destruct s as [s|], n as [n|], e as [e|];
    cbn [is_some b2n app enc16 enc32 length];
    unfold marshal_ext_hdr; cbn [extension_headers];
    cbn [Nat.leb]; unfold at_; cbn [nth_error bind];
    (rewrite be16_enc by assumption);
    (rewrite be32_enc by assumption);
    (destruct (N.eqb_spec len 0) as [|_]; [congruence|]);
    evalN; cbn [andb]; unfold hdr_flags; evalN; cbv iota beta;
    rewrite <- ?app_assoc; cbn [app].
  - rewrite hdr_optional_ok by eauto. reflexivity.
  - rewrite hdr_optional_noext by eauto. reflexivity.
  - rewrite hdr_optional_ok by eauto. reflexivity.
  - rewrite hdr_optional_noext by eauto. reflexivity.
  - rewrite (hdr_optional_ok m _ _ _ _ _ _ _ _ 0) by eauto. reflexivity.
  - rewrite (hdr_optional_ok m _ _ _ _ _ _ _ _ 0 n r _ _ _ _ []) by eauto. reflexivity.
  - rewrite (hdr_optional_ok m _ _ _ _ _ _ _ _ 0) by eauto. reflexivity.
  - reflexivity.
Qed.

(* ------------------------------------------------------------------------- *)
(* Sizes and the length field. *)

Lemma header_size_received m h : wf_header h ->
  get_header_size m (received_header h) = Ok (length (hdr_marshal h)).
Proof.
  intros (_ & _ & _ & He). unfold get_header_size, hdr_marshal, received_header.
  destruct h as [mt len td s n e]; cbn in He |- *.
  destruct s as [s|], n as [n|], e as [e|]; cbn [extension_headers sequence_number npdu_number ext_len_sum is_some orb];
    try rewrite ext_len_sum_ok by eauto; cbn; try reflexivity;
    unfold marshal_ext_hdr; cbn; rewrite app_length; cbn; f_equal; lia.
Qed.

Lemma header_size_marshal m h : wf_header h ->
  get_header_size m h = Ok (length (hdr_marshal h)).
Proof.
  intros (_ & _ & _ & He). unfold get_header_size, hdr_marshal.
  destruct h as [mt len td s n e]; cbn in He |- *.
  destruct s as [s|], n as [n|], e as [e|]; cbn [extension_headers sequence_number npdu_number ext_len_sum is_some orb];
    try rewrite ext_len_sum_ok by eauto; cbn; try reflexivity;
    unfold marshal_ext_hdr; cbn; rewrite app_length; cbn; f_equal; lia.
Qed.

Lemma hdr_marshal_ge8 h : (8 <= length (hdr_marshal h))%nat.
Proof. unfold hdr_marshal. rewrite !app_length. cbn. lia. Qed.

Lemma set_length_hdr h p :
  set_length (hdr_marshal h ++ p)
  = hdr_marshal (with_length h ((nlen (hdr_marshal h ++ p) - 8) mod 65536)) ++ p.
Proof.
  unfold set_length. generalize ((nlen (hdr_marshal h ++ p) - 8) mod 65536); intros L.
  destruct h as [mt len td s n e]. unfold hdr_marshal, with_length, construct_flags, marshal_ext_hdr.
  cbn [msgtype h_length teid sequence_number npdu_number extension_headers].
  cbn [app enc16 enc32]. reflexivity.
Qed.

Lemma with_length_wf h n : wf_header h -> u16 n -> wf_header (with_length h n).
Proof. intros (A & B & C & D) Hn. repeat split; assumption. Qed.
Lemma with_length_length h n : length (hdr_marshal (with_length h n)) = length (hdr_marshal h).
Proof.
  destruct h as [mt len td s n' e]. unfold hdr_marshal, with_length, marshal_ext_hdr.
  cbn [msgtype h_length teid sequence_number npdu_number extension_headers]. reflexivity.
Qed.
Lemma received_with_length h n : received_header (with_length h n) = with_length (received_header h) n.
Proof. destruct h as [mt len td [s|] [n'|] [e|]]; reflexivity. Qed.
Lemma received_faithful h : faithful_combination h -> received_header h = h.
Proof.
  destruct h as [mt len td s n e]; intros [H|[H1 H2]]; cbn in *.
  - destruct s; [reflexivity|congruence].
  - subst. destruct s; reflexivity.
Qed.
Lemma received_type h : msgtype (received_header h) = msgtype h.
Proof. destruct h as [mt len td [s|] [n'|] [e|]]; reflexivity. Qed.
Lemma received_length h : h_length (received_header h) = h_length h.
Proof. destruct h as [mt len td [s|] [n'|] [e|]]; reflexivity. Qed.

(* A message body [p] after a header: what the receiver's header decoding gives. *)
Lemma framed m h p r : wf_header h ->
  0 < nlen (hdr_marshal h ++ p) - 8 < 65536 ->
  let L := nlen (hdr_marshal h ++ p) - 8 in
  hdr_unmarshal m (set_length (hdr_marshal h ++ p) ++ r)
   = Ok (with_length (received_header h) L)
  /\ get_header_size m (with_length (received_header h) L) = Ok (length (hdr_marshal h))
  /\ (exists q, set_length (hdr_marshal h ++ p) = q ++ p /\ length q = length (hdr_marshal h)).
Proof.
  intros Hwf HL L.
  assert (Hu : u16 L) by (unfold u16; lia).
  pose proof (with_length_wf h L Hwf Hu) as Hwf'.
  rewrite set_length_hdr, N.mod_small by lia. fold L. split; [|split].
  - rewrite <- app_assoc, hdr_unmarshal_marshal; [|exact Hwf'|cbn; lia].
    rewrite received_with_length. reflexivity.
  - rewrite <- received_with_length, header_size_received by exact Hwf'.
    rewrite with_length_length. reflexivity.
  - eexists; split; [reflexivity|apply with_length_length].
Qed.

Lemma gpdu_roundtrip m h p r : wf_header h -> msgtype h = GPDU ->
  0 < nlen (hdr_marshal h ++ p) - 8 <= 65527 ->
  Gpdu_unmarshal m (Gpdu_marshal (mkGpdu h p) [] ++ r)
  = Ok (mkGpdu (with_length (received_header h) (nlen (hdr_marshal h ++ p) - 8)) p).
Proof.
  intros Hwf Ht HL. unfold Gpdu_unmarshal, Gpdu_marshal; cbn [gp_header gp_tpdu app].
  destruct (framed m h p r Hwf ltac:(lia)) as (H1 & H2 & q & H3 & H4).
  rewrite H1; cbn [bind]. cbn [msgtype with_length]. rewrite received_type, Ht, N.eqb_refl; cbn [negb].
  cbn [h_length with_length]. rewrite add16_small by lia. cbn [bind].
  pose proof (hdr_marshal_ge8 h) as H8. unfold nlen in *. rewrite app_length in *.
  assert (Hlen : length (set_length (hdr_marshal h ++ p)) = (length (hdr_marshal h) + length p)%nat).
  { rewrite H3, app_length. lia. }
  rewrite app_length, Hlen.
  destruct (Nat.leb_spec (N.to_nat (N.of_nat (length (hdr_marshal h) + length p) - 8 + 8))
     (length (hdr_marshal h) + length p + length r)); [|lia].
  rewrite H2; cbn [bind]. rewrite H3, <- app_assoc.
  rewrite slice_app_mid; [reflexivity|lia|lia].
Qed.

(* ------------------------------------------------------------------------- *)
(* The IEs. *)

Lemma set_tlv_cons t a b v :
  set_tlv_ie_length (t :: a :: b :: v) = t :: enc16 (nlen v mod 65536) ++ v.
Proof.
  unfold set_tlv_ie_length, nlen; cbn [length set_nth enc16 app].
  replace (N.of_nat (S (S (S (length v)))) - 3) with (N.of_nat (length v)) by lia. reflexivity.
Qed.

Lemma check_tlv_ok m l b : l <> 0 -> l <= 65532 -> (N.to_nat l + 3 <= length b)%nat ->
  check_tlv_ie_buffer m l b = Ok true.
Proof.
  intros. unfold check_tlv_ie_buffer. destruct (N.eqb_spec l 0); [lia|].
  rewrite add16_small by lia. cbn [bind]. f_equal. apply Nat.leb_le. lia.
Qed.

Lemma pe_roundtrip m x : pe_t x = 255 -> u16 (pe_id x) ->
  pe_length x = nlen (pe_value x) + 2 -> pe_length x <= 65532 ->
  Pe_unmarshal m (Pe_marshal x) = Ok x.
Proof.
  destruct x as [t l i v]; cbn [pe_t pe_id pe_length pe_value]; intros -> Hi -> Hl.
  unfold Pe_marshal, Pe_unmarshal; cbn [pe_t pe_id pe_length pe_value].
  cbn [app enc16]. rewrite set_tlv_cons. cbn [enc16 app length Nat.leb].
  unfold at_; cbn [nth_error bind]. unfold nlen in *.
  rewrite !be16_enc by (unfold u16 in *; cbn [length]; lia).
  cbn [length].
  replace (N.of_nat (S (S (length v))) mod 65536) with (N.of_nat (length v) + 2) by (rewrite N.mod_small; lia).
  destruct (N.eqb_spec (N.of_nat (length v) + 2) 0); [lia|].
  rewrite check_tlv_ok by (cbn [length]; lia). cbn [bind].
  rewrite slice_from_ok by (cbn [length]; lia). reflexivity.
Qed.

Lemma pe_marshal_length x : length (Pe_marshal x) = (5 + length (pe_value x))%nat.
Proof. destruct x. unfold Pe_marshal, set_tlv_ie_length. cbn. reflexivity. Qed.

Lemma gsn_roundtrip m x r : gsn_t x = 133 ->
  (match gsn_ip x with V4 _ _ _ _ => gsn_length x = 4 | V6 o => gsn_length x = 16 /\ length o = 16%nat end) ->
  Gsn_unmarshal m (Gsn_marshal x ++ r) = Ok x.
Proof.
  destruct x as [t l ip]; cbn [gsn_t gsn_length gsn_ip]; intros -> H.
  unfold Gsn_unmarshal, Gsn_marshal; cbn [gsn_t gsn_length gsn_ip app enc16].
  rewrite set_tlv_cons.
  destruct ip as [a b c d|o].
  - subst l. change (nlen (ip_octets (V4 a b c d)) mod 65536) with 4.
    cbn [enc16 app ip_octets length Nat.leb]. unfold at_; cbn [nth_error bind].
    rewrite be16_enc by (unfold u16; lia). evalN. cbv iota.
    rewrite check_tlv_ok by (cbn [length]; lia). reflexivity.
  - destruct H as [-> H].
    do 16 (destruct o as [|?x o]; [discriminate H|]). destruct o; [|discriminate H].
    cbn [enc16 app ip_octets length Nat.leb].
    match goal with |- context[nlen ?l mod 65536] => change (nlen l mod 65536) with 16 end.
    unfold at_; cbn [nth_error bind].
    rewrite be16_enc by (unfold u16; lia). evalN. cbv iota.
    rewrite check_tlv_ok by (cbn [length]; lia). cbn [bind].
    rewrite slice_ok by (cbn [length]; lia). reflexivity.
Qed.

Lemma teid_roundtrip x r : te_t x = 16 -> u32 (te_teid x) -> Teid_unmarshal (Teid_marshal x ++ r) = Ok x.
Proof.
  destruct x as [t v]; cbn [te_t te_teid]; intros -> H. unfold Teid_unmarshal, Teid_marshal.
  cbn [app enc32 length te_teid]. unfold at_; cbn. rewrite be32_enc by assumption. reflexivity.
Qed.
Lemma rec_roundtrip x r : rec_t x = 14 -> Rec_unmarshal (Rec_marshal x ++ r) = Ok x.
Proof. destruct x as [t v]; cbn [rec_t]; intros ->. reflexivity. Qed.
Lemma ehtl_roundtrip m x : ehtl_t x = 141 -> ehtl_length x = nlen (ehtl_list x) ->
  1 <= nlen (ehtl_list x) <= 253 -> Ehtl_unmarshal m (Ehtl_marshal x) = Ok x.
Proof.
  destruct x as [t l v]; cbn [ehtl_t ehtl_length ehtl_list]; intros -> -> H.
  unfold Ehtl_unmarshal, Ehtl_marshal, nlen in *; cbn [ehtl_t ehtl_length ehtl_list app length set_nth].
  replace ((N.of_nat (S (S (length v))) - 2) mod 256) with (N.of_nat (length v)) by (rewrite N.mod_small; lia).
  unfold at_; cbn [nth_error bind]. destruct (N.eqb_spec (N.of_nat (length v)) 0); [lia|].
  rewrite add8_small by lia. cbn [bind length].
  destruct (Nat.leb_spec (N.to_nat (N.of_nat (length v) + 2)) (S (S (length v)))); [|lia].
  rewrite slice_from_ok by (cbn; lia). reflexivity.
Qed.
