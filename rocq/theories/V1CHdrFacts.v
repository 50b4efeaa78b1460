(* V1CHdrFacts.v - the GTPv1-C header: encoding, decoding, sizes. *)
From Verif Require Import BaseFacts V1USpec V1UFacts V1CSpec.
Local Open Scope N_scope.

Lemma not_known_c t : ~ In t known_cext_types ->
  (t =? NO_MORE_EXTENSION_HEADERS) = false /\ (t =? C_PDCP_PDU_NUMBER) = false /\
  (t =? C_SUSPEND_REQUEST) = false /\ (t =? C_SUSPEND_RESPONSE) = false /\
  (t =? C_MBMS_SUPPORT_INDICATION) = false /\ (t =? C_MS_INFO_CHANGE_REPORTING) = false.
Proof. intros H. cbn in H. repeat split; apply N.eqb_neq; intros ->; apply H; cbv; tauto. Qed.

Lemma num16_head t x r : wf_num [t] 1 65536 x -> at_ (Num16_marshal x ++ r) 0 = @Ok GTPV1Error N t.
Proof. destruct x as [ty l v]. unfold wf_num; cbn [In ne_type]. intros [[<-|[]] _]. reflexivity. Qed.

Lemma cext_roundtrip m e r : wf_cext e -> cext_unmarshal m (cext_marshal e ++ r) = Ok e.
Proof.
  intros H. destruct e as [|x|x|x|x|x|x]; cbn [wf_cext] in H; try contradiction;
    cbn [cext_marshal]; unfold cext_unmarshal;
    try (rewrite (num16_head _ _ r H); cbn [bind];
         unfold NO_MORE_EXTENSION_HEADERS, C_PDCP_PDU_NUMBER, C_SUSPEND_REQUEST, C_SUSPEND_RESPONSE,
           C_MBMS_SUPPORT_INDICATION, C_MS_INFO_CHANGE_REPORTING; evalN; cbv iota;
         rewrite (num16_unmarshal_ok _ m x r H); reflexivity).
  destruct H as [Ht H]. unfold at_.
  replace (nth_error (Blob_marshal x ++ r) 0) with (Some (be_type x)) by reflexivity.
  cbn [bind]. destruct (not_known_c _ Ht) as (-> & -> & -> & -> & -> & ->).
  unfold Unknown_unmarshal, at_.
  replace (nth_error (Blob_marshal x ++ r) 0) with (Some (be_type x)) by reflexivity.
  cbn [bind]. rewrite blob_unmarshal_ok by auto. reflexivity.
Qed.

Lemma cext_len_ok m e : wf_cext e -> cext_len m e = Ok (length (cext_marshal e)).
Proof.
  intros H.
  assert (Hl : forall l n, 1 <= l <= 63 -> n = N.to_nat (4 * l) -> ext_len_of m l = Ok n).
  { intros l n Hl ->. unfold ext_len_of. rewrite mul8_small by lia. cbn [bind]. f_equal. lia. }
  destruct e as [|x|x|x|x|x|x]; cbn [wf_cext] in H; try contradiction;
    cbn [cext_len cext_marshal]; destruct x as [t l v]; try destruct H as [_ H]; destruct H as [H1 H2];
    cbn in H1, H2; unfold nlen in *; apply Hl; cbn; rewrite ?app_length; cbn; lia.
Qed.

Lemma cext_marshal_pos e : wf_cext e -> (2 <= length (cext_marshal e))%nat.
Proof. intros H. destruct e; cbn [wf_cext] in H; try contradiction; cbn; lia. Qed.

Lemma cext_loop_ok m l : Forall wf_cext l -> forall fuel pre data r,
  (length l < fuel)%nat ->
  cext_loop m fuel (pre ++ concat (map cext_marshal l) ++ 0 :: r) (length pre) data = Ok (data ++ l).
Proof.
  induction 1 as [|e l He Hl IH]; intros fuel pre data r Hf.
  - destruct fuel as [|fuel]; [lia|]. cbn [cext_loop map concat app].
    rewrite slice_from_ok by (rewrite app_length; lia).
    rewrite skipn_app_exact by reflexivity. cbn. rewrite app_nil_r. reflexivity.
  - destruct fuel as [|fuel]; [cbn in Hf; lia|]. cbn [cext_loop map concat app].
    rewrite slice_from_ok by (rewrite app_length; lia).
    rewrite skipn_app_exact by reflexivity. cbn [bind].
    rewrite <- app_assoc, cext_roundtrip by assumption. cbn [bind].
    rewrite (cext_len_ok m e He). cbn [bind].
    assert (E : match e with
            | CX_NoMore => Ok data
            | _ => cext_loop m fuel (pre ++ cext_marshal e ++ concat (map cext_marshal l) ++ 0 :: r)
                     (length pre + length (cext_marshal e)) (data ++ [e])
            end = cext_loop m fuel (pre ++ cext_marshal e ++ concat (map cext_marshal l) ++ 0 :: r)
                     (length pre + length (cext_marshal e)) (data ++ [e]))
      by (destruct e; [contradiction | reflexivity ..]).
    rewrite E. clear E.
    rewrite <- app_length, app_assoc, IH by (cbn in Hf; lia).
    rewrite <- app_assoc. reflexivity.
Qed.

Lemma cconcat_len_ge l : Forall wf_cext l -> (length l <= length (concat (map cext_marshal l)))%nat.
Proof.
  induction 1 as [|e l He Hl IH]; cbn; [lia|]. rewrite app_length.
  pose proof (cext_marshal_pos e He). lia.
Qed.

Lemma c_unmarshal_ext_ok m l r : Forall wf_cext l ->
  c_unmarshal_ext m (concat (map cext_marshal l) ++ 0 :: r) = Ok l.
Proof.
  intros H. unfold c_unmarshal_ext.
  apply (cext_loop_ok m l H _ [] [] r). rewrite app_length; cbn.
  pose proof (cconcat_len_ge l H). lia.
Qed.

Lemma cext_len_sum_ok m l : Forall wf_cext l ->
  cext_len_sum m l = Ok (length (concat (map cext_marshal l))).
Proof.
  induction 1 as [|e l He Hl IH]; [reflexivity|]. cbn [cext_len_sum map concat].
  rewrite cext_len_ok by assumption. cbn [bind]. rewrite IH. cbn [bind]. rewrite app_length. reflexivity.
Qed.

Lemma c_flags_cases h :
  c_flags h = 48 + 4 * b2n (is_some (c_ext h)) + 2 * b2n (is_some (c_sqn h)) + b2n (is_some (c_npdu h)).
Proof. unfold c_flags. destruct (c_ext h), (c_sqn h), (c_npdu h); reflexivity. Qed.

Lemma chdr_roundtrip m h r : wf_chdr h -> chdr_unmarshal m (chdr_marshal h ++ r) = Ok h.
Proof.
  intros (Hlen & Hteid & Hs & He).
  destruct h as [mt len td s n e]; cbn [c_msgtype c_length c_teid c_sqn c_npdu c_ext] in *.
  unfold chdr_unmarshal, chdr_marshal; cbn [c_msgtype c_length c_teid c_sqn c_npdu c_ext].
  rewrite c_flags_cases; cbn [c_msgtype c_length c_teid c_sqn c_npdu c_ext].
  assert (Hz : u16 0) by (unfold u16; lia).
  destruct s as [s|], n as [n|], e as [e|]; cbn [wf_opt] in Hs, He;
    cbn [is_some b2n app enc16 enc32 length negb andb];
    unfold c_marshal_ext; cbn [c_ext]; cbn [Nat.ltb Nat.leb]; unfold at_; cbn [nth_error bind];
    (rewrite be16_enc by assumption); (rewrite be32_enc by assumption);
    evalN; cbn [andb]; cbv iota beta;
    rewrite <- ?app_assoc; cbn [app];
    rewrite ?slice_from_ok by (cbn [length]; lia); cbn [bind skipn length Nat.ltb Nat.leb];
    rewrite ?be16_enc by assumption;
    rewrite ?slice_from_ok by (cbn [length]; lia); cbn [bind skipn];
    rewrite ?app_length; cbn [length];
    try (match goal with |- context[(?n <=? 0)%nat] => destruct (Nat.leb_spec n 0); [lia|] end);
    unfold NO_MORE_EXTENSION_HEADERS;
    try (rewrite (c_unmarshal_ext_ok m e r) by assumption; cbn [bind]); try reflexivity.
Qed.

Lemma chdr_len_ok m h : wf_chdr h -> chdr_len m h = Ok (length (chdr_marshal h)).
Proof.
  intros (_ & _ & _ & He). unfold chdr_len, chdr_marshal, c_marshal_ext.
  destruct h as [mt len td s n e]; cbn in He |- *.
  destruct s as [s|], n as [n|], e as [e|]; cbn in He |- *; try rewrite cext_len_sum_ok by exact He; cbn;
    try rewrite app_length; cbn; f_equal; lia.
Qed.

Lemma chdr_marshal_ge8 h : (8 <= length (chdr_marshal h))%nat.
Proof. unfold chdr_marshal. rewrite !app_length. cbn. lia. Qed.

Lemma set_length_chdr h p :
  set_length (chdr_marshal h ++ p)
  = chdr_marshal (chdr_with_length h ((nlen (chdr_marshal h ++ p) - 8) mod 65536)) ++ p.
Proof.
  unfold set_length. generalize ((nlen (chdr_marshal h ++ p) - 8) mod 65536); intros L.
  destruct h as [mt len td s n e]. unfold chdr_marshal, chdr_with_length, c_flags, c_marshal_ext.
  cbn [c_msgtype c_length c_teid c_sqn c_npdu c_ext].
  cbn [app enc16 enc32]. reflexivity.
Qed.
Lemma chdr_with_length_wf h n : wf_chdr h -> u16 n -> wf_chdr (chdr_with_length h n).
Proof. intros (A & B & C & D) Hn. repeat split; assumption. Qed.
Lemma chdr_with_length_length h n : length (chdr_marshal (chdr_with_length h n)) = length (chdr_marshal h).
Proof.
  destruct h as [mt len td s n' e]. unfold chdr_marshal, chdr_with_length, c_marshal_ext.
  cbn [c_msgtype c_length c_teid c_sqn c_npdu c_ext]. reflexivity.
Qed.

(* A message body [p] after a header. *)
Lemma cframed m h p r : wf_chdr h -> nlen (chdr_marshal h ++ p) - 8 < 65536 ->
  let L := nlen (chdr_marshal h ++ p) - 8 in
  chdr_unmarshal m (set_length (chdr_marshal h ++ p) ++ r) = Ok (chdr_with_length h L)
  /\ chdr_len m (chdr_with_length h L) = Ok (length (chdr_marshal h))
  /\ (exists q, set_length (chdr_marshal h ++ p) = q ++ p /\ length q = length (chdr_marshal h)).
Proof.
  intros Hwf HL L.
  assert (Hu : u16 L) by exact HL.
  pose proof (chdr_with_length_wf h L Hwf Hu) as Hwf'.
  rewrite set_length_chdr, N.mod_small by lia. fold L. split; [|split].
  - rewrite <- app_assoc, chdr_roundtrip by exact Hwf'. reflexivity.
  - rewrite chdr_len_ok by exact Hwf'. rewrite chdr_with_length_length. reflexivity.
  - eexists; split; [reflexivity|apply chdr_with_length_length].
Qed.
