From Verif Require Import BaseFacts V1U V1USpec V1UFacts.
Local Open Scope N_scope.

Lemma sendable_framed m mt h p :
  sendable mt h (hdr_marshal h ++ p) -> 0 < h_length h ->
  set_length (hdr_marshal h ++ p) = hdr_marshal h ++ p /\
  (forall r, hdr_unmarshal m (hdr_marshal h ++ r) = Ok h) /\
  get_header_size m h = Ok (length (hdr_marshal h)) /\
  h_length h < 65536.
Proof.
  intros (Hwf & Hf & Ht & HL) Hp. destruct Hwf as (Hu & Hwf). pose proof (conj Hu Hwf) as Hwf'.
  unfold u16 in Hu. repeat split.
  - rewrite set_length_hdr. replace (nlen (hdr_marshal h ++ p) - 8) with (h_length h) by lia.
    rewrite N.mod_small by lia. destruct h; reflexivity.
  - intros r. rewrite hdr_unmarshal_marshal by (assumption || lia).
    rewrite received_faithful by assumption. reflexivity.
  - apply header_size_marshal. exact Hwf'.
  - exact Hu.
Qed.

Lemma pe_opt_unmarshal m p : wf_opt wf_pe p -> optional (Pe_unmarshal m (opt_bytes Pe_marshal p)) = Ok p.
Proof.
  destruct p as [x|]; cbn [wf_opt opt_bytes].
  - intros (A & B & C & D). rewrite pe_roundtrip by assumption. reflexivity.
  - reflexivity.
Qed.

Lemma simple_roundtrip m mt h p :
  let b := hdr_marshal h ++ opt_bytes Pe_marshal p in
  sendable mt h b -> 0 < h_length h -> wf_opt wf_pe p ->
  Simple_unmarshal mt m (Simple_marshal (mkSimple h p) []) = Ok (mkSimple h p).
Proof.
  intros b Hs Hp Hw. destruct (sendable_framed m _ _ _ Hs Hp) as (H1 & H2 & H3 & H4).
  destruct Hs as (_ & _ & Ht & HL).
  unfold Simple_unmarshal, Simple_marshal; cbn [sm_header sm_private_ext app].
  rewrite H1, H2. cbn [bind]. rewrite Ht, N.eqb_refl. cbn [negb].
  unfold nlen in HL. fold b. destruct (Nat.ltb_spec (N.to_nat (h_length h)) (length b)); [|lia].
  rewrite H3. cbn [bind]. unfold b. rewrite slice_from_ok by (rewrite app_length; lia).
  rewrite skipn_app_exact by reflexivity. cbn [bind]. rewrite pe_opt_unmarshal by assumption. reflexivity.
Qed.

Lemma echoresp_roundtrip m h r p :
  let b := hdr_marshal h ++ Rec_marshal r ++ opt_bytes Pe_marshal p in
  sendable ECHO_RESPONSE h b -> wf_rec r -> wf_opt wf_pe p ->
  EchoResponse_unmarshal m (EchoResponse_marshal (mkEchoResp h r p) []) = Ok (mkEchoResp h r p).
Proof.
  intros b Hs Hr Hw.
  assert (Hp : 0 < h_length h).
  { destruct Hs as (_ & _ & _ & HL). unfold nlen in HL. unfold b in HL.
    pose proof (hdr_marshal_ge8 h). rewrite !app_length in HL. cbn in HL. lia. }
  destruct (sendable_framed m _ _ _ Hs Hp) as (H1 & H2 & H3 & H4).
  destruct Hs as (_ & _ & Ht & HL).
  unfold EchoResponse_unmarshal, EchoResponse_marshal; cbn [er_header er_recovery er_private_ext app].
  rewrite H1, H2. cbn [bind]. rewrite Ht, N.eqb_refl. cbn [negb].
  unfold nlen in HL. fold b. destruct (Nat.ltb_spec (N.to_nat (h_length h) + 4) (length b)); [|lia].
  rewrite H3. cbn [bind]. set (hs := length (hdr_marshal h)).
  assert (Hb : length b = (hs + (2 + length (opt_bytes Pe_marshal p)))%nat)
    by (unfold b; rewrite !app_length; reflexivity).
  fold b. rewrite Hb. destruct (Nat.ltb_spec hs (hs + (2 + length (opt_bytes Pe_marshal p)))); [|lia].
  unfold at_. unfold b at 1. rewrite nth_error_app2 by (unfold hs; lia). replace (hs - length (hdr_marshal h))%nat with 0%nat by (unfold hs; lia). cbn [Rec_marshal app nth_error bind].
  rewrite N.eqb_refl. rewrite slice_from_ok by lia. unfold b at 1. rewrite skipn_app_exact by reflexivity.
  cbn [bind]. rewrite rec_roundtrip by exact Hr. cbn [bind].
  destruct (Nat.ltb_spec (hs + 2) (hs + (2 + length (opt_bytes Pe_marshal p)))) as [Hc|Hc].
  - rewrite slice_from_ok by lia. unfold b. rewrite app_assoc, skipn_app_exact by (rewrite app_length; reflexivity).
    cbn [bind]. rewrite pe_opt_unmarshal by assumption. reflexivity.
  - destruct p as [p|]; [|reflexivity]. cbn [opt_bytes] in Hc. rewrite pe_marshal_length in Hc. lia.
Qed.

Lemma supext_roundtrip m h l :
  let b := hdr_marshal h ++ Ehtl_marshal l in
  sendable SUPPORTED_EXTENSION_HEADERS_NOTIFICATION h b -> h_length h <= 65527 -> wf_ehtl l ->
  SupExtNotif_unmarshal m (SupExtNotif_marshal (mkSup h l) []) = Ok (mkSup h l).
Proof.
  intros b Hs Hmax Hw.
  assert (Hl : length (Ehtl_marshal l) = (2 + length (ehtl_list l))%nat)
    by (destruct l; reflexivity).
  assert (Hp : 0 < h_length h).
  { destruct Hs as (_ & _ & _ & HL). unfold nlen in HL. unfold b in HL.
    pose proof (hdr_marshal_ge8 h). rewrite !app_length in HL. lia. }
  destruct (sendable_framed m _ _ _ Hs Hp) as (H1 & H2 & H3 & H4).
  destruct Hs as (_ & _ & Ht & HL).
  unfold SupExtNotif_unmarshal, SupExtNotif_marshal; cbn [sn_header sn_list app].
  rewrite H1, H2. cbn [bind]. rewrite Ht, N.eqb_refl. cbn [negb].
  rewrite add16_small by lia. cbn [bind]. fold b. unfold nlen in HL.
  destruct (Nat.leb_spec (N.to_nat (h_length h + 8)) (length b)); [|lia].
  rewrite H3. cbn [bind].
  assert (Hb : length b = (length (hdr_marshal h) + (2 + length (ehtl_list l)))%nat)
    by (unfold b; rewrite !app_length; lia).
  destruct (Nat.eqb_spec (length (hdr_marshal h)) (length b)); [lia|].
  destruct Hw as (W1 & W2 & W3).
  unfold at_. unfold b at 1. rewrite nth_error_app2, Nat.sub_diag by lia.
  replace (nth_error (Ehtl_marshal l) 0) with (Some 141) by (destruct l; cbn in W1 |- *; subst; reflexivity).
  cbn [bind]. change (141 =? EXTENSION_HEADER_TYPE_LIST) with true. cbv iota.
  rewrite slice_from_ok by lia. unfold b. rewrite skipn_app_exact by reflexivity. cbn [bind].
  rewrite ehtl_roundtrip by assumption. reflexivity.
Qed.

Lemma ei_loop_done m f b s : (0 < f)%nat -> (length b <= ei_cursor s)%nat -> ei_loop m f b s = Ok s.
Proof.
  intros Hf H. destruct f; [lia|]. cbn [ei_loop].
  destruct (Nat.leb_spec (length b) (ei_cursor s)); [reflexivity|lia].
Qed.

Lemma ei_step_teid m f pre t r s :
  te_t t = 16 -> u32 (te_teid t) -> ei_cursor s = length pre -> ei_increment s <= 16 -> c_teid s = None ->
  ei_loop m (S f) (pre ++ Teid_marshal t ++ r) s
  = ei_loop m f (pre ++ Teid_marshal t ++ r)
      (mkEi (ei_cursor s + 5) 16 (Some 1) (c_gsn s) (c_pe s) t (s_gsn s) (s_pe s)).
Proof.
  intros Ht Hu Hc Hi Hn. cbn [ei_loop].
  destruct (Nat.leb_spec (length (pre ++ Teid_marshal t ++ r)) (ei_cursor s)) as [H|H];
    [rewrite !app_length in H; cbn in H; lia|].
  unfold at_. rewrite nth_error_app2, Hc, Nat.sub_diag by lia.
  replace (nth_error (Teid_marshal t ++ r) 0) with (Some 16) by reflexivity. cbn [bind].
  destruct (N.ltb_spec 16 (ei_increment s)); [lia|].
  rewrite slice_from_ok, skipn_app_exact by (reflexivity || (rewrite app_length; lia)). cbn [bind].
  change (16 =? TEID_DATA) with true. cbv iota. rewrite teid_roundtrip by assumption.
  rewrite Hn. reflexivity.
Qed.

Lemma ei_step_gsn m f pre g r s n :
  wf_gsn g -> length (Gsn_marshal g) = n ->
  ei_cursor s = length pre -> ei_increment s <= 133 -> c_gsn s = None ->
  ei_loop m (S f) (pre ++ Gsn_marshal g ++ r) s
  = ei_loop m f (pre ++ Gsn_marshal g ++ r)
      (mkEi (ei_cursor s + n) 133 (c_teid s) (Some 1) (c_pe s) (s_teid s) g (s_pe s)).
Proof.
  intros [Ht Hu] Hn Hc Hi Hno.
  assert (Hlen : Gsn_len m g = Ok n /\ (7 <= n)%nat).
  { unfold Gsn_len. destruct g as [gt gl [a b' c d|o]]; cbn in Hu |- *.
    - subst gl. rewrite add16_small by lia. subst n. split; [reflexivity|]. cbn. lia.
    - destruct Hu as [-> Ho]. rewrite add16_small by lia. subst n. unfold Gsn_marshal; cbn.
      rewrite Ho. split; [reflexivity|lia]. }
  destruct Hlen as [Hlen H7]. cbn [ei_loop].
  destruct (Nat.leb_spec (length (pre ++ Gsn_marshal g ++ r)) (ei_cursor s)) as [H|H];
    [rewrite !app_length in H; lia|].
  unfold at_. rewrite nth_error_app2, Hc, Nat.sub_diag by lia.
  replace (nth_error (Gsn_marshal g ++ r) 0) with (Some 133)
    by (destruct g as [gt gl gi]; cbn in Ht; subst gt; unfold Gsn_marshal; cbn [app enc16 gsn_t gsn_length];
        rewrite set_tlv_cons; reflexivity).
  cbn [bind]. destruct (N.ltb_spec 133 (ei_increment s)); [lia|].
  rewrite slice_from_ok, skipn_app_exact by (reflexivity || (rewrite app_length; lia)). cbn [bind].
  change (133 =? TEID_DATA) with false. change (133 =? GSN_ADDRESS) with true. cbv iota.
  rewrite gsn_roundtrip by assumption. rewrite Hno. cbn [count bind is_some]. rewrite Hlen. reflexivity.
Qed.

Lemma ei_step_pe m f pre p s :
  wf_pe p -> ei_cursor s = length pre -> ei_increment s <= 255 -> c_pe s = None ->
  ei_loop m (S f) (pre ++ Pe_marshal p) s
  = ei_loop m f (pre ++ Pe_marshal p)
      (mkEi (ei_cursor s + length (Pe_marshal p)) 255 (c_teid s) (c_gsn s) (Some 1) (s_teid s) (s_gsn s) (Some p)).
Proof.
  intros (P1 & P2 & P3 & P4) Hc Hi Hno. cbn [ei_loop].
  pose proof (pe_marshal_length p) as HL.
  destruct (Nat.leb_spec (length (pre ++ Pe_marshal p)) (ei_cursor s)) as [H|H];
    [rewrite !app_length in H; lia|].
  unfold at_. rewrite nth_error_app2, Hc, Nat.sub_diag by lia.
  replace (nth_error (Pe_marshal p) 0) with (Some 255)
    by (destruct p as [gt gl gi gv]; cbn in P1; subst gt; unfold Pe_marshal; cbn [app enc16 pe_t pe_length];
        rewrite set_tlv_cons; reflexivity).
  cbn [bind]. destruct (N.ltb_spec 255 (ei_increment s)); [lia|].
  rewrite slice_from_ok, skipn_app_exact by (reflexivity || (rewrite app_length; lia)). cbn [bind].
  change (255 =? TEID_DATA) with false. change (255 =? GSN_ADDRESS) with false.
  change (255 =? PRIVATE_EXTENSION) with true. cbv iota.
  rewrite pe_roundtrip by assumption. rewrite Hno. cbn [count bind is_some].
  unfold Pe_len, nlen in *. rewrite add16_small by lia. cbn [bind].
  replace (N.to_nat (pe_length p + 3)) with (length (Pe_marshal p)) by lia. reflexivity.
Qed.

Lemma ei_all m h t g p f :
  wf_teid t -> wf_gsn g -> wf_opt wf_pe p ->
  exists s, ei_loop m (S (S (S (S f)))) (h ++ Teid_marshal t ++ Gsn_marshal g ++ opt_bytes Pe_marshal p)
    (mkEi (length h) 0 None None None teid_default gsn_default None) = Ok s
    /\ c_teid s = Some 1 /\ c_gsn s = Some 1 /\ s_teid s = t /\ s_gsn s = g /\ s_pe s = p.
Proof.
  intros [Ht1 Ht2] Hg Hp.
  rewrite ei_step_teid by (assumption || reflexivity || (cbn; lia)).
  cbn [ei_cursor ei_increment c_teid c_gsn c_pe s_teid s_gsn s_pe].
  rewrite (app_assoc h).
  assert (L1 : (length h + 5)%nat = length (h ++ Teid_marshal t)) by (rewrite app_length; reflexivity).
  rewrite L1.
  rewrite (ei_step_gsn m _ _ g _ _ _ Hg eq_refl) by (reflexivity || (cbn; lia)).
  cbn [ei_cursor ei_increment c_teid c_gsn c_pe s_teid s_gsn s_pe].
  rewrite <- app_length. destruct p as [p|]; cbn [opt_bytes wf_opt] in *.
  - rewrite app_assoc.
    rewrite ei_step_pe by (assumption || reflexivity || (cbn; lia)).
    cbn [ei_cursor ei_increment c_teid c_gsn c_pe s_teid s_gsn s_pe].
    rewrite ei_loop_done by (cbn [ei_cursor]; rewrite ?app_length; lia).
    eexists; split; [reflexivity|]. cbn. auto.
  - rewrite app_nil_r. rewrite ei_loop_done by (cbn [ei_cursor]; rewrite ?app_length; lia).
    eexists; split; [reflexivity|]. cbn. auto.
Qed.

Lemma errind_roundtrip m h t g p :
  let b := hdr_marshal h ++ Teid_marshal t ++ Gsn_marshal g ++ opt_bytes Pe_marshal p in
  sendable ERROR_INDICATION h b -> h_length h <= 65527 ->
  wf_teid t -> wf_gsn g -> wf_opt wf_pe p ->
  ErrorIndication_unmarshal m (ErrorIndication_marshal (mkErrInd h t g p) []) = Ok (mkErrInd h t g p).
Proof.
  intros b Hs Hmax Wt Wg Wp.
  pose proof (hdr_marshal_ge8 h) as H8.
  assert (Hb : (13 <= length b)%nat).
  { unfold b. rewrite !app_length. change (length (Teid_marshal t)) with 5%nat. lia. }
  assert (Hp : 0 < h_length h).
  { destruct Hs as (_ & _ & _ & HL). unfold nlen in HL. lia. }
  destruct (sendable_framed m _ _ _ Hs Hp) as (H1 & H2 & H3 & H4).
  destruct Hs as (_ & _ & Ht & HL).
  unfold ErrorIndication_unmarshal, ErrorIndication_marshal; cbn [ei_header ei_teid ei_peer ei_private app].
  rewrite H1, H2. cbn [bind]. rewrite Ht, N.eqb_refl. cbn [negb].
  rewrite add16_small by lia. cbn [bind]. fold b. unfold nlen in HL.
  destruct (Nat.leb_spec (N.to_nat (h_length h + 8)) (length b)); [|lia].
  rewrite H3. cbn [bind].
  destruct (ei_all m (hdr_marshal h) t g p (length b - 3)%nat Wt Wg Wp) as (s & E & E1 & E2 & E3 & E4 & E5).
  replace (S (length b)) with (S (S (S (S (length b - 3))))) by lia.
  fold b in E. rewrite E. cbn [bind]. rewrite E1, E2, E3, E4, E5. reflexivity.
Qed.
