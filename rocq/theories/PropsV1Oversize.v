(* PropsV1Oversize.v - C91 for GTP-U and GTPv1-C: messages of any size, also those that the length field cannot say.
   The vocabulary is that of C04 (V1USpec.v) and C43 (V1CMsgSpec.v). *)
From Coq Require Import Sorted.
From Verif Require Import Base BaseFacts V1U V1USpec V1UFacts V1UMsgFacts V1CHdrFacts V1CIeFacts V1CWireSpec V1CWireFacts V1CMsgSpec V1CMsgFacts V1CMsgRead V1CExact V1CTables.
From Verif Require PropsV1U PropsV1C V1CFourFacts.
Local Open Scope N_scope.
Notation length := List.length.

(* --- specification --------------------------------------------------------------------------------------------------- *)
(* what the two octets of the length field say of n octets after the mandatory header *)
Definition said (n : N) : N := n mod 65536.

(* --- GTP-U ----------------------------------------------------------------------------------------------------------- *)
Lemma framed_any m h p r : wf_header h -> let k := said (nlen (hdr_marshal h ++ p) - 8) in
  (if k =? 0 then hdr_unmarshal m (set_length (hdr_marshal h ++ p) ++ r) = Err HeaderInvalidLength
   else hdr_unmarshal m (set_length (hdr_marshal h ++ p) ++ r) = Ok (with_length (received_header h) k))
  /\ get_header_size m (with_length (received_header h) k) = Ok (length (hdr_marshal h))
  /\ (exists q, set_length (hdr_marshal h ++ p) = q ++ p /\ length q = length (hdr_marshal h)).
Proof.
  intros W k. assert (K : k < 65536) by (apply N.mod_lt; discriminate).
  pose proof (with_length_wf h k W K) as W'. rewrite set_length_hdr. fold (said (nlen (hdr_marshal h ++ p) - 8)). fold k. split; [|split].
  - destruct (N.eqb_spec k 0) as [Z|Z].
    + rewrite Z. destruct h as [mt len td s n e]. unfold hdr_unmarshal, hdr_marshal, with_length, construct_flags.
      cbn [msgtype h_length teid sequence_number npdu_number extension_headers].
      destruct s as [s|], n as [n|], e as [e|]; cbn [is_some app enc16 enc32 length]; unfold at_; cbn [Nat.leb nth_error bind]; reflexivity.
    + rewrite <- app_assoc, hdr_unmarshal_marshal; [|exact W'|cbn [h_length with_length]; exact Z]. rewrite received_with_length. reflexivity.
  - rewrite <- received_with_length, header_size_received by exact W'. rewrite with_length_length. reflexivity.
  - eexists; split; [reflexivity|apply with_length_length].
Qed.
(* What becomes of a G-PDU, whatever its size: it is received if the length field says at least the header and at most 65527 octets, and then the
   payload is as long as the length field says. *)
Theorem C91_gpdu : forall m h p rest, wf_header h -> msgtype h = 255 -> let k := said (nlen (hdr_marshal h ++ p) - 8) in
  Gpdu_unmarshal m (Gpdu_marshal (mkGpdu h p) [] ++ rest) =
  if k =? 0 then Err HeaderInvalidLength
  else if (k <=? 65527) && (nlen (hdr_marshal h) <=? k + 8)
  then Ok (mkGpdu (with_length (received_header h) k) (firstn (N.to_nat (k + 8 - nlen (hdr_marshal h))) p))
  else Panic.
Proof.
  intros m h p r W Ht k. assert (K : k < 65536) by (apply N.mod_lt; discriminate).
  assert (KL : k <= nlen (hdr_marshal h ++ p) - 8) by (apply N.mod_le; discriminate).
  unfold Gpdu_unmarshal, Gpdu_marshal; cbn [gp_header gp_tpdu app].
  destruct (framed_any m h p r W) as (H1 & H2 & q & H3 & H4). fold k in H1, H2.
  destruct (N.eqb_spec k 0) as [Z|Z]; [rewrite H1; reflexivity|].
  rewrite H1; cbn [bind]. cbn [msgtype with_length]. rewrite received_type, Ht, N.eqb_refl; cbn [negb].
  cbn [h_length with_length]. pose proof (hdr_marshal_ge8 h) as H8. unfold nlen in *. rewrite app_length in KL.
  rewrite H3, !app_length. rewrite H4.
  destruct (N.leb_spec k 65527) as [S|S]; cbn [andb].
  - rewrite add16_small by lia. cbn [bind]. rewrite (proj2 (Nat.leb_le _ _)) by lia. rewrite H2; cbn [bind].
    destruct (N.leb_spec (N.of_nat (length (hdr_marshal h))) (k + 8)) as [G|G].
    + unfold slice. rewrite (proj2 (Nat.leb_le _ _)) by lia. rewrite (proj2 (Nat.leb_le _ _)) by (rewrite !app_length; lia). cbn [andb bind].
      f_equal. f_equal. rewrite <- H4, <- app_assoc, skipn_app, skipn_all, Nat.sub_diag. cbn [skipn app]. rewrite firstn_app.
      replace (N.to_nat (k + 8) - length q - length p)%nat with 0%nat by lia. rewrite firstn_O, app_nil_r. f_equal. lia.
    + unfold slice. rewrite (proj2 (Nat.leb_gt _ _)) by lia. reflexivity.
  - destruct m; unfold add16, ov.
    + rewrite (proj2 (N.ltb_ge _ _)) by lia. reflexivity.
    + assert (M : (k + 8) mod 65536 = k + 8 - 65536).
      { symmetry. apply (N.mod_unique _ _ 1); lia. }
      rewrite (proj2 (N.ltb_ge _ _)) by lia. rewrite M. cbn [bind]. rewrite (proj2 (Nat.leb_le _ _)) by lia. rewrite H2; cbn [bind]. unfold slice. rewrite (proj2 (Nat.leb_gt _ _)) by lia. reflexivity.
Qed.
(* So a payload that is too long is received as another, shorter one. *)
Theorem C91_gpdu_refuted : forall m h p t rest, wf_header h -> msgtype h = 255 -> 0 < nlen (hdr_marshal h ++ p) - 8 <= 65527 -> nlen t mod 65536 = 0 ->
  Gpdu_unmarshal m (Gpdu_marshal (mkGpdu h (p ++ t)) [] ++ rest) = Gpdu_unmarshal m (Gpdu_marshal (mkGpdu h p) []).
Proof.
  intros m h p t r W Ht S T. pose proof (hdr_marshal_ge8 h) as H8.
  assert (K : said (nlen (hdr_marshal h ++ p ++ t) - 8) = nlen (hdr_marshal h ++ p) - 8).
  { unfold said, nlen in *. rewrite !app_length in *. replace (N.of_nat (length (hdr_marshal h) + (length p + length t)) - 8)
      with (N.of_nat (length (hdr_marshal h) + length p) - 8 + N.of_nat (length t)) by lia.
    rewrite N.add_mod, T, N.add_0_r, N.mod_mod by discriminate. apply N.mod_small. lia. }
  assert (K0 : said (nlen (hdr_marshal h ++ p) - 8) = nlen (hdr_marshal h ++ p) - 8) by (apply N.mod_small; lia).
  rewrite (C91_gpdu m h (p ++ t) r W Ht). rewrite <- (app_nil_r (Gpdu_marshal (mkGpdu h p) [])). rewrite (C91_gpdu m h p [] W Ht). rewrite K, K0.
  rewrite (proj2 (N.eqb_neq _ _)) by lia. destruct ((_ <=? _) && _); [|reflexivity]. f_equal. f_equal.
  assert (L : N.to_nat (nlen (hdr_marshal h ++ p) - 8 + 8 - nlen (hdr_marshal h)) = length p) by (unfold nlen in *; rewrite app_length in *; lia).
  rewrite L, firstn_all, firstn_app, Nat.sub_diag, firstn_all, firstn_O, app_nil_r. reflexivity.
Qed.

(* The other GTP-U messages are read to the end of the packet: whatever their size, the receiver has all of them (in the header the length field
   says the size modulo 65536), but for a length field of 0, which is refused, and of more than 65527, where a debug build panics on two of them. *)
Theorem C91_echo_request_end_marker : forall m mt h p, wf_header h -> msgtype h = mt -> wf_opt wf_pe p ->
  let k := said (nlen (hdr_marshal h ++ opt_bytes Pe_marshal p) - 8) in
  Simple_unmarshal mt m (Simple_marshal (mkSimple h p) []) =
  if k =? 0 then Err HeaderInvalidLength else Ok (mkSimple (with_length (received_header h) k) p).
Proof.
  intros m mt h p W Ht Hp k. unfold Simple_unmarshal, Simple_marshal; cbn [sm_header sm_private_ext app].
  destruct (framed_any m h (opt_bytes Pe_marshal p) [] W) as (H1 & H2 & q & H3 & H4). fold k in H1, H2. rewrite app_nil_r in H1.
  destruct (N.eqb_spec k 0) as [Z|Z]; [rewrite H1; reflexivity|]. rewrite H1. cbn [bind msgtype with_length]. rewrite received_type, Ht, N.eqb_refl. cbn [negb].
  change (h_length (with_length (received_header h) k)) with k.
  assert (KL : k <= nlen (hdr_marshal h ++ opt_bytes Pe_marshal p) - 8) by (apply N.mod_le; discriminate).
  pose proof (hdr_marshal_ge8 h) as H8. unfold nlen in KL. rewrite app_length in KL. rewrite H3, app_length, H4.
  rewrite (proj2 (Nat.ltb_lt _ _)) by lia. rewrite H2. cbn [bind]. rewrite slice_from_ok by (rewrite app_length; lia). rewrite skipn_app_exact by (symmetry; exact H4).
  cbn [bind]. rewrite pe_opt_unmarshal by exact Hp. reflexivity.
Qed.
Print Assumptions C91_echo_request_end_marker.
Theorem C91_echo_response : forall m h r p, wf_header h -> msgtype h = 2 -> wf_rec r -> wf_opt wf_pe p ->
  let k := said (nlen (hdr_marshal h ++ Rec_marshal r ++ opt_bytes Pe_marshal p) - 8) in
  EchoResponse_unmarshal m (EchoResponse_marshal (mkEchoResp h r p) []) =
  if k =? 0 then Err HeaderInvalidLength else Ok (mkEchoResp (with_length (received_header h) k) r p).
Proof.
  intros m h r p W Ht Hr Hp k. unfold EchoResponse_unmarshal, EchoResponse_marshal; cbn [er_header er_recovery er_private_ext app].
  destruct (framed_any m h (Rec_marshal r ++ opt_bytes Pe_marshal p) [] W) as (H1 & H2 & q & H3 & H4). fold k in H1, H2. rewrite app_nil_r in H1.
  destruct (N.eqb_spec k 0) as [Z|Z]; [rewrite H1; reflexivity|]. rewrite H1. cbn [bind msgtype with_length]. rewrite received_type, Ht, N.eqb_refl. cbn [negb].
  change (h_length (with_length (received_header h) k)) with k.
  assert (KL : k <= nlen (hdr_marshal h ++ Rec_marshal r ++ opt_bytes Pe_marshal p) - 8) by (apply N.mod_le; discriminate).
  pose proof (hdr_marshal_ge8 h) as H8. unfold nlen in KL. rewrite !app_length in KL. change (length (Rec_marshal r)) with 2%nat in KL.
  rewrite H2, H3. cbn [bind]. rewrite !app_length. change (length (Rec_marshal r)) with 2%nat. rewrite <- H4 in *. set (hs := length q) in *.
  rewrite (proj2 (Nat.ltb_lt _ _)) by lia. rewrite (proj2 (Nat.ltb_lt _ _)) by lia.
  assert (Hat : @at_ GTPV1Error (q ++ Rec_marshal r ++ opt_bytes Pe_marshal p) hs = Ok 14) by (unfold at_, hs; rewrite nth_error_app2, Nat.sub_diag by lia; reflexivity).
  rewrite Hat. cbn [bind]. change (14 =? RECOVERY) with true. cbv iota. rewrite slice_from_ok by (rewrite !app_length; lia).
  rewrite skipn_app_exact by reflexivity. cbn [bind]. rewrite rec_roundtrip by exact Hr. cbn [bind].
  destruct (Nat.ltb_spec (hs + 2) (hs + (2 + length (opt_bytes Pe_marshal p)))) as [Hc|Hc].
  - rewrite slice_from_ok by (rewrite !app_length; cbn [length Rec_marshal]; lia). rewrite app_assoc, skipn_app_exact by (rewrite app_length; reflexivity).
    cbn [bind]. rewrite pe_opt_unmarshal by exact Hp. reflexivity.
  - destruct p as [p|]; [|reflexivity]. cbn [opt_bytes] in Hc. rewrite pe_marshal_length in Hc. lia.
Qed.
Print Assumptions C91_echo_response.
Theorem C91_error_indication : forall m h t g p, wf_header h -> msgtype h = 26 -> wf_teid t -> wf_gsn g -> wf_opt wf_pe p ->
  let k := said (nlen (hdr_marshal h ++ Teid_marshal t ++ Gsn_marshal g ++ opt_bytes Pe_marshal p) - 8) in
  ErrorIndication_unmarshal m (ErrorIndication_marshal (mkErrInd h t g p) []) =
  if k =? 0 then Err HeaderInvalidLength
  else if match m with Debug => 65527 <? k | Release => false end then Panic
  else Ok (mkErrInd (with_length (received_header h) k) t g p).
Proof.
  intros m h t g p W Ht Wt Wg Wp k. unfold ErrorIndication_unmarshal, ErrorIndication_marshal; cbn [ei_header ei_teid ei_peer ei_private app].
  set (body := Teid_marshal t ++ Gsn_marshal g ++ opt_bytes Pe_marshal p) in *.
  destruct (framed_any m h body [] W) as (H1 & H2 & q & H3 & H4). fold k in H1, H2. rewrite app_nil_r in H1.
  destruct (N.eqb_spec k 0) as [Z|Z]; [rewrite H1; reflexivity|]. rewrite H1. cbn [bind msgtype with_length]. rewrite received_type, Ht, N.eqb_refl. cbn [negb].
  change (h_length (with_length (received_header h) k)) with k.
  assert (K : k < 65536) by (apply N.mod_lt; discriminate).
  assert (KL : k <= nlen (hdr_marshal h ++ body) - 8) by (apply N.mod_le; discriminate).
  pose proof (hdr_marshal_ge8 h) as H8. unfold nlen in KL. rewrite app_length in KL.
  assert (G : forall tot, (N.to_nat tot <= length (hdr_marshal h) + length body)%nat ->
    (if (N.to_nat tot <=? length (set_length (hdr_marshal h ++ body)))%nat then
      let? hs := get_header_size m (with_length (received_header h) k) in
      let? s := ei_loop m (S (length (set_length (hdr_marshal h ++ body)))) (set_length (hdr_marshal h ++ body))
                  (mkEi hs 0 None None None teid_default gsn_default None) in
      if is_some (V1U.c_teid s) && is_some (V1U.c_gsn s)
      then Ok (mkErrInd (with_length (received_header h) k) (V1U.s_teid s) (V1U.s_gsn s) (V1U.s_pe s))
      else Err MessageMandatoryIEMissing
    else Err MessageLengthError) = Ok (mkErrInd (with_length (received_header h) k) t g p)).
  { intros tot Htot. rewrite H3, app_length, H4. rewrite (proj2 (Nat.leb_le _ _)) by lia. rewrite H2. cbn [bind].
    assert (Hb5 : (5 <= length body)%nat) by (unfold body; rewrite app_length; change (length (Teid_marshal t)) with 5%nat; lia).
    destruct (ei_all m q t g p (length (hdr_marshal h) + length body - 3)%nat Wt Wg Wp) as (s & E & E1 & E2 & E3 & E4 & E5).
    replace (S (length (hdr_marshal h) + length body)) with (S (S (S (S (length (hdr_marshal h) + length body - 3))))) by lia.
    fold body in E. rewrite H4 in E. rewrite E. cbn [bind]. rewrite E1, E2, E3, E4, E5. reflexivity. }
  unfold add16, ov. destruct (N.ltb_spec (k + 8) 65536) as [S|S].
  - cbn [bind]. rewrite G by lia. destruct m; [|reflexivity]. destruct (N.ltb_spec 65527 k); [lia|reflexivity].
  - destruct m; cbn [bind]; [destruct (N.ltb_spec 65527 k); [reflexivity|lia]|]. apply G.
    assert (M : (k + 8) mod 65536 <= k + 8) by (apply N.mod_le; discriminate). lia.
Qed.
Print Assumptions C91_error_indication.
Theorem C91_supported_extension_headers : forall m h l, wf_header h -> msgtype h = 31 -> wf_ehtl l ->
  let k := said (nlen (hdr_marshal h ++ Ehtl_marshal l) - 8) in
  SupExtNotif_unmarshal m (SupExtNotif_marshal (mkSup h l) []) =
  if k =? 0 then Err HeaderInvalidLength
  else if match m with Debug => 65527 <? k | Release => false end then Panic
  else Ok (mkSup (with_length (received_header h) k) l).
Proof.
  intros m h l W Ht Hw k. unfold SupExtNotif_unmarshal, SupExtNotif_marshal; cbn [sn_header sn_list app].
  set (body := Ehtl_marshal l) in *.
  destruct (framed_any m h body [] W) as (H1 & H2 & q & H3 & H4). fold k in H1, H2. rewrite app_nil_r in H1.
  destruct (N.eqb_spec k 0) as [Z|Z]; [rewrite H1; reflexivity|]. rewrite H1. cbn [bind msgtype with_length]. rewrite received_type, Ht, N.eqb_refl. cbn [negb].
  change (h_length (with_length (received_header h) k)) with k.
  assert (K : k < 65536) by (apply N.mod_lt; discriminate).
  assert (KL : k <= nlen (hdr_marshal h ++ body) - 8) by (apply N.mod_le; discriminate).
  pose proof (hdr_marshal_ge8 h) as H8. unfold nlen in KL. rewrite app_length in KL.
  assert (Hl : length body = (2 + length (ehtl_list l))%nat) by (unfold body; destruct l; reflexivity).
  assert (G : forall tot, (N.to_nat tot <= length (hdr_marshal h) + length body)%nat ->
    (if (N.to_nat tot <=? length (set_length (hdr_marshal h ++ body)))%nat then
      let? hs := get_header_size m (with_length (received_header h) k) in
      if (hs =? length (set_length (hdr_marshal h ++ body)))%nat then Err MessageMandatoryIEMissing
      else
        let? t := at_ (set_length (hdr_marshal h ++ body)) hs in
        if t =? EXTENSION_HEADER_TYPE_LIST then
          let? r := slice_from (set_length (hdr_marshal h ++ body)) hs in
          match Ehtl_unmarshal m r with
          | Ok i => Ok (mkSup (with_length (received_header h) k) i)
          | Err _ => Err MessageMandatoryIEMissing
          | Panic => Panic | Diverge => Diverge
          end
        else Err MessageInvalidMessageFormat
    else Err MessageLengthError) = Ok (mkSup (with_length (received_header h) k) l)).
  { intros tot Htot. rewrite H3, app_length, H4. rewrite (proj2 (Nat.leb_le _ _)) by lia. rewrite H2. cbn [bind].
    rewrite (proj2 (Nat.eqb_neq _ _)) by lia. destruct Hw as (W1 & W2 & W3).
    assert (Hat : @at_ GTPV1Error (q ++ body) (length (hdr_marshal h)) = Ok 141).
    { unfold at_. rewrite <- H4, nth_error_app2, Nat.sub_diag by lia. unfold body. destruct l; cbn in W1 |- *; subst; reflexivity. }
    rewrite Hat. cbn [bind]. change (141 =? EXTENSION_HEADER_TYPE_LIST) with true. cbv iota. rewrite slice_from_ok by (rewrite app_length; lia).
    rewrite skipn_app_exact by (symmetry; exact H4). cbn [bind]. unfold body. rewrite ehtl_roundtrip by assumption. reflexivity. }
  unfold add16, ov. destruct (N.ltb_spec (k + 8) 65536) as [S|S].
  - cbn [bind]. rewrite G by lia. destruct m; [|reflexivity]. destruct (N.ltb_spec 65527 k); [lia|reflexivity].
  - destruct m; cbn [bind]; [destruct (N.ltb_spec 65527 k); [reflexivity|lia]|]. apply G.
    assert (M : (k + 8) mod 65536 <= k + 8) by (apply N.mod_le; discriminate). lia.
Qed.
Print Assumptions C91_supported_extension_headers.
(* An Echo Request with 261 extension headers of 252 octets, 65784 octets in all: the length field says 240, and all of it arrives. *)
Definition with_extensions (n : nat) (c : list N) : Gtpv1Header := mkHdr 1 0 0 (Some 5) None (Some (repeat (EH_Unknown (mkBlobExt 77 63 c)) n)).
Lemma with_extensions_wf n c : nlen c = 250 -> wf_header (with_extensions n c).
Proof.
  intros Hc. split; [reflexivity|]. split; [reflexivity|]. split; [intros s [= <-]; reflexivity|].
  intros l [= <-]. apply Forall_forall. intros x Hx. apply repeat_spec in Hx. subst x. split.
  - cbn. intros HI. repeat (destruct HI as [HI|HI]; [discriminate|]). exact HI.
  - split; cbn [be_length be_container]; [lia|rewrite Hc; reflexivity].
Qed.
Example C91_echo_request_case :
  let h := with_extensions 261 (repeat 0 250) in
  wf_header h /\ nlen (hdr_marshal h) = 65784 /\
  Simple_unmarshal 1 Debug (Simple_marshal (mkSimple h None) []) = Ok (mkSimple (with_length (received_header h) 240) None).
Proof.
  cbv zeta. assert (W : wf_header (with_extensions 261 (repeat 0 250))) by (apply with_extensions_wf; vm_compute; reflexivity).
  remember (with_extensions 261 (repeat 0 250)) as h eqn:Eh. split; [exact W|]. split; [subst h; vm_compute; reflexivity|].
  assert (T : msgtype h = 1) by (subst h; reflexivity).
  assert (K : said (nlen (hdr_marshal h ++ opt_bytes Pe_marshal None) - 8) = 240) by (subst h; vm_compute; reflexivity).
  pose proof (C91_echo_request_end_marker Debug 1 h None W T I) as E. cbv zeta in E. rewrite K in E. exact E.
Qed.

(* --- GTPv1-C --------------------------------------------------------------------------------------------------------- *)
(* Here the elements are read to the end of the packet, so the message arrives although its length field is wrong; but a debug build stops if the
   field says more than 65527. *)
Definition received (x : Msg1) : Msg1 := mkMsg1 (chdr_with_length (m_header x) (said (nlen (msg1_octets x) - 8))) (m_fields x).
Theorem C91_gtpv1c_partial : forall code L T m x, In (code, L, T) messages1 -> wf_msg1 code L x -> ~ has_code1 x 149 ->
  (has_code1 x 251 -> forall t, 148 <= t <= 218 -> ~ has_code1 x t) ->
  msg1_unmarshal T m (msg1_marshal x []) =
  if match m with Debug => 65527 <? said (nlen (msg1_octets x) - 8) | Release => false end then Panic else Ok (received x).
Proof.
  intros code L T m x Hin Hw H149 Hg. pose proof (gw_ascending code L T x Hin Hw Hg) as Ha. pose proof (messages1_checked _ _ _ Hin) as HT.
  destruct Hw as (Hmt & Hh & HF & HG). destruct x as [h fs]. unfold received in *; cbn [m_header m_fields] in *.
  unfold msg1_marshal, msg1_octets in *; cbn [m_header m_fields app] in *.
  set (p := concat (map (opt_bytes ie1_marshal) fs)) in *. set (k := said _).
  assert (K : k < 65536) by (apply N.mod_lt; discriminate). pose proof (chdr_with_length_wf h k Hh K) as Hwf'.
  pose proof (chdr_marshal_ge8 h) as H8.
  assert (KL : k <= nlen (chdr_marshal h ++ p) - 8) by (apply N.mod_le; discriminate).
  rewrite set_length_chdr. fold (said (nlen (chdr_marshal h ++ p) - 8)). fold k.
  unfold msg1_unmarshal. rewrite (chdr_roundtrip m _ p Hwf'). cbn [bind].
  cbn [c_msgtype chdr_with_length]. rewrite Hmt, (tab_code _ _ _ HT), N.eqb_refl. cbn [negb].
  change (c_length (chdr_with_length h k)) with k.
  pose proof (chdr_with_length_length h k) as Hq. set (q := chdr_marshal (chdr_with_length h k)) in *.
  assert (S : forall s, s = k + 8 \/ s = k + 8 - 65536 -> (N.to_nat s <=? length (q ++ p))%nat = true).
  { intros s Es. apply Nat.leb_le. rewrite app_length, Hq. unfold nlen in KL. rewrite app_length in KL. lia. }
  assert (R : (let? cursor := chdr_len m (chdr_with_length h k) in
      let? r := msg1_loop T m (Datatypes.S (length (q ++ p))) (q ++ p) cursor 0 (fun _ => None) (map s_default (t_slots T)) in
      if forallb (fun t => is_some (fst r t)) (t_required T) then Ok (mkMsg1 (chdr_with_length h k) (snd r)) else Err MessageMandatoryIEMissing)
      = Ok (mkMsg1 (chdr_with_length h k) fs)).
  { rewrite chdr_len_ok by exact Hwf'. cbn [bind]. fold q.
    assert (H149' : forall i, In (Some i) fs -> ie1_t i <> 149).
    { intros i Hi E. apply H149. unfold has_code1, present. cbn [m_fields]. apply in_map_iff. exists i. split; [exact E|].
      apply in_flat_map. exists (Some i). split; [exact Hi|left; reflexivity]. }
    assert (Hfuel : (length (flat_map (fun v => match v with Some i => [i] | None => [] end) fs) < Datatypes.S (length (q ++ p)))%nat).
    { rewrite app_length. unfold p. clearbody q. clear -HF. revert HF. generalize (length q). intros n HF. induction HF as [|f v L' fs' Hf HF IH]; [cbn; lia|].
      cbn [flat_map map concat]. rewrite !app_length. destruct v as [i|]; cbn [opt_bytes length app]; [|exact IH].
      cbn [field_ok] in Hf. destruct Hf as [_ Hwf]. destruct (wf_head i Hwf) as (r & ->). cbn [length]. lia. }
    destruct (loop_fields code L T HT m fs HF HG H149' fs [] q 0 (fun _ => None) (Datatypes.S (length (q ++ p))) eq_refl) as (c' & HL & Hc').
    - intros t. reflexivity.
    - constructor; [exact Ha|]. apply Forall_forall. intros t _. lia.
    - exact Hfuel.
    - cbn [length app skipn] in HL. fold p in HL. rewrite HL. cbn [bind fst snd].
      replace (forallb (fun t => is_some (c' t)) (t_required T)) with true; [reflexivity|].
      symmetry. apply forallb_forall. intros t Ht. rewrite Hc'. apply cnt_present.
      destruct (tab_required code L T HT t Ht) as (f & Hf & Ec & Em). clear -HF Hf Ec Em.
      induction HF as [|g v L' fs' Hg HF IH]; [contradiction|]. destruct Hf as [->|Hf].
      + destruct v as [i|]; cbn [field_ok] in Hg.
        * exists i. split; [left; reflexivity|]. destruct Hg. congruence.
        * congruence.
      + destruct (IH Hf) as (i & Hi & E). exists i. split; [right; exact Hi|exact E]. }
  unfold add16, ov. destruct (N.ltb_spec (k + 8) 65536) as [B|B].
  - rewrite (proj2 (N.ltb_ge _ _)) by lia. destruct m; cbn [bind]; rewrite S by (left; reflexivity); exact R.
  - destruct m; [rewrite (proj2 (N.ltb_lt _ _)) by lia; reflexivity|]. cbn [bind].
    rewrite S by (right; symmetry; apply (N.mod_unique _ _ 1); lia). exact R.
Qed.

(* --- the hypotheses are met ------------------------------------------------------------------------------------------ *)
(* 65557 octets of payload arrive as 21 *)
Example C91_gpdu_case : let h := mkHdr 255 0 7 None None None in let p := repeat 1 21 in let t := repeat 2 (N.to_nat 65536) in
  wf_header h /\ 0 < nlen (hdr_marshal h ++ p) - 8 <= 65527 /\ nlen t mod 65536 = 0 /\ p <> [] /\ t <> [] /\
  forall m, Gpdu_unmarshal m (Gpdu_marshal (mkGpdu h (p ++ t)) []) = Ok (mkGpdu (with_length h 21) p).
Proof.
  intros h p t. split; [|split; [split; [reflexivity|discriminate]|split; [vm_compute; reflexivity|split; [discriminate|split; [|intros []; vm_compute; reflexivity]]]]].
  - split; [reflexivity|]. split; [reflexivity|]. split; discriminate.
  - intros E. apply (f_equal (fun l => nlen l)) in E. vm_compute in E. discriminate.
Qed.
(* a Delete PDP Context Response of 65549 octets: the length field says 5, and the message arrives *)
Definition long_response : Msg1 := mkMsg1 (mkCHdr 21 0 9 (Some 1) None None)
  [Some (I1_Cause (mkTv 1 128)); None; None; None; None; Some (I1_Pe (mkTlv 255 65532 (mkPeV 10415 (repeat 7 (N.to_nat 65530)))))].
Example C91_gtpv1c_case : wf_msg1 21 DeletePDPContextResponse_L long_response /\ nlen (msg1_octets long_response) = 65549 /\
  msg1_unmarshal DeletePDPContextResponse_T Debug (msg1_marshal long_response []) = Ok (received long_response).
Proof.
  assert (W : wf_msg1 21 DeletePDPContextResponse_L long_response).
  { split; [reflexivity|]. split; [repeat split; discriminate|]. split.
    - unfold long_response, DeletePDPContextResponse_L. cbn [m_fields].
      constructor; [split; [reflexivity|split; reflexivity]|]. do 4 (constructor; [reflexivity|]). constructor; [|constructor].
      split; [reflexivity|]. cbn [wf_ie1]. unfold wf_tlv. cbn [tlv_t tlv_length tlv_v pev_value]. unfold nlen. rewrite repeat_length, N2Nat.id.
      split; [reflexivity|]. split; [reflexivity|]. split; [discriminate|]. unfold pe_ok. cbn [pev_id]. reflexivity.
    - apply PropsV1C.no_gapb_ok. vm_compute. reflexivity. }
  assert (Z : nlen (msg1_octets long_response) = 65549) by (vm_compute; reflexivity).
  split; [exact W|]. split; [exact Z|].
  rewrite (C91_gtpv1c_partial 21 DeletePDPContextResponse_L DeletePDPContextResponse_T Debug long_response).
  - rewrite Z. reflexivity.
  - vm_compute. tauto.
  - exact W.
  - vm_compute. intuition discriminate.
  - vm_compute. intuition discriminate.
Qed.

Print Assumptions C91_gpdu.
Print Assumptions C91_gpdu_refuted.
Print Assumptions C91_gtpv1c_partial.

(* The messages that are not made from the tables: echo request and response, version not supported, supported extension headers. *)
Lemma cframed_any m h p : wf_chdr h -> let k := said (nlen (chdr_marshal h ++ p) - 8) in
  chdr_unmarshal m (set_length (chdr_marshal h ++ p)) = Ok (chdr_with_length h k) /\
  chdr_len m (chdr_with_length h k) = Ok (length (chdr_marshal h)) /\ (N.to_nat k + 8 <= length (chdr_marshal h) + length p)%nat /\
  exists q, set_length (chdr_marshal h ++ p) = q ++ p /\ length q = length (chdr_marshal h).
Proof.
  intros Hh k. assert (K : k < 65536) by (apply N.mod_lt; discriminate). pose proof (chdr_with_length_wf h k Hh K) as Hwf'.
  assert (KL : k <= nlen (chdr_marshal h ++ p) - 8) by (apply N.mod_le; discriminate). pose proof (chdr_marshal_ge8 h) as H8.
  pose proof (chdr_with_length_length h k) as Hq.
  rewrite set_length_chdr. fold (said (nlen (chdr_marshal h ++ p) - 8)). fold k. split; [|split; [|split]].
  - apply chdr_roundtrip; exact Hwf'.
  - rewrite chdr_len_ok by exact Hwf'. rewrite Hq. reflexivity.
  - unfold nlen in KL. rewrite app_length in KL. lia.
  - exists (chdr_marshal (chdr_with_length h k)). split; [reflexivity|exact Hq].
Qed.
(* So every message that is accepted, of any size and with any elements, is the one that was sent. *)
Lemma lost_any code L T m x y : In (code, L, T) messages1 -> wf_msg1 code L x ->
  msg1_unmarshal T m (msg1_marshal x []) = Ok y -> ascending x /\ ~ has_code1 x 149.
Proof.
  intros Hin (Hmt & Hh & HF & HG) Hok. pose proof (messages1_checked _ _ _ Hin) as HT.
  pose proof (pe_last_alone L (m_fields x) HF (messages1_pe _ _ _ Hin)) as Hal. fold (present x) in Hal.
  assert (Hwf : Forall wf_ie1 (present x)).
  { apply Forall_forall. intros i Hi. apply present_in in Hi. apply (field_ok_in L _ i HF Hi). }
  destruct (msg1_accepted code L T HT m _ _ Hok) as (n & l & Hu & _ & _ & Hlen & Hr & Hs & _).
  unfold msg1_marshal, msg1_octets in *. cbn [app] in *. rewrite fields_elements in *. fold (present x) in *.
  destruct (cframed_any m (m_header x) (elements (present x)) Hh) as (H1 & H2 & _ & q & H3 & H4).
  rewrite H1 in Hu. apply Ok_inj in Hu. rewrite <- Hu in Hlen. rewrite H2 in Hlen. apply Ok_inj in Hlen. subst n.
  rewrite H3, <- H4 in Hr.
  assert (H149 : ~ has_code1 x 149).
  { intros Hc. apply (reads_restriction m q (present x) Hwf Hal Hc [] l); [|exact Hs]. cbn [app length]. rewrite Nat.add_0_r. exact Hr. }
  split; [|exact H149].
  pose proof (reads_elements m q (present x) Hwf Hal H149 []) as Hr'. cbn [app length] in Hr'. rewrite Nat.add_0_r in Hr'.
  rewrite (reads_det _ _ _ _ Hr _ Hr') in Hs. rewrite map_map in Hs. exact Hs.
Qed.
Theorem C91_gtpv1c : forall code L T m x y, In (code, L, T) messages1 -> wf_msg1 code L x ->
  msg1_unmarshal T m (msg1_marshal x []) = Ok y -> y = received x.
Proof.
  intros code L T m x y Hin Hw Hok. destruct (lost_any code L T m x y Hin Hw Hok) as [Ha H149].
  assert (Hg : has_code1 x 251 -> forall t, 148 <= t <= 218 -> ~ has_code1 x t).
  { intros Hg t Ht Hc. exact (gw_not_ascending code L T x t Hin Hw Hg Ht Hc Ha). }
  rewrite (C91_gtpv1c_partial code L T m x Hin Hw H149 Hg) in Hok. destruct (match m with Debug => _ | Release => false end); [discriminate|].
  apply Ok_inj in Hok. congruence.
Qed.
Print Assumptions C91_gtpv1c.
(* and these are all that are accepted *)
Theorem C91_gtpv1c_accepted : forall code L T m x, In (code, L, T) messages1 -> wf_msg1 code L x ->
  (exists y, msg1_unmarshal T m (msg1_marshal x []) = Ok y) <->
  ~ has_code1 x 149 /\ (has_code1 x 251 -> forall t, 148 <= t <= 218 -> ~ has_code1 x t) /\ (m = Debug -> said (nlen (msg1_octets x) - 8) <= 65527).
Proof.
  intros code L T m x Hin Hw. split.
  - intros (y & Hok). destruct (lost_any code L T m x y Hin Hw Hok) as [Ha H149].
    assert (Hg : has_code1 x 251 -> forall t, 148 <= t <= 218 -> ~ has_code1 x t).
    { intros Hg t Ht Hc. exact (gw_not_ascending code L T x t Hin Hw Hg Ht Hc Ha). }
    split; [exact H149|]. split; [exact Hg|]. intros ->. rewrite (C91_gtpv1c_partial code L T Debug x Hin Hw H149 Hg) in Hok. cbv iota in Hok.
    destruct (N.ltb_spec 65527 (said (nlen (msg1_octets x) - 8))); [discriminate|assumption].
  - intros (H149 & Hg & D). exists (received x). rewrite (C91_gtpv1c_partial code L T m x Hin Hw H149 Hg). destruct m; [|reflexivity].
    specialize (D eq_refl). rewrite (proj2 (N.ltb_ge _ _)) by exact D. reflexivity.
Qed.
Print Assumptions C91_gtpv1c_accepted.
Theorem C91_gtpv1c_version_not_supported : forall m h, wf_chdr h -> c_msgtype h = 3 ->
  Vns_unmarshal m (Vns_marshal h []) = Ok (chdr_with_length h (said (nlen (chdr_marshal h) - 8))).
Proof.
  intros m h Hw Ht. unfold Vns_unmarshal, Vns_marshal. cbn [app].
  destruct (cframed_any m h [] Hw) as (Hh & _). rewrite ?app_nil_r in *. rewrite Hh. cbn [bind].
  change (c_msgtype (chdr_with_length h (said (nlen (chdr_marshal h) - 8)))) with (c_msgtype h). rewrite Ht. reflexivity.
Qed.
Print Assumptions C91_gtpv1c_version_not_supported.
Theorem C91_gtpv1c_echo_request : forall m h o, wf_chdr h -> c_msgtype h = 1 -> wf_opt (fun p => wf_ie1 (I1_Pe p)) o ->
  let k := said (nlen (chdr_marshal h ++ opt_bytes (tlv_marshal CPe_value) o) - 8) in
  CEchoReq_unmarshal m (CEchoReq_marshal (mkCEchoReq h o) []) = Ok (mkCEchoReq (chdr_with_length h k) o).
Proof.
  intros m h o Hw Ht Hp k. unfold CEchoReq_unmarshal, CEchoReq_marshal. cbn [app ceq_header ceq_pe].
  destruct (cframed_any m h (opt_bytes (tlv_marshal CPe_value) o) Hw) as (Hh & Hl & KL & q & Eq & Hq). fold k in Hh, Hl, KL.
  rewrite Hh. cbn [bind]. change (c_msgtype (chdr_with_length h k)) with (c_msgtype h). rewrite Ht. change (1 =? ECHO_REQUEST) with true. cbv iota.
  change (c_length (chdr_with_length h k)) with k. rewrite Eq, app_length, Hq. rewrite (proj2 (Nat.ltb_lt _ _)) by lia.
  rewrite Hl. cbn [bind]. rewrite slice_from_ok by (rewrite app_length; lia). rewrite skipn_app_exact by (symmetry; exact Hq). cbn [bind].
  rewrite V1CFourFacts.optional_pe by exact Hp. reflexivity.
Qed.
Print Assumptions C91_gtpv1c_echo_request.
Theorem C91_gtpv1c_echo_response : forall m h r o, wf_chdr h -> c_msgtype h = 2 -> wf_ie1 (I1_Recovery r) -> wf_opt (fun p => wf_ie1 (I1_Pe p)) o ->
  let k := said (nlen (chdr_marshal h ++ CRecovery_marshal r ++ opt_bytes (tlv_marshal CPe_value) o) - 8) in
  CEchoResp_unmarshal m (CEchoResp_marshal (mkCEchoResp h r o) []) = Ok (mkCEchoResp (chdr_with_length h k) r o).
Proof.
  intros m h r o Hw Ht Hr Hp k. unfold CEchoResp_unmarshal, CEchoResp_marshal. cbn [app cer_header cer_recovery cer_pe].
  destruct (cframed_any m h (CRecovery_marshal r ++ opt_bytes (tlv_marshal CPe_value) o) Hw) as (Hh & Hl & KL & q & Eq & Hq). fold k in Hh, Hl, KL.
  destruct Hr as [Hrt Hrv]. destruct r as [rt rv]. cbn [tv_t tv_v] in *. subst rt. change (CRecovery_marshal (mkTv 14 rv)) with [14; rv] in *.
  rewrite Hh. cbn [bind]. change (c_msgtype (chdr_with_length h k)) with (c_msgtype h). rewrite Ht. change (2 =? ECHO_RESPONSE) with true. cbv iota.
  change (c_length (chdr_with_length h k)) with k. rewrite Eq. rewrite !app_length in *. rewrite <- Hq in *. cbn [length] in *.
  rewrite (proj2 (Nat.ltb_lt _ _)) by lia. rewrite Hl. cbn [bind]. rewrite (proj2 (Nat.ltb_lt _ _)) by lia.
  assert (Hat : @at_ GTPV1Error (q ++ [14; rv] ++ opt_bytes (tlv_marshal CPe_value) o) (length q) = Ok 14) by (unfold at_; rewrite nth_error_app2, Nat.sub_diag by lia; reflexivity).
  rewrite Hat. cbn [bind]. change (14 =? RECOVERY) with true. cbv iota. rewrite slice_from_ok by (rewrite app_length; lia).
  rewrite skipn_app_exact by reflexivity. cbn [bind].
  change (CRecovery_unmarshal ([14; rv] ++ opt_bytes (tlv_marshal CPe_value) o)) with (@Ok GTPV1Error _ (mkTv 14 rv)). cbn [bind]. cbv zeta.
  destruct (Nat.ltb_spec (length q + 2) (length q + (2 + length (opt_bytes (tlv_marshal CPe_value) o)))) as [Hc|Hc].
  - rewrite slice_from_ok by (rewrite !app_length; cbn [length]; lia). rewrite app_assoc, skipn_app_exact by (rewrite app_length; reflexivity).
    cbn [bind]. rewrite V1CFourFacts.optional_pe by exact Hp. reflexivity.
  - destruct o as [x|]; [|reflexivity]. exfalso. cbn [length opt_bytes] in Hc. unfold tlv_marshal, set_tlv_ie_length in Hc. cbn in Hc. lia.
Qed.
Print Assumptions C91_gtpv1c_echo_response.
Theorem C91_gtpv1c_supported_extension_headers : forall m h l, wf_chdr h -> c_msgtype h = 31 ->
  tlv_t l = 141 -> tlv_length l = nlen (tlv_v l) -> nlen (tlv_v l) <= 253 ->
  let k := said (nlen (chdr_marshal h ++ CEhtl_marshal l) - 8) in
  CSup_unmarshal m (CSup_marshal (mkCSup h l) []) =
  if match m with Debug => 65527 <? k | Release => false end then Panic else Ok (mkCSup (chdr_with_length h k) l).
Proof.
  intros m h l Hw Ht L1 L2 L3 k. unfold CSup_unmarshal, CSup_marshal. cbn [app cs_header cs_list].
  destruct (V1CFourFacts.cehtl_roundtrip m l (conj L1 (conj L2 L3))) as [Hrt (r & Er)].
  set (body := CEhtl_marshal l) in *.
  destruct (cframed_any m h body Hw) as (Hh & Hl & KL & q & Eq & Hq). fold k in Hh, Hl, KL.
  rewrite Hh. cbn [bind]. change (c_msgtype (chdr_with_length h k)) with (c_msgtype h). rewrite Ht.
  change (negb (31 =? SUPPORTED_EXTENSION_HEADERS_NOTIFICATION)) with false. cbv iota. change (c_length (chdr_with_length h k)) with k. rewrite Eq.
  assert (K : k < 65536) by (apply N.mod_lt; discriminate).
  assert (Hb : (1 <= length body)%nat) by (rewrite Er; cbn; lia).
  assert (G : forall tot, (N.to_nat tot <= length (chdr_marshal h) + length body)%nat ->
    (if (N.to_nat tot <=? length (q ++ body))%nat then
      let? hs := chdr_len m (chdr_with_length h k) in
      if (hs =? length (q ++ body))%nat then Err MessageMandatoryIEMissing
      else
        let? t := at_ (q ++ body) hs in
        if t =? EXTENSION_HEADER_TYPE_LIST then
          let? r := slice_from (q ++ body) hs in
          match CEhtl_unmarshal m r with
          | Ok i => Ok (mkCSup (chdr_with_length h k) i)
          | Err _ => Err MessageMandatoryIEMissing
          | Panic => Panic | Diverge => Diverge
          end
        else Err MessageInvalidMessageFormat
    else Err MessageLengthError) = Ok (mkCSup (chdr_with_length h k) l)).
  { intros tot Htot. rewrite app_length, Hq, (proj2 (Nat.leb_le _ _)) by lia. rewrite Hl. cbn [bind]. rewrite (proj2 (Nat.eqb_neq _ _)) by lia.
    assert (Hat : @at_ GTPV1Error (q ++ body) (length (chdr_marshal h)) = Ok 141) by (unfold at_; rewrite <- Hq, nth_error_app2, Nat.sub_diag, Er by lia; reflexivity).
    rewrite Hat. cbn [bind]. change (141 =? EXTENSION_HEADER_TYPE_LIST) with true. cbv iota. rewrite slice_from_ok by (rewrite app_length; lia).
    rewrite skipn_app_exact by (symmetry; exact Hq). cbn [bind]. rewrite Hrt. reflexivity. }
  unfold add16, ov. destruct (N.ltb_spec (k + 8) 65536) as [S|S].
  - cbn [bind]. rewrite G by lia. destruct m; [|reflexivity]. destruct (N.ltb_spec 65527 k); [lia|reflexivity].
  - destruct m; cbn [bind]; [destruct (N.ltb_spec 65527 k); [reflexivity|lia]|]. apply G.
    assert (M : (k + 8) mod 65536 <= k + 8) by (apply N.mod_le; discriminate). lia.
Qed.
Print Assumptions C91_gtpv1c_supported_extension_headers.
(* An echo request with a private extension of 65535 octets: the length field says 3, and all of it arrives. *)
Definition echo_case (c : list N) : CEchoReq := mkCEchoReq (mkCHdr 1 0 0 (Some 5) None None) (Some (mkTlv 255 65532 (mkPeV 10415 c))).
Example C91_gtpv1c_echo_request_case : forall m c, nlen c = 65530 ->
  CEchoReq_unmarshal m (CEchoReq_marshal (echo_case c) []) = Ok (mkCEchoReq (mkCHdr 1 3 0 (Some 5) None None) (ceq_pe (echo_case c))).
Proof.
  intros m c Hc. unfold echo_case. rewrite C91_gtpv1c_echo_request.
  - cbv zeta. cbn [ceq_pe]. match goal with |- Ok (mkCEchoReq (chdr_with_length _ ?k) _) = _ => replace k with 3; [reflexivity|] end.
    unfold said. cbn [opt_bytes]. unfold tlv_marshal, set_tlv_ie_length. unfold nlen in *. cbn. lia.
  - repeat split; try discriminate; reflexivity.
  - reflexivity.
  - change (255 = 255 /\ 65532 = 2 + nlen c /\ 2 + nlen c <= 65532 /\ pe_ok (mkPeV 10415 c)). rewrite Hc. repeat split; discriminate.
Qed.
