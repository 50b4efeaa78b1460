(* PropsV1UWire.v - GTP-U octets on the wire and what received octets mean (C54-C57). *)
From Verif Require Import BaseFacts V1USpec V1UFacts V1USafety V1USafety2 V1USafety3 V1UWireSpec V1UWireFacts V1UReadFacts.
From Coq Require Import Sorted.
Local Open Scope N_scope.

(* ----- C54: the octets of every GTP-U packet sent ---------------------------------------------- *)
Theorem C54_header_octets : forall h, wf_header h -> hdr_marshal h = hdr_wire h (h_length h).
Proof. exact hdr_wire_ok. Qed.
Print Assumptions C54_header_octets.

(* the packet fits the 16-bit length field *)
Definition fits (h : Gtpv1Header) (body : list N) : Prop := nlen (hdr_wire h 0 ++ body) < 65544.

Lemma framed h p : wf_header h -> fits h p -> set_length (hdr_marshal h ++ p) = msg_wire h p.
Proof.
  intros Hw Hf. apply framed_wire; [exact Hw|]. unfold fits, nlen in *. rewrite app_length in *.
  rewrite hdr_wire_ok, hdr_wire_length by exact Hw. lia.
Qed.
Theorem C54_gpdu_octets : forall x, wf_header (gp_header x) -> fits (gp_header x) (gp_tpdu x) ->
  Gpdu_marshal x [] = msg_wire (gp_header x) (gp_tpdu x).
Proof. intros x Hw Hf. apply framed; assumption. Qed.
Print Assumptions C54_gpdu_octets.

Theorem C54_echo_request_end_marker_octets : forall x, wf_header (sm_header x) -> wf_opt wf_pe (sm_private_ext x) ->
  fits (sm_header x) (opt_wire pe_wire (sm_private_ext x)) ->
  Simple_marshal x [] = msg_wire (sm_header x) (opt_wire pe_wire (sm_private_ext x)).
Proof. intros x Hw Hp Hf. unfold Simple_marshal. cbn [app]. rewrite opt_wire_ok by exact Hp. apply framed; assumption. Qed.
Print Assumptions C54_echo_request_end_marker_octets.

Theorem C54_echo_response_octets : forall x, wf_header (er_header x) -> wf_opt wf_pe (er_private_ext x) ->
  fits (er_header x) (recovery_wire (er_recovery x) ++ opt_wire pe_wire (er_private_ext x)) ->
  EchoResponse_marshal x [] =
  msg_wire (er_header x) (recovery_wire (er_recovery x) ++ opt_wire pe_wire (er_private_ext x)).
Proof. intros x Hw Hp Hf. unfold EchoResponse_marshal. cbn [app]. rewrite opt_wire_ok by exact Hp. apply framed; assumption. Qed.
Print Assumptions C54_echo_response_octets.

Theorem C54_error_indication_octets : forall x, wf_header (ei_header x) -> wf_teid (ei_teid x) -> wf_gsn (ei_peer x) ->
  wf_opt wf_pe (ei_private x) ->
  fits (ei_header x) (teid_wire (ei_teid x) ++ gsn_wire (ei_peer x) ++ opt_wire pe_wire (ei_private x)) ->
  ErrorIndication_marshal x [] =
  msg_wire (ei_header x) (teid_wire (ei_teid x) ++ gsn_wire (ei_peer x) ++ opt_wire pe_wire (ei_private x)).
Proof.
  intros x Hw Ht Hg Hp Hf. unfold ErrorIndication_marshal. cbn [app]. rewrite opt_wire_ok by exact Hp.
  rewrite teid_wire_ok by apply Ht. rewrite gsn_wire_ok by exact Hg. apply framed; assumption.
Qed.
Print Assumptions C54_error_indication_octets.

Theorem C54_supported_extension_headers_octets : forall x, wf_header (sn_header x) -> wf_ehtl (sn_list x) ->
  fits (sn_header x) (ehtl_wire (sn_list x)) ->
  SupExtNotif_marshal x [] = msg_wire (sn_header x) (ehtl_wire (sn_list x)).
Proof. intros x Hw He Hf. unfold SupExtNotif_marshal. cbn [app]. rewrite ehtl_wire_ok by exact He. apply framed; assumption. Qed.
Print Assumptions C54_supported_extension_headers_octets.

Example C54_case :
  let h := mkHdr 26 0 7 (Some 300) None (Some [EH_UDPPort (mkNumExt 64 1 2152)]) in
  let x := mkErrInd h (mkTeid 16 258) (mkGsn 133 4 (V4 10 0 0 1)) (Some (mkPe 255 3 42 [9])) in
  (wf_header (ei_header x) /\ wf_teid (ei_teid x) /\ wf_gsn (ei_peer x) /\ wf_opt wf_pe (ei_private x) /\
   fits h (teid_wire (ei_teid x) ++ gsn_wire (ei_peer x) ++ opt_wire pe_wire (ei_private x))) /\
  ErrorIndication_marshal x [] =
    [54; 26; 0; 26; 0; 0; 0; 7; 1; 44; 0; 64; 1; 8; 104; 0] ++
    [16; 0; 0; 1; 2] ++ [133; 0; 4; 10; 0; 0; 1] ++ [255; 0; 3; 0; 42; 9].
Proof.
  cbv zeta. split; [|reflexivity]. split.
  - repeat split; try (cbn; lia).
    + intros s [= <-]. reflexivity.
    + intros l [= <-]. constructor; [|constructor]. cbn. unfold wf_num. cbn. repeat split; auto; lia.
  - repeat split; try (cbn; lia); reflexivity.
Qed.

(* ----- C55: which octets are a GTP-U header, and which header they are -------------------------- *)
Theorem C55_header_meaning : forall b h, bytes b ->
  (hdr_unmarshal Debug b = Ok h <-> exists r, header_is b h r).
Proof. intros b h Hb. split; [apply header_is_debug, Hb|intros (r & H); exact (header_is_ok _ _ _ _ Hb H)]. Qed.
Print Assumptions C55_header_meaning.

(* In release builds too every such header is read so (the converse fails there: C09). *)
Theorem C55_header_meaning_any_build : forall m b h r, bytes b -> header_is b h r -> hdr_unmarshal m b = Ok h.
Proof. exact header_is_ok. Qed.
Print Assumptions C55_header_meaning_any_build.

(* The header size the library computes is where the header ends. *)
Theorem C55_header_ends : forall m b h r, header_is b h r ->
  exists n, get_header_size m h = Ok n /\ (n <= length b)%nat /\ skipn n b = r.
Proof. exact header_is_rest. Qed.
Print Assumptions C55_header_ends.

Theorem C55_extension_headers_meaning : forall b l,
  unmarshal_ext_hdr Debug b = Ok l <-> exists r, chain_is b l r.
Proof. exact unmarshal_ext_debug. Qed.
Print Assumptions C55_extension_headers_meaning.

Example C55_case :
  header_is [54; 26; 0; 9; 0; 0; 1; 7; 1; 44; 3; 64; 1; 8; 104; 3; 2; 1; 2; 3; 0; 0; 0; 0; 77]
    (mkHdr 26 9 263 (Some 300) None
       (Some [EH_UDPPort (mkNumExt 64 1 2152); EH_LongPDCPPDUNumber (mkNumExt 3 2 66051)])) [77].
Proof.
  apply (header_long 54 26 0 9 0 0 1 7 1 44 3 64 [1; 8; 104; 3; 2; 1; 2; 3; 0; 0; 0; 0; 77]); try reflexivity; try discriminate.
  change (walks_extensions 54) with true. cbv iota.
  apply (chain_is_more 64 1 [8; 104] (3 :: 2 :: [1; 2; 3; 0; 0; 0] ++ [0; 77])); try reflexivity; try lia.
  apply (chain_is_more 3 2 [1; 2; 3; 0; 0; 0] [0; 77]); try reflexivity; try lia. constructor.
Qed.

(* ----- C56: which packets are which GTP-U message ----------------------------------------------- *)
(* An Error Indication: type 26, the length within the packet, after the header TEIDs, then GSN
   addresses, then private extensions up to the end of the packet, at least one TEID and one
   address; the first of each counts. *)
Theorem C56_error_indication : forall b x, bytes b ->
  (ErrorIndication_unmarshal Debug b = Ok x <->
   exists h r l t g, header_is b h r /\ msgtype h = 26 /\ h_length h <= 65527 /\ h_length h + 8 <= nlen b /\
     carries r l /\ StronglySorted N.le (map ucode l) /\
     (length (teids l) <= 255 /\ length (gsns l) <= 255 /\ length (pes l) <= 255)%nat /\
     hd_error (teids l) = Some t /\ hd_error (gsns l) = Some g /\
     x = mkErrInd h t g (hd_error (pes l))).
Proof.
  intros b x Hb. split.
  - intros H. unfold ErrorIndication_unmarshal in H. apply bind_ok in H as (h & Hh & H).
    destruct (header_is_debug _ _ Hb Hh) as (r & Hr).
    destruct (N.eqb_spec (msgtype h) ERROR_INDICATION) as [Ht|]; [|discriminate]. cbn [negb] in H.
    apply bind_ok in H as (tot & Htot & H). unfold add16, ov in Htot.
    destruct (N.ltb_spec (h_length h + 8) 65536) as [Hl|]; [|discriminate]. apply Ok_inj in Htot. subst tot.
    destruct (Nat.leb_spec (N.to_nat (h_length h + 8)) (length b)) as [Hle|]; [|discriminate].
    destruct (header_is_rest Debug _ _ _ Hr) as (n & Hn & Hnb & Hsk). rewrite Hn in H. cbn [bind] in H.
    apply bind_ok in H as (s & Hs & H). apply ei_loop_is in Hs; [|exact Hb|exact Hnb].
    cbn [ei_cursor ei_increment c_teid c_gsn c_pe cnt] in Hs. destruct Hs as (l & Hl' & Hss & _ & K1 & K2 & K3 & A1 & A2 & A3 & A4 & A5).
    cbn [c_teid c_gsn c_pe s_teid s_gsn s_pe is_some orb] in *. rewrite Hsk in Hl'. unfold count_of in *. cbn [cnt] in *.
    rewrite A1, A2 in H. destruct (teids l) as [|t ts] eqn:Et; [discriminate|]. destruct (gsns l) as [|g gs] eqn:Eg; [discriminate|].
    cbn [andb negb] in H. apply Ok_inj in H. exists h, r, l, t, g. rewrite Et, Eg. cbn [hd hd_error] in *.
    repeat (split; [first [exact Hr|exact Ht|unfold nlen; lia|exact Hl'|exact Hss|repeat split; lia|reflexivity]|]).
    rewrite <- H, A3, A4, A5. destruct (pes l); reflexivity.
  - intros (h & r & l & t & g & Hr & Ht & Hl & Hle & Hc & Hss & (K1 & K2 & K3) & Et & Eg & ->).
    unfold ErrorIndication_unmarshal. rewrite (header_is_ok Debug _ _ _ Hb Hr). cbn [bind]. rewrite Ht. change (26 =? ERROR_INDICATION) with true. cbn [negb].
    rewrite add16_small by lia. cbn [bind]. unfold nlen in Hle.
    destruct (Nat.leb_spec (N.to_nat (h_length h + 8)) (length b)); [|lia].
    destruct (header_is_rest Debug _ _ _ Hr) as (n & Hn & Hnb & Hsk). rewrite Hn. cbn [bind].
    destruct (ei_loop_carries Debug r l Hc (S (length b)) (firstn n b) (mkEi n 0 None None None teid_default gsn_default None))
      as (s & Es & A1 & A2 & A3 & A4 & A5); cbn [ei_cursor ei_increment c_teid c_gsn c_pe cnt]; unfold count_of; cbn [cnt]; try lia.
    + rewrite firstn_length. lia.
    + rewrite <- Hsk, skipn_length. lia.
    + exact Hss.
    + apply Forall_forall. intros; lia.
    + rewrite <- Hsk, firstn_skipn in Es. rewrite Es. cbn [bind]. cbn [c_teid c_gsn c_pe s_teid s_gsn s_pe is_some orb] in *.
      rewrite A1, A2, A3, A4, A5. destruct (teids l) as [|t' ts]; [discriminate|]. destruct (gsns l) as [|g' gs]; [discriminate|].
      cbn [hd hd_error] in *. injection Et as ->. injection Eg as ->. cbn [negb andb]. destruct (pes l); reflexivity.
Qed.
Print Assumptions C56_error_indication.

(* An Echo Response: after the header a Recovery element, then possibly a private extension. *)
Theorem C56_echo_response : forall b x, bytes b ->
  (EchoResponse_unmarshal Debug b = Ok x <->
   exists h v r p, header_is b h (14 :: v :: r) /\ msgtype h = 2 /\ h_length h + 4 < nlen b /\
     private_opt r p /\ x = mkEchoResp h (mkRec 14 v) p).
Proof.
  intros b x Hb. split.
  - intros H. unfold EchoResponse_unmarshal in H. apply bind_ok in H as (h & Hh & H).
    destruct (header_is_debug _ _ Hb Hh) as (r & Hr).
    destruct (N.eqb_spec (msgtype h) ECHO_RESPONSE) as [Ht|]; [|discriminate]. cbn [negb] in H.
    destruct (Nat.ltb_spec (N.to_nat (h_length h) + 4) (length b)) as [Hl|]; [|discriminate].
    destruct (header_is_rest Debug _ _ _ Hr) as (n & Hn & Hnb & Hsk). rewrite Hn in H. cbn [bind] in H.
    destruct (Nat.ltb_spec n (length b)) as [Hlt|]; [|discriminate].
    apply bind_ok in H as (t & Et & H). destruct (N.eqb_spec t RECOVERY) as [Hrec|]; [subst t|discriminate].
    rewrite slice_from_ok in H by lia. cbn [bind] in H. rewrite Hsk in H.
    apply bind_ok in H as (rc & Erc & H). unfold Rec_unmarshal in Erc. destruct (Nat.ltb_spec 1 (length r)) as [H1|]; [|discriminate].
    destruct r as [|y [|v r]]; cbn [length] in H1; try lia. unfold at_ in Erc. cbn [nth_error bind] in Erc. apply Ok_inj in Erc.
    assert (y = 14). { rewrite <- (firstn_skipn n b), Hsk in Et. unfold at_ in Et. rewrite nth_error_app2 in Et by (rewrite firstn_length; lia).
      rewrite firstn_length, Nat.min_l, Nat.sub_diag in Et by lia. cbn [nth_error] in Et. apply Ok_inj in Et. exact Et. }
    subst y. exists h, v, r.
    assert (Hsk2 : skipn (n + 2) b = r) by (rewrite skipn_add, Hsk; reflexivity).
    assert (Hlen : length b = (n + 2 + length r)%nat) by (apply (f_equal (@length N)) in Hsk; rewrite skipn_length in Hsk; cbn [length] in Hsk; lia).
    destruct (Nat.ltb_spec (n + 2) (length b)) as [H2|H2].
    + rewrite slice_from_ok in H by lia. cbn [bind] in H. rewrite Hsk2 in H. apply bind_ok in H as (p & Hp & H). apply Ok_inj in H.
      apply private_opt_iff in Hp. exists p. subst rc. unfold nlen. repeat split; try assumption; try lia. symmetry. exact H.
    + exists None. apply Ok_inj in H. subst rc. unfold nlen. repeat split; try assumption; try lia.
      * destruct r; [exact I|cbn [length] in Hlen; lia].
      * symmetry. exact H.
  - intros (h & v & r & p & Hr & Ht & Hl & Hp & ->). unfold EchoResponse_unmarshal. rewrite (header_is_ok Debug _ _ _ Hb Hr). cbn [bind].
    rewrite Ht. change (2 =? ECHO_RESPONSE) with true. cbn [negb]. unfold nlen in Hl.
    destruct (Nat.ltb_spec (N.to_nat (h_length h) + 4) (length b)); [|lia].
    destruct (header_is_rest Debug _ _ _ Hr) as (n & Hn & Hnb & Hsk). rewrite Hn. cbn [bind].
    assert (Hlen : length b = (n + 2 + length r)%nat) by (apply (f_equal (@length N)) in Hsk; rewrite skipn_length in Hsk; cbn [length] in Hsk; lia).
    destruct (Nat.ltb_spec n (length b)); [|lia].
    assert (Hat : @at_ GTPV1Error b n = Ok 14).
    { rewrite <- (firstn_skipn n b), Hsk. unfold at_. rewrite nth_error_app2 by (rewrite firstn_length; lia).
      rewrite firstn_length, Nat.min_l, Nat.sub_diag by lia. reflexivity. }
    rewrite Hat. cbn [bind]. change (14 =? RECOVERY) with true. cbv iota. rewrite slice_from_ok by lia. cbn [bind]. rewrite Hsk.
    change (Rec_unmarshal (14 :: v :: r)) with (@Ok GTPV1Error _ (mkRec 14 v)). cbn [bind].
    destruct (Nat.ltb_spec (n + 2) (length b)).
    + rewrite slice_from_ok by lia. cbn [bind]. rewrite skipn_add, Hsk. cbn [skipn]. apply private_opt_iff in Hp. rewrite Hp. reflexivity.
    + destruct r; [|cbn [length] in Hlen; lia]. destruct p as [p|]; [|reflexivity].
      destruct Hp as (? & ? & ? & ? & ? & ? & E & _). discriminate.
Qed.
Print Assumptions C56_echo_response.

(* An Echo Request or End Marker: a header of that type, and a private extension looked for only
   if the packet is longer than the length field says. *)
Theorem C56_echo_request_end_marker : forall mt b x, bytes b ->
  (Simple_unmarshal mt Debug b = Ok x <->
   exists h r p, header_is b h r /\ msgtype h = mt /\
     (if h_length h <? nlen b then private_opt r p else p = None) /\ x = mkSimple h p).
Proof.
  intros mt b x Hb. unfold Simple_unmarshal.
  assert (E : forall h, (N.to_nat (h_length h) <? length b)%nat = (h_length h <? nlen b)).
  { intros h. unfold nlen. destruct (Nat.ltb_spec (N.to_nat (h_length h)) (length b)), (N.ltb_spec (h_length h) (N.of_nat (length b))); lia. }
  split.
  - intros H. apply bind_ok in H as (h & Hh & H). destruct (header_is_debug _ _ Hb Hh) as (r & Hr).
    destruct (N.eqb_spec (msgtype h) mt) as [Ht|]; [|discriminate]. cbn [negb] in H. rewrite E in H.
    destruct (header_is_rest Debug _ _ _ Hr) as (n & Hn & Hnb & Hsk).
    destruct (h_length h <? nlen b) eqn:Hl.
    + rewrite Hn in H. cbn [bind] in H. rewrite slice_from_ok in H by lia. cbn [bind] in H. rewrite Hsk in H.
      apply bind_ok in H as (p & Hp & H). apply private_opt_iff in Hp. apply Ok_inj in H. exists h, r, p. rewrite Hl. auto.
    + apply Ok_inj in H. exists h, r, None. rewrite Hl. auto.
  - intros (h & r & p & Hr & Ht & Hp & ->). rewrite (header_is_ok Debug _ _ _ Hb Hr). cbn [bind]. rewrite Ht, N.eqb_refl. cbn [negb]. rewrite E.
    destruct (header_is_rest Debug _ _ _ Hr) as (n & Hn & Hnb & Hsk).
    destruct (h_length h <? nlen b).
    + rewrite Hn. cbn [bind]. rewrite slice_from_ok by lia. cbn [bind]. rewrite Hsk. apply private_opt_iff in Hp. rewrite Hp. reflexivity.
    + subst p. reflexivity.
Qed.
Print Assumptions C56_echo_request_end_marker.

(* A G-PDU: the user data are the octets after the header up to where the length says. *)
Theorem C56_gpdu : forall b x, bytes b ->
  (Gpdu_unmarshal Debug b = Ok x <->
   exists h data rest, header_is b h (data ++ rest) /\ msgtype h = 255 /\ h_length h <= 65527 /\
     nlen b = 8 + h_length h + nlen rest /\ x = mkGpdu h data).
Proof.
  intros b x Hb. unfold Gpdu_unmarshal. split.
  - intros H. apply bind_ok in H as (h & Hh & H). destruct (header_is_debug _ _ Hb Hh) as (r & Hr).
    destruct (N.eqb_spec (msgtype h) GPDU) as [Ht|]; [|discriminate]. cbn [negb] in H.
    apply bind_ok in H as (tot & Htot & H). unfold add16, ov in Htot.
    destruct (N.ltb_spec (h_length h + 8) 65536) as [Hl|]; [|discriminate]. apply Ok_inj in Htot. subst tot.
    destruct (Nat.leb_spec (N.to_nat (h_length h + 8)) (length b)) as [Hle|]; [|discriminate].
    destruct (header_is_rest Debug _ _ _ Hr) as (n & Hn & Hnb & Hsk). rewrite Hn in H. cbn [bind] in H.
    apply bind_ok in H as (p & Hp & H). apply Ok_inj in H.
    assert (Hnt : (n <= N.to_nat (h_length h + 8))%nat).
    { unfold slice in Hp. destruct (Nat.leb_spec n (N.to_nat (h_length h + 8))); [assumption|discriminate]. }
    rewrite slice_ok in Hp by lia. apply Ok_inj in Hp. rewrite Hsk in Hp.
    exists h, p, (skipn (N.to_nat (h_length h + 8) - n) r). rewrite <- Hp, firstn_skipn.
    split; [exact Hr|]. split; [exact Ht|]. split; [lia|]. split; [|rewrite Hp; symmetry; exact H].
    unfold nlen. rewrite <- Hsk, !skipn_length. lia.
  - intros (h & data & rest & Hr & Ht & Hl & Hlen & ->). rewrite (header_is_ok Debug _ _ _ Hb Hr). cbn [bind]. rewrite Ht.
    change (255 =? GPDU) with true. cbn [negb]. rewrite add16_small by lia. cbn [bind]. unfold nlen in Hlen.
    destruct (Nat.leb_spec (N.to_nat (h_length h + 8)) (length b)); [|lia].
    destruct (header_is_rest Debug _ _ _ Hr) as (n & Hn & Hnb & Hsk). rewrite Hn. cbn [bind].
    pose proof (f_equal (@length N) Hsk) as Hk. rewrite skipn_length, app_length in Hk.
    rewrite slice_ok by lia. cbn [bind]. rewrite Hsk.
    replace (N.to_nat (h_length h + 8) - n)%nat with (length data) by lia.
    rewrite firstn_app, firstn_all, Nat.sub_diag. cbn [firstn]. rewrite app_nil_r. reflexivity.
Qed.
Print Assumptions C56_gpdu.

(* A Supported Extension Headers Notification: after the header the type list; the list the
   library reports runs to the end of the packet. *)
Theorem C56_supported_extension_headers : forall b x, bytes b ->
  (SupExtNotif_unmarshal Debug b = Ok x <->
   exists h k l, header_is b h (141 :: k :: l) /\ msgtype h = 31 /\ h_length h <= 65527 /\
     h_length h + 8 <= nlen b /\ 1 <= k <= 253 /\ k <= nlen l /\ x = mkSup h (mkEhtl 141 k l)).
Proof.
  intros b x Hb. unfold SupExtNotif_unmarshal. split.
  - intros H. apply bind_ok in H as (h & Hh & H). destruct (header_is_debug _ _ Hb Hh) as (r & Hr).
    destruct (N.eqb_spec (msgtype h) SUPPORTED_EXTENSION_HEADERS_NOTIFICATION) as [Ht|]; [|discriminate]. cbn [negb] in H.
    apply bind_ok in H as (tot & Htot & H). unfold add16, ov in Htot.
    destruct (N.ltb_spec (h_length h + 8) 65536) as [Hl|]; [|discriminate]. apply Ok_inj in Htot. subst tot.
    destruct (Nat.leb_spec (N.to_nat (h_length h + 8)) (length b)) as [Hle|]; [|discriminate].
    destruct (header_is_rest Debug _ _ _ Hr) as (n & Hn & Hnb & Hsk). rewrite Hn in H. cbn [bind] in H.
    destruct (Nat.eqb_spec n (length b)) as [|Hne]; [discriminate|].
    apply bind_ok in H as (t & Et & H). destruct (N.eqb_spec t EXTENSION_HEADER_TYPE_LIST) as [Hrec|]; [subst t|discriminate].
    rewrite slice_from_ok in H by lia. cbn [bind] in H. rewrite Hsk in H.
    rewrite <- (firstn_skipn n b), Hsk in Et. unfold at_ in Et. rewrite nth_error_app2 in Et by (rewrite firstn_length; lia).
    rewrite firstn_length, Nat.min_l, Nat.sub_diag in Et by lia.
    destruct r as [|y r]; [discriminate|]. cbn [nth_error] in Et. apply Ok_inj in Et. subst y.
    destruct (Ehtl_unmarshal Debug (EXTENSION_HEADER_TYPE_LIST :: r)) as [i| | |] eqn:Ei; try discriminate.
    unfold Ehtl_unmarshal in Ei. destruct r as [|k l]; [discriminate|]. unfold at_ in Ei. cbn [nth_error bind] in Ei.
    destruct (N.eqb_spec k 0); [discriminate|]. apply bind_ok in Ei as (z & Hz & Ei). unfold add8, ov in Hz.
    destruct (N.ltb_spec (k + 2) 256); [|discriminate]. apply Ok_inj in Hz. subst z.
    destruct (Nat.leb_spec (N.to_nat (k + 2)) (length (EXTENSION_HEADER_TYPE_LIST :: k :: l))) as [Hk|]; [|discriminate].
    rewrite slice_from_ok in Ei by (cbn [length]; lia). cbn [skipn bind] in Ei. apply Ok_inj in Ei. apply Ok_inj in H.
    exists h, k, l. cbn [length] in Hk. unfold nlen. split; [exact Hr|]. split; [exact Ht|]. repeat split; try lia. subst i. symmetry. exact H.
  - intros (h & k & l & Hr & Ht & Hl & Hlen & Hk & Hkl & ->). rewrite (header_is_ok Debug _ _ _ Hb Hr). cbn [bind]. rewrite Ht.
    change (31 =? SUPPORTED_EXTENSION_HEADERS_NOTIFICATION) with true. cbn [negb]. rewrite add16_small by lia. cbn [bind]. unfold nlen in *.
    destruct (Nat.leb_spec (N.to_nat (h_length h + 8)) (length b)); [|lia].
    destruct (header_is_rest Debug _ _ _ Hr) as (n & Hn & Hnb & Hsk). rewrite Hn. cbn [bind].
    pose proof (f_equal (@length N) Hsk) as HL. rewrite skipn_length in HL. cbn [length] in HL.
    destruct (Nat.eqb_spec n (length b)); [lia|].
    assert (Hat : @at_ GTPV1Error b n = Ok 141).
    { rewrite <- (firstn_skipn n b), Hsk. unfold at_. rewrite nth_error_app2 by (rewrite firstn_length; lia).
      rewrite firstn_length, Nat.min_l, Nat.sub_diag by lia. reflexivity. }
    rewrite Hat. cbn [bind]. change (141 =? EXTENSION_HEADER_TYPE_LIST) with true. cbv iota. rewrite slice_from_ok by lia. cbn [bind]. rewrite Hsk.
    unfold Ehtl_unmarshal, at_. cbn [nth_error bind]. destruct (N.eqb_spec k 0); [lia|]. rewrite add8_small by lia. cbn [bind].
    destruct (Nat.leb_spec (N.to_nat (k + 2)) (length (141 :: k :: l))) as [|Hn2]; [|cbn [length] in Hn2; lia].
    rewrite slice_from_ok by (cbn [length]; lia). reflexivity.
Qed.
Print Assumptions C56_supported_extension_headers.

Example C56_case :
  ErrorIndication_unmarshal Debug [48; 26; 0; 12; 0; 0; 0; 7; 16; 0; 0; 1; 2; 133; 0; 4; 10; 0; 0; 1] =
    Ok (mkErrInd (mkHdr 26 12 7 None None None) (mkTeid 16 258) (mkGsn 133 4 (V4 10 0 0 1)) None) /\
  EchoResponse_unmarshal Debug [50; 2; 0; 6; 0; 0; 0; 0; 0; 9; 0; 0; 14; 5] =
    Ok (mkEchoResp (mkHdr 2 6 0 (Some 9) None None) (mkRec 14 5) None) /\
  SupExtNotif_unmarshal Debug [48; 31; 0; 4; 0; 0; 0; 0; 141; 2; 64; 192] =
    Ok (mkSup (mkHdr 31 4 0 None None None) (mkEhtl 141 2 [64; 192])).
Proof. repeat split; reflexivity. Qed.

(* ----- C57: elements are recognised by their type ----------------------------------------------- *)
(* Full statement: what a decoded GTP-U message reports as private extension was sent with type
   octet 255, and its value is the octets its length counts. Both false: *)
Theorem C57_private_extension_type_refuted :
  exists b x p, bytes b /\ EchoRequest_unmarshal Debug b = Ok x /\ sm_private_ext x = Some p /\ ~ In 255 b.
Proof.
  exists [48; 1; 0; 6; 0; 0; 0; 0; 14; 0; 3; 0; 42; 9], (mkSimple (mkHdr 1 6 0 None None None) (Some (mkPe 255 3 42 [9]))), (mkPe 255 3 42 [9]).
  split; [repeat constructor|]. split; [reflexivity|]. split; [reflexivity|]. intros H. repeat (destruct H as [H|H]; [discriminate|]). exact H.
Qed.
Print Assumptions C57_private_extension_type_refuted.

Theorem C57_private_extension_value_refuted :
  exists b x p, bytes b /\ EchoRequest_unmarshal Debug b = Ok x /\ sm_private_ext x = Some p /\ pe_length p <> nlen (pe_value p) + 2.
Proof.
  exists [48; 1; 0; 8; 0; 0; 0; 0; 255; 0; 3; 0; 42; 9; 1; 1], (mkSimple (mkHdr 1 8 0 None None None) (Some (mkPe 255 3 42 [9; 1; 1]))), (mkPe 255 3 42 [9; 1; 1]).
  split; [repeat constructor|]. split; [reflexivity|]. split; [reflexivity|]. discriminate.
Qed.
Print Assumptions C57_private_extension_value_refuted.

(* In an Error Indication the type octet is checked: a packet with no 16, 133 or 255 where an
   element would start is rejected. *)
Theorem C57_error_indication_type_partial : forall b x h t r, bytes b ->
  ErrorIndication_unmarshal Debug b = Ok x -> header_is b h (t :: r) -> t = 16.
Proof.
  intros b x h t r Hb H Hh. apply C56_error_indication in H as (h' & r' & l & te & g & Hr & _ & _ & _ & Hc & Hss & _ & Et & _); [|exact Hb].
  destruct (header_is_det _ _ _ _ _ Hb Hh Hr) as [<- <-]. destruct l as [|e l]; [discriminate|].
  assert (Hin : In 16 (map ucode (e :: l))).
  { apply in_map_iff. exists (UT te). split; [reflexivity|]. assert (Hi : In te (teids (e :: l))) by (destruct (teids (e :: l)); [discriminate|injection Et as ->; left; reflexivity]).
    unfold teids in Hi. apply in_flat_map in Hi as (y & Hy & Hi). destruct y; cbn in Hi; try contradiction. destruct Hi as [->|[]]. exact Hy. }
  assert (He : ucode e <= 16).
  { cbn [map] in Hss, Hin. inversion Hss as [|? ? _ HF]; subst. destruct Hin as [->|Hin]; [lia|]. exact (proj1 (Forall_forall _ _) HF _ Hin). }
  inversion Hc; subst; cbn [ucode] in He; try lia; reflexivity.
Qed.
Print Assumptions C57_error_indication_type_partial.
Example C57_case : header_is [48; 26; 0; 12; 0; 0; 0; 7; 16; 0; 0; 1; 2; 133; 0; 4; 10; 0; 0; 1]
  (mkHdr 26 12 7 None None None) [16; 0; 0; 1; 2; 133; 0; 4; 10; 0; 0; 1].
Proof. apply (header_short 48 26 0 12 0 0 0 7); try reflexivity; discriminate. Qed.
