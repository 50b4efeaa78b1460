(* V1CFourFacts.v - the four GTPv1-C messages outside the tables: version not supported, echo
   request, echo response, supported extension headers notification. *)
From Verif Require Import BaseFacts V1USpec V1UFacts V1USafety2 V1CHdrSafety V1CSpec V1CHdrFacts V1CIeFacts V1CSafeSpec V1CIeSafety V1CMsgSafety.
Local Open Scope N_scope.

Lemma vns_roundtrip m h : wf_chdr h -> c_msgtype h = 3 ->
  nlen (chdr_marshal h) <= 65543 ->
  Vns_unmarshal m (Vns_marshal h []) = Ok (chdr_with_length h (nlen (chdr_marshal h) - 8)).
Proof.
  intros Hw Ht Hn. unfold Vns_unmarshal, Vns_marshal. cbn [app].
  destruct (cframed m h [] [] Hw) as (Hh & _); rewrite ?app_nil_r in *; [lia|]. rewrite Hh. cbn [bind].
  change (c_msgtype (chdr_with_length h (nlen (chdr_marshal h) - 8))) with (c_msgtype h). rewrite Ht. reflexivity.
Qed.

Definition wf_pe1 (x : Tlv PeV) : Prop := wf_ie1 (I1_Pe x).
Lemma pe1_roundtrip m x : wf_pe1 x -> CPe_unmarshal m (tlv_marshal CPe_value x) = Ok x.
Proof.
  intros H. pose proof (ie1_roundtrip m (I1_Pe x) [] H (fun _ => eq_refl)) as E. cbn [kind1_of ie1_marshal ie1_unmarshal] in E.
  rewrite app_nil_r in E. apply bind_ok in E as (y & Ey & [= ->]). exact Ey.
Qed.
Lemma optional_pe m o : wf_opt wf_pe1 o -> optional (CPe_unmarshal m (opt_bytes (tlv_marshal CPe_value) o)) = Ok o.
Proof. destruct o as [x|]; cbn [wf_opt opt_bytes]; intros H; [rewrite pe1_roundtrip by exact H|]; reflexivity. Qed.

Lemma cecho_req_roundtrip m x : wf_chdr (ceq_header x) -> c_msgtype (ceq_header x) = 1 -> wf_opt wf_pe1 (ceq_pe x) ->
  nlen (CEchoReq_marshal x []) <= 65543 ->
  CEchoReq_unmarshal m (CEchoReq_marshal x [])
  = Ok (mkCEchoReq (chdr_with_length (ceq_header x) (nlen (CEchoReq_marshal x []) - 8)) (ceq_pe x)).
Proof.
  intros Hw Ht Hp Hn. unfold CEchoReq_marshal in *. cbn [app] in *. destruct x as [h o]. cbn [ceq_header ceq_pe] in *.
  set (p := opt_bytes _ o) in *.
  assert (El : nlen (set_length (chdr_marshal h ++ p)) = nlen (chdr_marshal h ++ p)).
  { unfold nlen. rewrite set_length_chdr, !app_length, chdr_with_length_length. reflexivity. }
  rewrite El in *. destruct (cframed m h p [] Hw ltac:(lia)) as (Hh & Hlen & q & Eq & Hq). rewrite app_nil_r in Hh.
  unfold CEchoReq_unmarshal. rewrite Hh. cbn [bind].
  change (c_msgtype (chdr_with_length h (nlen (chdr_marshal h ++ p) - 8))) with (c_msgtype h). rewrite Ht. change (1 =? ECHO_REQUEST) with true. cbv iota.
  change (c_length (chdr_with_length h (nlen (chdr_marshal h ++ p) - 8))) with (nlen (chdr_marshal h ++ p) - 8).
  pose proof (chdr_marshal_ge8 h) as H8.
  destruct (Nat.ltb_spec (N.to_nat (nlen (chdr_marshal h ++ p) - 8)) (length (set_length (chdr_marshal h ++ p)))) as [_|Hbad].
  - rewrite Hlen. cbn [bind]. rewrite Eq, slice_from_ok by (rewrite app_length; lia). cbn [bind].
    rewrite skipn_app_exact by (symmetry; exact Hq). unfold p. rewrite optional_pe by exact Hp. reflexivity.
  - exfalso. unfold nlen in *. rewrite app_length in *. lia.
Qed.

Lemma cecho_resp_roundtrip m x : wf_chdr (cer_header x) -> c_msgtype (cer_header x) = 2 -> wf_tv 14 octet (cer_recovery x) ->
  wf_opt wf_pe1 (cer_pe x) -> nlen (CEchoResp_marshal x []) <= 65543 ->
  CEchoResp_unmarshal m (CEchoResp_marshal x [])
  = Ok (mkCEchoResp (chdr_with_length (cer_header x) (nlen (CEchoResp_marshal x []) - 8)) (cer_recovery x) (cer_pe x)).
Proof.
  intros Hw Ht Hr Hp Hn. unfold CEchoResp_marshal in *. cbn [app] in *. destruct x as [h r o]. cbn [cer_header cer_recovery cer_pe] in *.
  destruct Hr as [Hrt Hrv]. destruct r as [rt rv]. cbn [tv_t tv_v] in *. subst rt.
  set (p := CRecovery_marshal _ ++ opt_bytes _ o) in *.
  assert (El : nlen (set_length (chdr_marshal h ++ p)) = nlen (chdr_marshal h ++ p)).
  { unfold nlen. rewrite set_length_chdr, !app_length, chdr_with_length_length. reflexivity. }
  rewrite El in *. destruct (cframed m h p [] Hw ltac:(lia)) as (Hh & Hlen & q & Eq & Hq). rewrite app_nil_r in Hh.
  unfold CEchoResp_unmarshal. rewrite Hh. cbn [bind].
  change (c_msgtype (chdr_with_length h (nlen (chdr_marshal h ++ p) - 8))) with (c_msgtype h). rewrite Ht. change (2 =? ECHO_RESPONSE) with true. cbv iota.
  change (c_length (chdr_with_length h (nlen (chdr_marshal h ++ p) - 8))) with (nlen (chdr_marshal h ++ p) - 8).
  pose proof (chdr_marshal_ge8 h) as H8.
  assert (Hp2 : p = 14 :: rv :: opt_bytes (tlv_marshal CPe_value) o) by reflexivity.
  assert (El' : length (set_length (chdr_marshal h ++ p)) = (length (chdr_marshal h) + length p)%nat)
    by (unfold nlen in El; rewrite app_length in El; lia).
  assert (Hp2' : (2 <= length p)%nat) by (rewrite Hp2; cbn [length]; lia).
  destruct (Nat.ltb_spec (N.to_nat (nlen (chdr_marshal h ++ p) - 8) + 4) (length (set_length (chdr_marshal h ++ p)))) as [_|Hbad].
  2:{ exfalso. unfold nlen in *. rewrite El', app_length in *. lia. }
  rewrite Hlen. cbn [bind]. rewrite El'.
  destruct (Nat.ltb_spec (length (chdr_marshal h)) (length (chdr_marshal h) + length p)); [|lia].
  rewrite Eq. unfold at_. rewrite nth_error_app2, Hq, Nat.sub_diag by lia. rewrite Hp2. cbn [nth_error bind].
  change (14 =? RECOVERY) with true. cbv iota. rewrite slice_from_ok by (rewrite app_length; lia). cbn [bind].
  rewrite <- Hq, skipn_app_exact by reflexivity.
  change (CRecovery_unmarshal (14 :: rv :: opt_bytes (tlv_marshal CPe_value) o)) with (@Ok GTPV1Error _ (mkTv 14 rv)). cbn [bind]. cbn zeta.
  rewrite ?Hq. clearbody p. rewrite <- !Hp2. destruct (Nat.ltb_spec (length (chdr_marshal h) + 2) (length (chdr_marshal h) + length p)) as [Hlt|Hge].
  all: rewrite !Hp2 in *.
  - rewrite slice_from_ok by (rewrite app_length; cbn [length]; lia). cbn [bind].
    replace (q ++ 14 :: rv :: opt_bytes (tlv_marshal CPe_value) o) with ((q ++ [14; rv]) ++ opt_bytes (tlv_marshal CPe_value) o)
      by (rewrite <- app_assoc; reflexivity).
    rewrite skipn_app_exact by (rewrite app_length; cbn [length]; lia). rewrite optional_pe by exact Hp. reflexivity.
  - destruct o as [x|]; [|reflexivity]. exfalso. cbn [length opt_bytes] in Hge.
    unfold tlv_marshal, set_tlv_ie_length in Hge. cbn in Hge. lia.
Qed.

Definition wf_ehtl (x : Tlv (list N)) : Prop := tlv_t x = 141 /\ tlv_length x = nlen (tlv_v x) /\ nlen (tlv_v x) <= 253.
Lemma cehtl_roundtrip m x : wf_ehtl x -> CEhtl_unmarshal m (CEhtl_marshal x) = Ok x /\ exists r, CEhtl_marshal x = 141 :: r.
Proof.
  destruct x as [t l v]. intros (Ht & Hl & Hn). cbn [tlv_t tlv_length tlv_v] in *. subst t.
  unfold CEhtl_marshal. cbn [tlv_t tlv_length tlv_v app]. cbn [set_nth].
  assert (E : (nlen (141 :: l :: v) - 2) mod 256 = l).
  { unfold nlen in *. cbn [length]. rewrite N.mod_small by lia. lia. }
  rewrite E. split; [|eexists; reflexivity]. unfold CEhtl_unmarshal, at_. cbn [nth_error bind]. rewrite add8_small by lia. cbn [bind].
  destruct (Nat.leb_spec (N.to_nat (l + 2)) (length (141 :: l :: v))) as [_|H].
  - rewrite slice_from_ok by (cbn [length]; lia). reflexivity.
  - exfalso. unfold nlen in *. cbn [length] in H. lia.
Qed.
Lemma csup_roundtrip m x : wf_chdr (cs_header x) -> c_msgtype (cs_header x) = 31 -> wf_ehtl (cs_list x) ->
  nlen (CSup_marshal x []) <= 65535 ->
  CSup_unmarshal m (CSup_marshal x [])
  = Ok (mkCSup (chdr_with_length (cs_header x) (nlen (CSup_marshal x []) - 8)) (cs_list x)).
Proof.
  intros Hw Ht Hp Hn. unfold CSup_marshal in *. cbn [app] in *. destruct x as [h o]. cbn [cs_header cs_list] in *.
  destruct (cehtl_roundtrip m o Hp) as [Hrt (r & Er)]. set (p := CEhtl_marshal o) in *.
  assert (El : nlen (set_length (chdr_marshal h ++ p)) = nlen (chdr_marshal h ++ p)).
  { unfold nlen. rewrite set_length_chdr, !app_length, chdr_with_length_length. reflexivity. }
  rewrite El in *. destruct (cframed m h p [] Hw ltac:(lia)) as (Hh & Hlen & q & Eq & Hq). rewrite app_nil_r in Hh.
  unfold CSup_unmarshal. rewrite Hh. cbn [bind].
  change (c_msgtype (chdr_with_length h (nlen (chdr_marshal h ++ p) - 8))) with (c_msgtype h). rewrite Ht.
  change (negb (31 =? SUPPORTED_EXTENSION_HEADERS_NOTIFICATION)) with false. cbv iota.
  change (c_length (chdr_with_length h (nlen (chdr_marshal h ++ p) - 8))) with (nlen (chdr_marshal h ++ p) - 8).
  pose proof (chdr_marshal_ge8 h) as H8. rewrite add16_small by lia. cbn [bind].
  assert (El' : length (set_length (chdr_marshal h ++ p)) = (length (chdr_marshal h) + length p)%nat)
    by (unfold nlen in El; rewrite app_length in El; lia).
  destruct (Nat.leb_spec (N.to_nat (nlen (chdr_marshal h ++ p) - 8 + 8)) (length (set_length (chdr_marshal h ++ p)))) as [_|Hbad].
  2:{ exfalso. unfold nlen in *. rewrite El', app_length in *. lia. }
  rewrite Hlen. cbn [bind]. rewrite El'.
  assert (Hp1 : (1 <= length p)%nat) by (rewrite Er; cbn; lia).
  destruct (Nat.eqb_spec (length (chdr_marshal h)) (length (chdr_marshal h) + length p)); [lia|].
  rewrite Eq. unfold at_. rewrite nth_error_app2, Hq, Nat.sub_diag by lia. rewrite Er at 1. cbn [nth_error bind].
  change (141 =? EXTENSION_HEADER_TYPE_LIST) with true. cbv iota. rewrite slice_from_ok by (rewrite app_length; lia). cbn [bind].
  rewrite <- Hq, skipn_app_exact by reflexivity. rewrite Hrt. reflexivity.
Qed.

(* ------------------------------------------------------------------------- *)
(* What the four accept. *)
Lemma vns_accepted m b h : Vns_unmarshal m b = Ok h -> chdr_unmarshal m b = Ok h /\ c_msgtype h = 3.
Proof. unfold Vns_unmarshal. intros H. apply bind_ok in H as (h' & Hh & H). destruct (N.eqb_spec (c_msgtype h') C_VERSION_NOT_SUPPORTED) as [E|]; [|discriminate]. injection H as <-. auto. Qed.
Lemma cecho_req_accepted m b x : CEchoReq_unmarshal m b = Ok x -> chdr_unmarshal m b = Ok (ceq_header x) /\ c_msgtype (ceq_header x) = 1.
Proof.
  unfold CEchoReq_unmarshal. intros H. apply bind_ok in H as (h & Hh & H). destruct (N.eqb_spec (c_msgtype h) ECHO_REQUEST) as [E|]; [|discriminate].
  assert (ceq_header x = h) as ->; [|auto]. destruct (_ <? _)%nat; [|injection H as <-; reflexivity].
  apply bind_ok in H as (? & _ & H). apply bind_ok in H as (? & _ & H). apply bind_ok in H as (? & _ & H). injection H as <-. reflexivity.
Qed.
Lemma cecho_resp_accepted m b x : CEchoResp_unmarshal m b = Ok x ->
  chdr_unmarshal m b = Ok (cer_header x) /\ c_msgtype (cer_header x) = 2 /\
  exists n v, chdr_len m (cer_header x) = Ok n /\ nth_error b n = Some 14 /\ nth_error b (n + 1) = Some v /\ cer_recovery x = mkTv 14 v.
Proof.
  unfold CEchoResp_unmarshal. intros H. apply bind_ok in H as (h & Hh & H). destruct (N.eqb_spec (c_msgtype h) ECHO_RESPONSE) as [E|]; [|discriminate].
  destruct (_ <? _)%nat; [|discriminate]. apply bind_ok in H as (n & Hn & H). destruct (Nat.ltb_spec n (length b)) as [Hlt|]; [|discriminate].
  apply bind_ok in H as (t & Ht & H). destruct (N.eqb_spec t RECOVERY) as [->|]; [|discriminate].
  apply bind_ok in H as (s & Hs & H). apply bind_ok in H as (r & Hr & H).
  assert (Hx : cer_header x = h /\ cer_recovery x = r).
  { cbn zeta in H. destruct (_ <? _)%nat; [|injection H as <-; auto].
    apply bind_ok in H as (? & _ & H). apply bind_ok in H as (? & _ & H). injection H as <-. auto. }
  destruct Hx as [-> ->]. split; [exact Hh|]. split; [exact E|].
  unfold at_ in Ht. destruct (nth_error b n) as [t'|] eqn:En; [|discriminate]. injection Ht as ->.
  rewrite slice_from_ok in Hs by lia. injection Hs as <-.
  unfold CRecovery_unmarshal, tv_unmarshal in Hr. destruct (Nat.leb_spec 2 (length (skipn n b))) as [Hl|]; [|discriminate].
  apply bind_ok in Hr as (v & Hv & [= <-]). unfold at_ in Hv. rewrite nth_error_skipn in Hv.
  destruct (nth_error b (n + 1)) as [v'|] eqn:Ev; [|discriminate]. injection Hv as ->. exists n, v. auto.
Qed.
Lemma csup_accepted m b x : CSup_unmarshal m b = Ok x ->
  chdr_unmarshal m b = Ok (cs_header x) /\ c_msgtype (cs_header x) = 31 /\
  (exists s, add16 (E := GTPV1Error) m (c_length (cs_header x)) 8 = Ok s /\ (N.to_nat s <= length b)%nat) /\
  exists n l, chdr_len m (cs_header x) = Ok n /\ nth_error b n = Some 141 /\ nth_error b (n + 1) = Some l /\
    cs_list x = mkTlv 141 l (skipn (n + 2) b).
Proof.
  unfold CSup_unmarshal. intros H. apply bind_ok in H as (h & Hh & H). destruct (N.eqb_spec (c_msgtype h) SUPPORTED_EXTENSION_HEADERS_NOTIFICATION) as [E|]; [|discriminate].
  cbn [negb] in H. apply bind_ok in H as (s & Hs & H). destruct (Nat.leb_spec (N.to_nat s) (length b)) as [Hle|]; [|discriminate].
  apply bind_ok in H as (n & Hn & H). destruct (Nat.eqb_spec n (length b)); [discriminate|].
  apply bind_ok in H as (t & Ht & H). destruct (N.eqb_spec t EXTENSION_HEADER_TYPE_LIST) as [->|]; [|discriminate].
  apply bind_ok in H as (r & Hr & H). destruct (CEhtl_unmarshal m r) as [i| | |] eqn:Ei; try discriminate. injection H as <-. cbn [cs_header cs_list].
  split; [exact Hh|]. split; [exact E|]. split; [eauto|].
  unfold at_ in Ht. destruct (nth_error b n) as [t'|] eqn:En; [|discriminate]. injection Ht as ->.
  assert (Hlt : (n < length b)%nat) by (apply nth_error_Some; congruence).
  rewrite slice_from_ok in Hr by lia. injection Hr as <-. unfold CEhtl_unmarshal in Ei. apply bind_ok in Ei as (l & Hl & Ei).
  apply bind_ok in Ei as (s2 & Hs2 & Ei). destruct (_ <=? _)%nat; [|discriminate]. apply bind_ok in Ei as (v & Hv & [= <-]).
  unfold at_ in Hl. rewrite nth_error_skipn in Hl. destruct (nth_error b (n + 1)) as [l'|] eqn:El; [|discriminate]. injection Hl as ->.
  unfold slice_from in Hv. destruct (_ <=? _)%nat; [|discriminate]. injection Hv as <-. exists n, l. rewrite (Nat.add_comm n 2), skipn_plus. auto.
Qed.

(* ------------------------------------------------------------------------- *)
(* Crash freedom. *)
Lemma pe1_returns m s t : harmless (255 :: s) -> t = 255 -> returns (CPe_unmarshal m (t :: s)).
Proof.
  intros H ->. destruct (element_fine m 255 K1_Pe s eq_refl H) as [Hr _]. cbn [ie1_unmarshal] in Hr.
  destruct (CPe_unmarshal m (255 :: s)); cbn [bind] in Hr; exact Hr.
Qed.
(* the private extension decoder does not look at the type octet *)
Lemma cpe_type m s t u : CPe_unmarshal m (t :: s) = CPe_unmarshal m (u :: s).
Proof.
  unfold CPe_unmarshal, var_unmarshal, check_tlv_ie_buffer, be16_at, slice_from, at_. cbn [length nth_error Nat.add skipn]. reflexivity.
Qed.
Lemma cpe_returns m s : (match s with [] => True | _ :: r => harmless (255 :: r) end) -> returns (CPe_unmarshal m s).
Proof. destruct s as [|t r]; intros H; [exact I|]. rewrite (cpe_type m r t 255). apply pe1_returns; [exact H|reflexivity]. Qed.

Definition pe_place (s : list N) : Prop := match s with [] => True | _ :: r => harmless (255 :: r) end.
Definition good_chain (b : list N) : Prop :=
  forall b0, nth_error b 0 = Some b0 -> N.testbit b0 2 = true -> (12 <= length b)%nat -> ext_chain (skipn 11 b).

Lemma vns_returns m b : good_chain b -> returns (Vns_unmarshal m b).
Proof.
  intros H. unfold Vns_unmarshal. pose proof (chdr_returns m b H) as Hr.
  destruct (chdr_unmarshal m b); try contradiction Hr; [|exact I]. cbn [bind]. destruct (_ =? _); exact I.
Qed.
Lemma cecho_req_returns m b : good_chain b -> (length b = 8 \/ 12 <= length b)%nat ->
  (forall p, (8 <= p)%nat -> pe_place (skipn p b)) -> returns (CEchoReq_unmarshal m b).
Proof.
  intros Hc Hl Hp. unfold CEchoReq_unmarshal. pose proof (chdr_returns m b Hc) as Hr.
  destruct (chdr_unmarshal m b) as [h| | |] eqn:Eh; try contradiction Hr; [|exact I]. cbn [bind]. destruct (_ =? _); [|exact I].
  destruct (_ <? _)%nat; [|exact I]. destruct (chdr_len_decoded m b h Eh Hc) as (n & En & H8 & Hn). rewrite En. cbn [bind].
  assert (Hle : (n <= length b)%nat).
  { destruct Hn as [Hn|Hn]; [exact Hn|]. destruct Hl as [Hl|Hl]; [|lia]. exfalso. subst n.
    apply chdr_inv in Eh as (b0 & l1 & l2 & t1 & t2 & t3 & t4 & r & Eb & _ & _ & _ & _ & A & B & C).
    assert (r = []) as -> by (destruct r; [reflexivity|subst b; cbn in Hl; lia]). subst b.
    destruct (N.testbit b0 1); [destruct A as (? & ? & A & _); discriminate A|].
    destruct (N.testbit b0 0); [destruct B as (? & B & _); discriminate B|].
    destruct (N.testbit b0 2); [destruct C as (? & C & _); cbn in C; lia|].
    unfold chdr_len in En. rewrite A, B, C in En. discriminate En. }
  rewrite slice_from_ok by exact Hle. cbn [bind].
  pose proof (optional_returns _ (cpe_returns m (skipn n b) (Hp n H8))) as Ho.
  destruct (optional _); try contradiction Ho; exact I.
Qed.
Lemma cecho_resp_returns m b : good_chain b -> (forall p, (8 <= p)%nat -> pe_place (skipn p b)) -> returns (CEchoResp_unmarshal m b).
Proof.
  intros Hc Hp. unfold CEchoResp_unmarshal. pose proof (chdr_returns m b Hc) as Hr.
  destruct (chdr_unmarshal m b) as [h| | |] eqn:Eh; try contradiction Hr; [|exact I]. cbn [bind]. destruct (_ =? _); [|exact I].
  destruct (_ <? _)%nat; [|exact I]. destruct (chdr_len_decoded m b h Eh Hc) as (n & En & H8 & Hn). rewrite En. cbn [bind].
  destruct (Nat.ltb_spec n (length b)) as [Hlt|]; [|exact I]. destruct (at_lt (E := GTPV1Error) b n Hlt) as (t & -> & _). cbn [bind].
  destruct (_ =? _); [|exact I]. rewrite slice_from_ok by lia. cbn [bind].
  unfold CRecovery_unmarshal, tv_unmarshal. destruct (Nat.leb_spec 2 (length (skipn n b))) as [H2|]; [|exact I].
  destruct (at_lt (E := GTPV1Error) (skipn n b) 1 H2) as (v & -> & _). cbn [bind]. cbn zeta.
  destruct (Nat.ltb_spec (n + 2) (length b)) as [Hlt2|]; [|exact I]. rewrite slice_from_ok by lia. cbn [bind].
  pose proof (optional_returns _ (cpe_returns m (skipn (n + 2) b) (Hp (n + 2)%nat ltac:(lia)))) as Ho.
  destruct (optional _); try contradiction Ho; exact I.
Qed.
Lemma csup_returns m b : good_chain b -> declared (skipn 1 b) <= 65527 -> (length b = 8 \/ 12 <= length b)%nat ->
  (forall p, (8 <= p)%nat -> nth_error b p = Some 141 -> exists l, nth_error b (p + 1) = Some l /\ l <= 253) ->
  returns (CSup_unmarshal m b).
Proof.
  intros Hc Hd Hl Hp. unfold CSup_unmarshal. pose proof (chdr_returns m b Hc) as Hr.
  destruct (chdr_unmarshal m b) as [h| | |] eqn:Eh; try contradiction Hr; [|exact I]. cbn [bind]. destruct (negb _); [exact I|].
  assert (Hlen : c_length h <= 65527).
  { apply chdr_inv in Eh as (b0 & l1 & l2 & t1 & t2 & t3 & t4 & r & -> & _ & _ & -> & _). cbn [skipn declared] in Hd. rewrite be16_eq. exact Hd. }
  rewrite add16_small by lia. cbn [bind]. destruct (_ <=? _)%nat; [|exact I].
  destruct (chdr_len_decoded m b h Eh Hc) as (n & En & H8 & Hn). rewrite En. cbn [bind].
  assert (Hle : (n <= length b)%nat).
  { destruct Hn as [Hn|Hn]; [exact Hn|]. destruct Hl as [Hl|Hl]; [|lia]. exfalso. subst n.
    apply chdr_inv in Eh as (b0 & l1 & l2 & t1 & t2 & t3 & t4 & r & Eb & _ & _ & _ & _ & A & B & C).
    assert (r = []) as -> by (destruct r; [reflexivity|subst b; cbn in Hl; lia]). subst b.
    destruct (N.testbit b0 1); [destruct A as (? & ? & A & _); discriminate A|].
    destruct (N.testbit b0 0); [destruct B as (? & B & _); discriminate B|].
    destruct (N.testbit b0 2); [destruct C as (? & C & _); cbn in C; lia|].
    unfold chdr_len in En. rewrite A, B, C in En. discriminate En. }
  destruct (Nat.eqb_spec n (length b)); [exact I|]. destruct (at_lt (E := GTPV1Error) b n ltac:(lia)) as (t & Et & Ht). rewrite Et. cbn [bind].
  destruct (N.eqb_spec t EXTENSION_HEADER_TYPE_LIST) as [->|]; [|exact I]. rewrite slice_from_ok by lia. cbn [bind].
  destruct (Hp n H8 Ht) as (l & Hnl & Hl253). unfold CEhtl_unmarshal, at_. rewrite nth_error_skipn, Hnl. cbn [bind].
  rewrite add8_small by lia. cbn [bind]. destruct (Nat.leb_spec (N.to_nat (l + 2)) (length (skipn n b))) as [H2|]; [|exact I].
  rewrite slice_from_ok by lia. exact I.
Qed.

(* Termination. *)
Lemma optional_nd {A} (r : res A) : nd r -> nd (optional r).
Proof. unfold nd. destruct r; cbn; congruence. Qed.
Lemma cpe_nd m s : nd (CPe_unmarshal m s).
Proof. pose proof (ie1_nd K1_Pe m s) as H. cbn [ie1_unmarshal] in H. unfold nd in *. intros E. apply H. rewrite E. reflexivity. Qed.
Lemma four_terminate m b : nd (chdr_unmarshal m b) ->
  nd (Vns_unmarshal m b) /\ nd (CEchoReq_unmarshal m b) /\ nd (CEchoResp_unmarshal m b) /\ nd (CSup_unmarshal m b).
Proof.
  intros Hh. split; [|split; [|split]].
  - unfold Vns_unmarshal. apply nd_bind; [exact Hh|intros h]. destruct (_ =? _); discriminate.
  - unfold CEchoReq_unmarshal. apply nd_bind; [exact Hh|intros h]. destruct (_ =? _); [|discriminate]. destruct (_ <? _)%nat; [|discriminate].
    apply nd_bind; [exact (chdr_len_never_diverges m h)|intros n]. apply nd_bind; [apply nd_slice_from|intros s].
    apply nd_bind; [apply optional_nd, cpe_nd|intros; discriminate].
  - unfold CEchoResp_unmarshal. apply nd_bind; [exact Hh|intros h]. destruct (_ =? _); [|discriminate]. destruct (_ <? _)%nat; [|discriminate].
    apply nd_bind; [exact (chdr_len_never_diverges m h)|intros n]. destruct (_ <? _)%nat; [|discriminate].
    apply nd_bind; [apply nd_at|intros t]. destruct (_ =? _); [|discriminate]. apply nd_bind; [apply nd_slice_from|intros s].
    apply nd_bind. { unfold CRecovery_unmarshal, tv_unmarshal. destruct (_ <=? _)%nat; [|discriminate]. apply nd_bind; [apply nd_at|intros; discriminate]. }
    intros r. cbn zeta. destruct (_ <? _)%nat; [|discriminate]. apply nd_bind; [apply nd_slice_from|intros s'].
    apply nd_bind; [apply optional_nd, cpe_nd|intros; discriminate].
  - unfold CSup_unmarshal. apply nd_bind; [exact Hh|intros h]. destruct (negb _); [discriminate|].
    apply nd_bind; [apply nd_add16|intros tot]. destruct (_ <=? _)%nat; [|discriminate].
    apply nd_bind; [exact (chdr_len_never_diverges m h)|intros n]. destruct (_ =? _)%nat; [discriminate|].
    apply nd_bind; [apply nd_at|intros t]. destruct (_ =? _); [|discriminate]. apply nd_bind; [apply nd_slice_from|intros s].
    assert (H : nd (CEhtl_unmarshal m s)).
    { unfold CEhtl_unmarshal. apply nd_bind; [apply nd_at|intros l]. apply nd_bind; [apply nd_add8|intros x].
      destruct (_ <=? _)%nat; [|discriminate]. apply nd_bind; [apply nd_slice_from|intros; discriminate]. }
    unfold nd in *. destruct (CEhtl_unmarshal m s); congruence.
Qed.
