(* PropsV1Unique.v - C83 for GTPv1-C and GTP-U: the octets sent determine the message. *)
From Coq Require Import String.
From Verif Require V1UFacts V1UMsgFacts V1CFourFacts.
From Verif Require Import Base BaseFacts V1U V1USpec V1CHdrFacts V1CMsg V1CMsgSpec V1CMsgFacts V1CExact PropsV1U PropsV1C.
Local Open Scope N_scope.
Notation length := List.length.

(* --- specification --------------------------------------------------------------------------------------------------- *)
(* what C43 asks of a GTPv1-C message *)
Definition arrives (code : N) (L : list field1) (x : Msg1) : Prop :=
  wf_msg1 code L x /\ nlen (msg1_octets x) <= 65535 /\ ~ has_code1 x 149 /\ (has_code1 x 251 -> forall t, 148 <= t <= 218 -> ~ has_code1 x t).
(* the GTP-U messages, with what C04 and C05 ask of them *)
Inductive umsg := U_EchoRequest (x : SimpleMsg) | U_EndMarker (x : SimpleMsg) | U_EchoResponse (x : EchoResponse) | U_ErrorIndication (x : ErrorIndication)
  | U_SupExtNotif (x : SupExtNotif) | U_Gpdu (x : Gpdu).
Definition u_octets (u : umsg) : list N :=
  match u with
  | U_EchoRequest x | U_EndMarker x => Simple_marshal x []
  | U_EchoResponse x => EchoResponse_marshal x []
  | U_ErrorIndication x => ErrorIndication_marshal x []
  | U_SupExtNotif x => SupExtNotif_marshal x []
  | U_Gpdu x => Gpdu_marshal x []
  end.
Definition u_arrives (u : umsg) : Prop :=
  match u with
  | U_EchoRequest x => sendable 1 (sm_header x) (u_octets u) /\ 0 < h_length (sm_header x) /\ wf_opt wf_pe (sm_private_ext x)
  | U_EndMarker x => sendable 254 (sm_header x) (u_octets u) /\ 0 < h_length (sm_header x) /\ wf_opt wf_pe (sm_private_ext x)
  | U_EchoResponse x => sendable 2 (er_header x) (u_octets u) /\ wf_rec (er_recovery x) /\ wf_opt wf_pe (er_private_ext x)
  | U_ErrorIndication x => sendable 26 (ei_header x) (u_octets u) /\ h_length (ei_header x) <= 65527 /\ wf_teid (ei_teid x) /\ wf_gsn (ei_peer x) /\ wf_opt wf_pe (ei_private x)
  | U_SupExtNotif x => sendable 31 (sn_header x) (u_octets u) /\ h_length (sn_header x) <= 65527 /\ wf_ehtl (sn_list x)
  | U_Gpdu x => sendable 255 (gp_header x) (u_octets u) /\ 0 < h_length (gp_header x) <= 65527
  end.

(* the GTPv1-C messages that are not driven by a table, with what C43 asks of them *)
Inductive pmsg := P_EchoRequest (x : CEchoReq) | P_EchoResponse (x : CEchoResp) | P_VersionNotSupported (h : CHdr) | P_SupportedExtensions (x : CSup).
Definition p_octets (p : pmsg) : list N :=
  match p with P_EchoRequest x => CEchoReq_marshal x [] | P_EchoResponse x => CEchoResp_marshal x [] | P_VersionNotSupported h => Vns_marshal h [] | P_SupportedExtensions x => CSup_marshal x [] end.
Definition p_header (p : pmsg) : CHdr :=
  match p with P_EchoRequest x => ceq_header x | P_EchoResponse x => cer_header x | P_VersionNotSupported h => h | P_SupportedExtensions x => cs_header x end.
(* the length in the header is the right one *)
Definition p_arrives (p : pmsg) : Prop :=
  wf_chdr (p_header p) /\ nlen (p_octets p) <= 65535 /\ c_length (p_header p) = nlen (p_octets p) - 8 /\
  match p with
  | P_EchoRequest x => c_msgtype (ceq_header x) = 1 /\ wf_opt (fun p => wf_ie1 (I1_Pe p)) (ceq_pe x)
  | P_EchoResponse x => c_msgtype (cer_header x) = 2 /\ wf_ie1 (I1_Recovery (cer_recovery x)) /\ wf_opt (fun p => wf_ie1 (I1_Pe p)) (cer_pe x)
  | P_VersionNotSupported h => c_msgtype h = 3
  | P_SupportedExtensions x => c_msgtype (cs_header x) = 31 /\ tlv_t (cs_list x) = 141 /\ tlv_length (cs_list x) = nlen (tlv_v (cs_list x)) /\ nlen (tlv_v (cs_list x)) <= 253
  end.

(* messages of the right kind with values that fit, of any size and with any length in the header *)
Definition u_header (u : umsg) : Gtpv1Header :=
  match u with
  | U_EchoRequest x | U_EndMarker x => sm_header x
  | U_EchoResponse x => er_header x | U_ErrorIndication x => ei_header x | U_SupExtNotif x => sn_header x | U_Gpdu x => gp_header x
  end.
Definition u_code (u : umsg) : N :=
  match u with U_EchoRequest _ => 1 | U_EndMarker _ => 254 | U_EchoResponse _ => 2 | U_ErrorIndication _ => 26 | U_SupExtNotif _ => 31 | U_Gpdu _ => 255 end.
Definition u_formed (u : umsg) : Prop :=
  wf_header (u_header u) /\ faithful_combination (u_header u) /\ msgtype (u_header u) = u_code u /\
  match u with
  | U_EchoRequest x | U_EndMarker x => wf_opt wf_pe (sm_private_ext x)
  | U_EchoResponse x => wf_rec (er_recovery x) /\ wf_opt wf_pe (er_private_ext x)
  | U_ErrorIndication x => wf_teid (ei_teid x) /\ wf_gsn (ei_peer x) /\ wf_opt wf_pe (ei_private x)
  | U_SupExtNotif x => wf_ehtl (sn_list x)
  | U_Gpdu _ => True
  end.
(* the message with another length in its header *)
Definition u_said (n : N) (u : umsg) : umsg :=
  match u with
  | U_EchoRequest x => U_EchoRequest (mkSimple (with_length (sm_header x) n) (sm_private_ext x))
  | U_EndMarker x => U_EndMarker (mkSimple (with_length (sm_header x) n) (sm_private_ext x))
  | U_EchoResponse x => U_EchoResponse (mkEchoResp (with_length (er_header x) n) (er_recovery x) (er_private_ext x))
  | U_ErrorIndication x => U_ErrorIndication (mkErrInd (with_length (ei_header x) n) (ei_teid x) (ei_peer x) (ei_private x))
  | U_SupExtNotif x => U_SupExtNotif (mkSup (with_length (sn_header x) n) (sn_list x))
  | U_Gpdu x => U_Gpdu (mkGpdu (with_length (gp_header x) n) (gp_tpdu x))
  end.
Definition p_formed (p : pmsg) : Prop :=
  wf_chdr (p_header p) /\
  match p with
  | P_EchoRequest x => c_msgtype (ceq_header x) = 1 /\ wf_opt (fun p => wf_ie1 (I1_Pe p)) (ceq_pe x)
  | P_EchoResponse x => c_msgtype (cer_header x) = 2 /\ wf_ie1 (I1_Recovery (cer_recovery x)) /\ wf_opt (fun p => wf_ie1 (I1_Pe p)) (cer_pe x)
  | P_VersionNotSupported h => c_msgtype h = 3
  | P_SupportedExtensions x => c_msgtype (cs_header x) = 31 /\ tlv_t (cs_list x) = 141 /\ tlv_length (cs_list x) = nlen (tlv_v (cs_list x)) /\ nlen (tlv_v (cs_list x)) <= 253
  end.
Definition p_said (n : N) (p : pmsg) : pmsg :=
  match p with
  | P_EchoRequest x => P_EchoRequest (mkCEchoReq (chdr_with_length (ceq_header x) n) (ceq_pe x))
  | P_EchoResponse x => P_EchoResponse (mkCEchoResp (chdr_with_length (cer_header x) n) (cer_recovery x) (cer_pe x))
  | P_VersionNotSupported h => P_VersionNotSupported (chdr_with_length h n)
  | P_SupportedExtensions x => P_SupportedExtensions (mkCSup (chdr_with_length (cs_header x) n) (cs_list x))
  end.

(* --- proofs ---------------------------------------------------------------------------------------------------------- *)
Lemma code_set_length b : nth 1 (set_length b) 0 = nth 1 b 0.
Proof. unfold set_length. destruct b as [|? [|? [|? [|? ?]]]]; reflexivity. Qed.
Lemma code_u h r : nth 1 (set_length ([] ++ hdr_marshal h ++ r)) 0 = msgtype h.
Proof. rewrite code_set_length. unfold hdr_marshal. reflexivity. Qed.
Lemma code_c h r : nth 1 (set_length ([] ++ chdr_marshal h ++ r)) 0 = c_msgtype h.
Proof. rewrite code_set_length. unfold chdr_marshal. reflexivity. Qed.
Lemma code_v h : nth 1 (set_length ([] ++ chdr_marshal h)) 0 = c_msgtype h.
Proof. rewrite code_set_length. unfold chdr_marshal. reflexivity. Qed.
Lemma gpdu_self x : sendable 255 (gp_header x) (Gpdu_marshal x []) -> 0 < h_length (gp_header x) <= 65527 -> forall m, Gpdu_unmarshal m (Gpdu_marshal x []) = Ok x.
Proof.
  destruct x as [h p]. cbn [gp_header]. intros (W & F & T & S) B m.
  assert (E : nlen (Gpdu_marshal (mkGpdu h p) []) = nlen (hdr_marshal h ++ p)).
  { unfold Gpdu_marshal. cbn [app gp_header gp_tpdu]. unfold nlen. rewrite set_length_len. reflexivity. }
  pose proof (C04_gpdu_payload_roundtrip m h p [] W F T ltac:(rewrite <- E, <- S; lia)) as R. rewrite app_nil_r, <- E, <- S in R. rewrite R. f_equal. f_equal.
  destruct h. unfold with_length. cbn. f_equal. lia.
Qed.

(* --- theorems -------------------------------------------------------------------------------------------------------- *)
(* GTP-U: different messages have different octets. *)
Theorem C83_unique_u : forall u v, u_arrives u -> u_arrives v -> u_octets u = u_octets v -> u = v.
Proof.
  intros u v A B E.
  destruct u as [x|x|x|x|x|x], v as [y|y|y|y|y|y]; cbn [u_octets u_arrives] in *.
  all: try (exfalso; destruct A as [(_ & _ & TA & _) _], B as [(_ & _ & TB & _) _]; apply (f_equal (fun l => nth 1 l 0)) in E; revert E;
    unfold Simple_marshal, EchoResponse_marshal, ErrorIndication_marshal, SupExtNotif_marshal, Gpdu_marshal; rewrite !code_u, TA, TB; discriminate).
  - destruct A as (A1 & A2 & A3), B as (B1 & B2 & B3). pose proof (C05_echo_request_roundtrip Debug x A1 A2 A3) as R. rewrite E, C05_echo_request_roundtrip in R by assumption. apply Ok_inj in R. congruence.
  - destruct A as (A1 & A2 & A3), B as (B1 & B2 & B3). pose proof (C05_end_marker_roundtrip Debug x A1 A2 A3) as R. rewrite E, C05_end_marker_roundtrip in R by assumption. apply Ok_inj in R. congruence.
  - destruct A as (A1 & A2 & A3), B as (B1 & B2 & B3). pose proof (C05_echo_response_roundtrip Debug x A1 A2 A3) as R. rewrite E, C05_echo_response_roundtrip in R by assumption. apply Ok_inj in R. congruence.
  - destruct A as (A1 & A2 & A3 & A4 & A5), B as (B1 & B2 & B3 & B4 & B5). pose proof (C05_error_indication_roundtrip Debug x A1 A2 A3 A4 A5) as R. rewrite E, C05_error_indication_roundtrip in R by assumption. apply Ok_inj in R. congruence.
  - destruct A as (A1 & A2 & A3), B as (B1 & B2 & B3). pose proof (C05_supported_ext_headers_roundtrip Debug x A1 A2 A3) as R. rewrite E, C05_supported_ext_headers_roundtrip in R by assumption. apply Ok_inj in R. congruence.
  - destruct A as (A1 & A2), B as (B1 & B2). pose proof (gpdu_self x A1 A2 Debug) as R. rewrite E, gpdu_self in R by assumption. apply Ok_inj in R. congruence.
Qed.
(* GTPv1-C: two messages with the same octets have the same code, and if they are of the same kind they are the same but for the
   length in the header. *)
Theorem C83_unique_v1c : forall code L T code' L' T' x y, In (code, L, T) messages1 -> In (code', L', T') messages1 ->
  arrives code L x -> arrives code' L' y -> msg1_marshal x [] = msg1_marshal y [] -> code = code' /\ (T = T' -> as_sent x = as_sent y).
Proof.
  intros code L T code' L' T' x y H H' (W & N1 & A & G) (W' & N' & A' & G') E. split.
  - destruct W as [<- _], W' as [<- _]. apply (f_equal (fun l => nth 1 l 0)) in E. unfold msg1_marshal, msg1_octets in E. rewrite !code_c in E. exact E.
  - intros <-. pose proof (C43_roundtrip_partial code L T Debug x H W N1 A G) as R. rewrite E, (C43_roundtrip_partial code' L' T Debug y H' W' N' A' G') in R. apply Ok_inj in R. congruence.
Qed.
(* The same for all well-formed messages, also those that are too long or that their own decoder refuses (C43). *)
Lemma element_unique i j r s : wf_ie1 i -> wf_ie1 j -> ie1_t i = ie1_t j -> (ie1_t i = 255 -> r = [] /\ s = []) ->
  ie1_marshal i ++ r = ie1_marshal j ++ s -> i = j /\ r = s.
Proof.
  intros Wi Wj T Z E. assert (K : kind1_of i = kind1_of j).
  { pose proof (wf_code_kind i Wi) as A. pose proof (wf_code_kind j Wj) as B. congruence. }
  assert (Eq : i = j).
  { destruct (N.eq_dec (ie1_t i) 255) as [P|P].
    - destruct (Z P) as [-> ->]. rewrite !app_nil_r in E. pose proof (C40_private_extension_partial Debug i Wi P) as R.
      rewrite E, K, (C40_private_extension_partial Debug j Wj) in R by congruence. apply Ok_inj in R. congruence.
    - pose proof (C40_element_roundtrip Debug i r Wi P) as R. rewrite E, K, (C40_element_roundtrip Debug j s Wj) in R by congruence. apply Ok_inj in R. congruence. }
  split; [exact Eq|]. subst j. exact (app_inv_head _ _ _ E).
Qed.
(* the private extension is the last field *)
Definition pe_last (L : list field1) : bool := forallb (fun f => negb (f_code f =? 255)) (removelast L).
Lemma layouts_pe : forallb (fun q => pe_last (snd (fst q))) messages1 = true.
Proof. vm_compute. reflexivity. Qed.
Lemma first_code L fs : Forall2 field_ok L fs -> forall c r, concat (map (opt_bytes ie1_marshal) fs) = c :: r ->
  exists k f i, nth_error L k = Some f /\ nth_error fs k = Some (Some i) /\ f_code f = c.
Proof.
  induction 1 as [|f v L fs Hv _ IH]; intros c r E; [discriminate|]. destruct v as [i|]; cbn [map concat opt_bytes app] in E.
  - destruct Hv as [T W]. destruct (wf_head i W) as (q & Q). rewrite Q in E. cbn [app] in E. injection E as <- _. exists 0%nat, f, i. auto.
  - destruct (IH _ _ E) as (k & g & i & A & B & C). exists (S k), g, i. auto.
Qed.
Lemma no_gap_tail f L v fs : no_gap (f :: L) (v :: fs) -> no_gap L fs.
Proof. intros G i j g h x Hij Hi Hj Hc Hx. apply (G (S i) (S j) g h x); auto. lia. Qed.
Lemma fields_unique L fs gs : pe_last L = true -> Forall2 field_ok L fs -> Forall2 field_ok L gs -> no_gap L fs -> no_gap L gs ->
  concat (map (opt_bytes ie1_marshal) fs) = concat (map (opt_bytes ie1_marshal) gs) -> fs = gs.
Proof.
  intros P F. revert gs P. induction F as [|f v L fs Hv F IH]; intros gs P G Nf Ng E; inversion G as [|? w ? gs' Hw G' E1 E2]; subst; [reflexivity|].
  assert (PL : pe_last L = true).
  { unfold pe_last in *. destruct L as [|g L]; [reflexivity|]. cbn [removelast] in P. cbn [forallb] in P. apply andb_true_iff in P. apply P. }
  assert (Q : f_code f = 255 -> L = []).
  { intros C. unfold pe_last in P. destruct L as [|g L]; [reflexivity|]. cbn [removelast forallb] in P. rewrite C in P. discriminate. }
  assert (X : forall v fs w gs, field_ok f (Some v) -> w = None -> Forall2 field_ok L gs -> no_gap (f :: L) (w :: gs) ->
    concat (map (opt_bytes ie1_marshal) (Some v :: fs)) = concat (map (opt_bytes ie1_marshal) (w :: gs)) -> False).
  { clear. intros v fs w gs [T W] -> G N E. cbn [map concat opt_bytes app] in E. destruct (wf_head v W) as (q & Q). rewrite Q in E. cbn [app] in E. symmetry in E.
    destruct (first_code L gs G _ _ E) as (k & g & i & A & B & C).
    apply (N 0%nat (S k) f g i); [lia|reflexivity|exact A|congruence|exact B|reflexivity]. }
  destruct v as [i|], w as [j|].
  - cbn [map concat opt_bytes] in E. destruct Hv as [Ti Wi], Hw as [Tj Wj].
    assert (Z : ie1_t i = 255 -> concat (map (opt_bytes ie1_marshal) fs) = [] /\ concat (map (opt_bytes ie1_marshal) gs') = []).
    { intros C. rewrite Ti in C. specialize (Q C). subst L. inversion F; subst. inversion G'; subst. split; reflexivity. }
    destruct (element_unique i j _ _ Wi Wj ltac:(congruence) Z E) as [<- E'].
    f_equal. apply IH; try assumption; eapply no_gap_tail; eassumption.
  - exfalso. eapply X; [exact Hv|reflexivity|exact G'|exact Ng|exact E].
  - exfalso. eapply X; [exact Hw|reflexivity|exact F|exact Nf|symmetry; exact E].
  - cbn [map concat opt_bytes app] in E. f_equal. apply IH; try assumption; eapply no_gap_tail; eassumption.
Qed.
Theorem C83_sent_v1c : forall code L T x y, In (code, L, T) messages1 -> wf_msg1 code L x -> wf_msg1 code L y -> msg1_marshal x [] = msg1_marshal y [] ->
  m_fields x = m_fields y /\ forall n, chdr_with_length (m_header x) n = chdr_with_length (m_header y) n.
Proof.
  intros code L T x y H (_ & Wx & Fx & Gx) (_ & Wy & Fy & Gy) E. unfold msg1_marshal, msg1_octets in E. cbn [app] in E. rewrite !set_length_chdr in E.
  set (k := _ mod 65536) in E. set (k' := _ mod 65536) in E. assert (K : k < 65536) by (apply N.mod_lt; discriminate). assert (K' : k' < 65536) by (apply N.mod_lt; discriminate).
  assert (R : chdr_with_length (m_header x) k = chdr_with_length (m_header y) k').
  { pose proof (chdr_roundtrip Debug _ (concat (map (opt_bytes ie1_marshal) (m_fields x))) (chdr_with_length_wf _ _ Wx K)) as R.
    rewrite E, (chdr_roundtrip Debug _ _ (chdr_with_length_wf _ _ Wy K')) in R. apply Ok_inj in R. congruence. }
  rewrite R in E. apply app_inv_head in E. split.
  - pose proof layouts_pe as P. rewrite forallb_forall in P. specialize (P _ H). cbn [fst snd] in P. exact (fields_unique L _ _ P Fx Fy Gx Gy E).
  - intros n. apply (f_equal (fun h => chdr_with_length h n)) in R. unfold chdr_with_length in *. destruct (m_header x), (m_header y). cbn in *. exact R.
Qed.
Lemma with_own_length h n : c_length h = n -> chdr_with_length h n = h.
Proof. intros <-. destruct h. reflexivity. Qed.
Theorem C83_unique_path : forall p q, p_arrives p -> p_arrives q -> p_octets p = p_octets q -> p = q.
Proof.
  intros p q (W & N1 & L & A) (W' & N' & L' & B) E.
  destruct p as [x|x|x|x], q as [y|y|y|y]; cbn [p_octets p_header] in *.
  all: try (exfalso; apply (f_equal (fun l => nth 1 l 0)) in E; revert E; unfold CEchoReq_marshal, CEchoResp_marshal, Vns_marshal, CSup_marshal; rewrite ?code_c, ?code_v;
    repeat match goal with H : _ /\ _ |- _ => destruct H end; congruence).
  - destruct A as [T A], B as [T' B]. pose proof (C43_echo_request Debug x W T A ltac:(lia)) as R. rewrite E, (C43_echo_request Debug y W' T' B ltac:(lia)) in R. apply Ok_inj in R.
    rewrite <- E in R at 2. rewrite (with_own_length _ _ L'), (with_own_length _ _ L) in R. destruct x, y; cbn in R. congruence.
  - destruct A as (T & A & A2), B as (T' & B & B2). pose proof (C43_echo_response Debug x W T A A2 ltac:(lia)) as R. rewrite E, (C43_echo_response Debug y W' T' B B2 ltac:(lia)) in R. apply Ok_inj in R.
    rewrite <- E in R at 2. rewrite (with_own_length _ _ L'), (with_own_length _ _ L) in R. destruct x, y; cbn in R. congruence.
  - pose proof (C43_version_not_supported Debug x W A ltac:(lia)) as R. rewrite E, (C43_version_not_supported Debug y W' B ltac:(lia)) in R. apply Ok_inj in R.
    rewrite <- E in R at 2. rewrite (with_own_length _ _ L'), (with_own_length _ _ L) in R. congruence.
  - destruct A as (T & A & A2 & A3), B as (T' & B & B2 & B3). pose proof (C43_supported_extension_headers Debug x W T A A2 A3 ltac:(lia)) as R. rewrite E, (C43_supported_extension_headers Debug y W' T' B B2 B3 ltac:(lia)) in R. apply Ok_inj in R.
    rewrite <- E in R at 2. rewrite (with_own_length _ _ L'), (with_own_length _ _ L) in R. destruct x, y; cbn in R. congruence.
Qed.
(* The same for messages of any size, also those that are longer than the length field can say, and with any length in the header. *)
Lemma length_octets h k p : set_nth (set_nth (hdr_marshal (with_length h k) ++ p) 3 1) 2 0 = hdr_marshal (with_length h 1) ++ p.
Proof. destruct h. reflexivity. Qed.
Lemma u_framed h h' p p' : wf_header h -> wf_header h' -> faithful_combination h -> faithful_combination h' ->
  set_length ([] ++ hdr_marshal h ++ p) = set_length ([] ++ hdr_marshal h' ++ p') -> (forall n, with_length h n = with_length h' n) /\ p = p'.
Proof.
  cbn [app]. intros W W' F F' E. rewrite !V1UFacts.set_length_hdr in E.
  apply (f_equal (fun b => set_nth (set_nth b 3 1) 2 0)) in E. rewrite !length_octets in E.
  assert (R : with_length h 1 = with_length h' 1).
  { assert (K : 1 < 65536) by reflexivity.
    pose proof (V1UFacts.hdr_unmarshal_marshal Debug _ p (V1UFacts.with_length_wf _ _ W K) ltac:(discriminate)) as R.
    rewrite E, (V1UFacts.hdr_unmarshal_marshal Debug _ p' (V1UFacts.with_length_wf _ _ W' K) ltac:(discriminate)) in R. apply Ok_inj in R.
    rewrite !V1UFacts.received_faithful in R by assumption. congruence. }
  rewrite R in E. apply app_inv_head in E. split; [|exact E]. intros n. apply (f_equal (fun x => with_length x n)) in R. exact R.
Qed.
Lemma u_private a b : wf_opt wf_pe a -> wf_opt wf_pe b -> opt_bytes Pe_marshal a = opt_bytes Pe_marshal b -> a = b.
Proof. intros A B E. pose proof (V1UMsgFacts.pe_opt_unmarshal Debug a A) as R. rewrite E, (V1UMsgFacts.pe_opt_unmarshal Debug b B) in R. apply Ok_inj in R. congruence. Qed.
Theorem C83_sent_u : forall u v, u_formed u -> u_formed v -> u_octets u = u_octets v -> forall n, u_said n u = u_said n v.
Proof.
  intros u v (W & F & T & A) (W' & F' & T' & B) E n.
  destruct u as [x|x|x|x|x|x], v as [y|y|y|y|y|y]; cbn [u_octets u_header u_code u_said] in *.
  all: try (exfalso; apply (f_equal (fun l => nth 1 l 0)) in E; revert E;
    unfold Simple_marshal, EchoResponse_marshal, ErrorIndication_marshal, SupExtNotif_marshal, Gpdu_marshal; rewrite !code_u, T, T'; discriminate).
  all: destruct (u_framed _ _ _ _ W W' F F' E) as [H P]; rewrite H; f_equal; f_equal.
  - exact (u_private _ _ A B P).
  - exact (u_private _ _ A B P).
  - destruct A as [A _], B as [B _]. pose proof (V1UFacts.rec_roundtrip _ (opt_bytes Pe_marshal (er_private_ext x)) A) as R.
    rewrite P, V1UFacts.rec_roundtrip in R by exact B. apply Ok_inj in R. congruence.
  - destruct A as [_ A], B as [_ B]. apply (f_equal (skipn 2)) in P. exact (u_private _ _ A B P).
  - destruct A as (A1 & A2 & A3), B as (B1 & B2 & B3). destruct (V1UMsgFacts.ei_all Debug [] _ _ _ 0 A1 A2 A3) as (s & Es & _ & _ & S1 & S2 & S3).
    destruct (V1UMsgFacts.ei_all Debug [] _ _ _ 0 B1 B2 B3) as (s' & Es' & _ & _ & S1' & S2' & S3'). rewrite P, Es' in Es. apply Ok_inj in Es. congruence.
  - destruct A as (A1 & A2 & A3), B as (B1 & B2 & B3). destruct (V1UMsgFacts.ei_all Debug [] _ _ _ 0 A1 A2 A3) as (s & Es & _ & _ & S1 & S2 & S3).
    destruct (V1UMsgFacts.ei_all Debug [] _ _ _ 0 B1 B2 B3) as (s' & Es' & _ & _ & S1' & S2' & S3'). rewrite P, Es' in Es. apply Ok_inj in Es. congruence.
  - destruct A as (A1 & A2 & A3), B as (B1 & B2 & B3). destruct (V1UMsgFacts.ei_all Debug [] _ _ _ 0 A1 A2 A3) as (s & Es & _ & _ & S1 & S2 & S3).
    destruct (V1UMsgFacts.ei_all Debug [] _ _ _ 0 B1 B2 B3) as (s' & Es' & _ & _ & S1' & S2' & S3'). rewrite P, Es' in Es. apply Ok_inj in Es. congruence.
  - destruct A as (A1 & A2 & A3), B as (B1 & B2 & B3). pose proof (V1UFacts.ehtl_roundtrip Debug _ A1 A2 A3) as R.
    rewrite P, (V1UFacts.ehtl_roundtrip Debug _ B1 B2 B3) in R. apply Ok_inj in R. congruence.
  - exact P.
Qed.
Lemma p_framed h h' p p' : wf_chdr h -> wf_chdr h' -> set_length (chdr_marshal h ++ p) = set_length (chdr_marshal h' ++ p') ->
  (forall n, chdr_with_length h n = chdr_with_length h' n) /\ p = p'.
Proof.
  intros W W' E. rewrite !set_length_chdr in E. set (k := _ mod 65536) in E. set (k' := _ mod 65536) in E.
  assert (K : k < 65536) by (apply N.mod_lt; discriminate). assert (K' : k' < 65536) by (apply N.mod_lt; discriminate).
  assert (R : chdr_with_length h k = chdr_with_length h' k').
  { pose proof (chdr_roundtrip Debug _ p (chdr_with_length_wf _ _ W K)) as R.
    rewrite E, (chdr_roundtrip Debug _ _ (chdr_with_length_wf _ _ W' K')) in R. apply Ok_inj in R. congruence. }
  rewrite R in E. apply app_inv_head in E. split; [|exact E].
  intros n. apply (f_equal (fun x => chdr_with_length x n)) in R. exact R.
Qed.
Lemma p_private a b : wf_opt (fun p => wf_ie1 (I1_Pe p)) a -> wf_opt (fun p => wf_ie1 (I1_Pe p)) b ->
  opt_bytes (tlv_marshal CPe_value) a = opt_bytes (tlv_marshal CPe_value) b -> a = b.
Proof. intros A B E. pose proof (V1CFourFacts.optional_pe Debug a A) as R. rewrite E, (V1CFourFacts.optional_pe Debug b B) in R. apply Ok_inj in R. congruence. Qed.
Theorem C83_sent_path : forall p q, p_formed p -> p_formed q -> p_octets p = p_octets q -> forall n, p_said n p = p_said n q.
Proof.
  intros p q (W & A) (W' & B) E n. destruct p as [x|x|x|x], q as [y|y|y|y]; cbn [p_octets p_header p_said] in *.
  all: try (exfalso; apply (f_equal (fun l => nth 1 l 0)) in E; revert E; unfold CEchoReq_marshal, CEchoResp_marshal, Vns_marshal, CSup_marshal; rewrite ?code_c, ?code_v;
    repeat match goal with H : _ /\ _ |- _ => destruct H end; congruence).
  - destruct (p_framed _ _ _ _ W W' E) as [H P]. rewrite H, (p_private _ _ (proj2 A) (proj2 B) P). reflexivity.
  - destruct (p_framed _ _ _ _ W W' E) as [H P]. rewrite H. destruct A as (_ & A & A2), B as (_ & B & B2).
    assert (R : cer_recovery x = cer_recovery y).
    { destruct (cer_recovery x) as [t v], (cer_recovery y) as [t' v']. destruct A as [A _], B as [B _]. cbn in A, B, P. congruence. }
    rewrite R in P |- *. apply app_inv_head in P. rewrite (p_private _ _ A2 B2 P). reflexivity.
  - unfold Vns_marshal in E. cbn [app] in E. rewrite <- (app_nil_r (chdr_marshal x)), <- (app_nil_r (chdr_marshal y)) in E.
    destruct (p_framed _ _ _ _ W W' E) as [H P]. rewrite H. reflexivity.
  - destruct (p_framed _ _ _ _ W W' E) as [H P]. rewrite H. destruct A as (_ & A), B as (_ & B).
    pose proof (proj1 (V1CFourFacts.cehtl_roundtrip Debug _ A)) as R. rewrite P, (proj1 (V1CFourFacts.cehtl_roundtrip Debug _ B)) in R. apply Ok_inj in R. congruence.
Qed.
(* --- the hypotheses are met ------------------------------------------------------------------------------------------ *)
Example C83_case_v1c : arrives 16 CreatePDPContextRequest_L sample_create.
Proof.
  destruct C43_case as (A & B & C & _). split; [exact sample_create_wf|]. split; [rewrite A; discriminate|]. split; [exact B|]. intros D. contradiction.
Qed.
(* two messages with an APN restriction, which their decoder refuses: their octets still tell them apart *)
Example C83_case_sent : let x := sample_response [("apn_restriction", e_restriction)%string] in let y := sample_response [] in
  wf_msg1 17 CreatePDPContextResponse_L x /\ wf_msg1 17 CreatePDPContextResponse_L y /\ ~ arrives 17 CreatePDPContextResponse_L x /\ msg1_marshal x [] <> msg1_marshal y [].
Proof.
  intros x y. destruct C43_restriction_case as [W H]. split; [exact W|]. split; [|split].
  - split; [reflexivity|]. split; [repeat split|]. split; [|apply no_gapb_ok; vm_compute; reflexivity].
    unfold y, sample_response, fill1, CreatePDPContextResponse_L. cbn [m_fields map]. fields_ok.
  - intros (_ & _ & N & _). exact (N H).
  - vm_compute. discriminate.
Qed.
Example C83_case_u : u_arrives (U_Gpdu (mkGpdu (mkHdr 255 3 7 None None None) [1; 2; 3])).
Proof.
  split; [|cbn; lia]. split; [repeat split; try discriminate; intros; discriminate|]. split; [right; auto|]. split; reflexivity.
Qed.

Example C83_case_path : p_arrives (P_EchoResponse (mkCEchoResp (mkCHdr 2 6 0 (Some 1) None None) (mkTv 14 3) None)).
Proof. repeat split; try (vm_compute; reflexivity); try (vm_compute; discriminate). Qed.

Print Assumptions C83_unique_path.
Print Assumptions C83_unique_u.
Print Assumptions C83_unique_v1c.
Print Assumptions C83_sent_v1c.
Print Assumptions C83_sent_u.
Print Assumptions C83_sent_path.
(* a G-PDU with a payload of any size *)
Example C83_case_sent_u : forall p, u_formed (U_Gpdu (mkGpdu (mkHdr 255 0 7 None None None) p)).
Proof. intros p. split; [repeat split; try discriminate; intros; discriminate|]. split; [right; auto|]. split; [reflexivity|exact I]. Qed.
Example C83_case_sent_path : p_formed (P_EchoResponse (mkCEchoResp (mkCHdr 2 0 0 (Some 1) None None) (mkTv 14 3) None)).
Proof. repeat split; try (vm_compute; reflexivity); try (vm_compute; discriminate). Qed.
