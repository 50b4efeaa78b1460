(* V1ModeFacts.v - the GTP-U and GTPv1-C decoders in debug and release builds. *)
From Verif Require Import BaseFacts ModeFacts V1U V1CMsg.
Local Open Scope N_scope.

Lemma ext_len_of_same m l : refines (ext_len_of Debug l) (ext_len_of m l).
Proof. unfold ext_len_of. same. Qed.
Lemma ext_checked_same {A} m b (k k' : N -> N -> res A) : (forall x y, refines (k x y) (k' x y)) -> refines (ext_checked Debug b k) (ext_checked m b k').
Proof. intros H. unfold ext_checked. same. all: try apply H. Qed.
Lemma Num16_same t m b : refines (Num16_unmarshal t Debug b) (Num16_unmarshal t m b).
Proof. unfold Num16_unmarshal. apply ext_checked_same. same. Qed.
Lemma Sci_same m b : refines (Sci_unmarshal Debug b) (Sci_unmarshal m b).
Proof. unfold Sci_unmarshal. apply ext_checked_same. same. Qed.
Lemma Long_same m b : refines (Long_unmarshal Debug b) (Long_unmarshal m b).
Proof. unfold Long_unmarshal. same. all: apply ext_checked_same; same. Qed.
Lemma Blob_same t m b : refines (Blob_unmarshal t Debug b) (Blob_unmarshal t m b).
Proof. unfold Blob_unmarshal. apply ext_checked_same. same. Qed.
Lemma Unknown_same m b : refines (Unknown_unmarshal Debug b) (Unknown_unmarshal m b).
Proof. unfold Unknown_unmarshal. same. apply Blob_same. Qed.
Ltac exts := first [apply Num16_same | apply Sci_same | apply Long_same | apply Blob_same | apply Unknown_same | apply ext_len_of_same].
Lemma ext_same m b : refines (ext_unmarshal Debug b) (ext_unmarshal m b).
Proof. unfold ext_unmarshal. same. all: exts. Qed.
Lemma ext_len_same m e : refines (ext_len Debug e) (ext_len m e).
Proof. destruct e; cbn [ext_len]; same; exts. Qed.
Lemma ext_loop_same m : forall fuel b c d, refines (ext_loop Debug fuel b c d) (ext_loop m fuel b c d).
Proof. induction fuel as [|fuel IH]; intros; cbn [ext_loop]; same. all: first [apply ext_same | apply ext_len_same | apply IH]. Qed.
Lemma unmarshal_ext_same m b : refines (unmarshal_ext_hdr Debug b) (unmarshal_ext_hdr m b).
Proof. apply ext_loop_same. Qed.
Lemma hdr_optional_same m b mt l t np e : refines (hdr_optional Debug b mt l t np e) (hdr_optional m b mt l t np e).
Proof. unfold hdr_optional. same. all: apply unmarshal_ext_same. Qed.
Lemma hdr_same m b : refines (hdr_unmarshal Debug b) (hdr_unmarshal m b).
Proof. unfold hdr_unmarshal, hdr_flags. same. all: apply hdr_optional_same. Qed.
Lemma ext_len_sum_same m l : refines (ext_len_sum Debug l) (ext_len_sum m l).
Proof. induction l; cbn [ext_len_sum]; same; [apply ext_len_same|exact IHl]. Qed.
Lemma hdr_size_same m h : refines (get_header_size Debug h) (get_header_size m h).
Proof. unfold get_header_size. same. all: apply ext_len_sum_same. Qed.
Lemma check_same m l b : refines (check_tlv_ie_buffer Debug l b) (check_tlv_ie_buffer m l b).
Proof. unfold check_tlv_ie_buffer. same. Qed.
Ltac hdrs := first [apply hdr_same | apply hdr_size_same | apply check_same].
Lemma Ehtl_same m b : refines (Ehtl_unmarshal Debug b) (Ehtl_unmarshal m b).
Proof. unfold Ehtl_unmarshal. same. all: hdrs. Qed.
Lemma Gsn_same m b : refines (V1U.Gsn_unmarshal Debug b) (V1U.Gsn_unmarshal m b).
Proof. unfold V1U.Gsn_unmarshal. same. all: hdrs. Qed.
Lemma Pe_same m b : refines (V1U.Pe_unmarshal Debug b) (V1U.Pe_unmarshal m b).
Proof. unfold V1U.Pe_unmarshal. same. all: hdrs. Qed.
Lemma optional_same {A} (d r : res A) : refines d r -> refines (optional d) (optional r).
Proof. intros [->| ->]; [left; reflexivity|apply refines_refl]. Qed.
Lemma Simple_same t m b : refines (Simple_unmarshal t Debug b) (Simple_unmarshal t m b).
Proof. unfold Simple_unmarshal. same. all: first [hdrs | apply optional_same, Pe_same]. Qed.
Lemma EchoResponse_same m b : refines (EchoResponse_unmarshal Debug b) (EchoResponse_unmarshal m b).
Proof. unfold EchoResponse_unmarshal. same. all: first [hdrs | apply optional_same, Pe_same]. Qed.
Lemma count_same m c : refines (count Debug c) (count m c).
Proof. unfold count. same. Qed.
Lemma Gsn_len_same m x : refines (Gsn_len Debug x) (Gsn_len m x).
Proof. unfold Gsn_len. same. Qed.
Lemma Pe_len_same m x : refines (Pe_len Debug x) (Pe_len m x).
Proof. unfold Pe_len. same. Qed.
Lemma ei_loop_same m : forall fuel b s, refines (ei_loop Debug fuel b s) (ei_loop m fuel b s).
Proof.
  induction fuel as [|fuel IH]; intros; cbn [ei_loop]; same.
  all: first [apply IH | apply Gsn_same | apply Pe_same | apply count_same | apply Gsn_len_same | apply Pe_len_same].
Qed.
Lemma ErrorIndication_same m b : refines (ErrorIndication_unmarshal Debug b) (ErrorIndication_unmarshal m b).
Proof. unfold ErrorIndication_unmarshal. same. all: first [hdrs | apply ei_loop_same]. Qed.
Lemma Gpdu_same m b : refines (Gpdu_unmarshal Debug b) (Gpdu_unmarshal m b).
Proof. unfold Gpdu_unmarshal. same. all: hdrs. Qed.
Lemma SupExtNotif_same m b : refines (SupExtNotif_unmarshal Debug b) (SupExtNotif_unmarshal m b).
Proof. unfold SupExtNotif_unmarshal. same. all: first [hdrs | apply Ehtl_same]. Qed.

(* ------------------------------------------------------------------------- *)
(* GTPv1-C *)
Lemma cext_same m b : refines (cext_unmarshal Debug b) (cext_unmarshal m b).
Proof. unfold cext_unmarshal. same. all: exts. Qed.
Lemma cext_len_same m e : refines (cext_len Debug e) (cext_len m e).
Proof. destruct e; cbn [cext_len]; same; exts. Qed.
Lemma cext_loop_same m : forall fuel b c d, refines (cext_loop Debug fuel b c d) (cext_loop m fuel b c d).
Proof. induction fuel as [|fuel IH]; intros; cbn [cext_loop]; same. all: first [apply cext_same | apply cext_len_same | apply IH]. Qed.
Lemma c_ext_same m b : refines (c_unmarshal_ext Debug b) (c_unmarshal_ext m b).
Proof. apply cext_loop_same. Qed.
Lemma chdr_same m b : refines (chdr_unmarshal Debug b) (chdr_unmarshal m b).
Proof. unfold chdr_unmarshal. same. all: apply c_ext_same. Qed.
Lemma cext_len_sum_same m l : refines (cext_len_sum Debug l) (cext_len_sum m l).
Proof. induction l; cbn [cext_len_sum]; same; [apply cext_len_same|exact IHl]. Qed.
Lemma chdr_len_same m h : refines (chdr_len Debug h) (chdr_len m h).
Proof. unfold chdr_len. same. all: apply cext_len_sum_same. Qed.
Lemma var_same {A} T m b (k k' : N -> list N -> res A) : (forall x y, refines (k x y) (k' x y)) ->
  refines (var_unmarshal T k Debug b) (var_unmarshal T k' m b).
Proof. intros H. unfold var_unmarshal. same. all: first [apply check_same | apply H]. Qed.
Lemma blob_at_same m l b : refines (blob_at Debug l b) (blob_at m l b).
Proof. unfold blob_at. same. Qed.
Lemma ie1_same k m b : refines (ie1_unmarshal k Debug b) (ie1_unmarshal k m b).
Proof.
  destruct k; cbn [ie1_unmarshal]; same;
  try (first [unfold Pco_unmarshal | unfold Tft_unmarshal | unfold TriggerId_unmarshal | unfold OmcId_unmarshal]; apply var_same; intros; apply blob_at_same);
  unfold Camel_unmarshal, Apn_unmarshal, CGsn_unmarshal, ChargingGw_unmarshal, CPe_unmarshal, Qos_unmarshal, Msisdn_unmarshal, Eua_unmarshal;
  try (apply var_same; intros); same; try apply check_same.
Qed.
Lemma ie1_len_same m i : refines (ie1_len Debug i) (ie1_len m i).
Proof. destruct i; cbn [ie1_len]; unfold len_u16; same. Qed.
Lemma next_count_same m c : refines (next_count Debug c) (next_count m c).
Proof. unfold next_count. same. Qed.
Lemma msg1_loop_same T m : forall fuel b c i n fs, refines (msg1_loop T Debug fuel b c i n fs) (msg1_loop T m fuel b c i n fs).
Proof.
  induction fuel as [|fuel IH]; intros; cbn [msg1_loop]; same.
  all: first [apply ie1_same | apply next_count_same | apply ie1_len_same | apply IH].
Qed.
Lemma msg1_same T m b : refines (msg1_unmarshal T Debug b) (msg1_unmarshal T m b).
Proof. unfold msg1_unmarshal. same. all: first [apply chdr_same | apply chdr_len_same | apply msg1_loop_same]. Qed.
Lemma CPe_same m b : refines (CPe_unmarshal Debug b) (CPe_unmarshal m b).
Proof. unfold CPe_unmarshal. apply var_same. same. Qed.
Lemma CEhtl_same m b : refines (CEhtl_unmarshal Debug b) (CEhtl_unmarshal m b).
Proof. unfold CEhtl_unmarshal. same. all: apply check_same. Qed.
Ltac four := first [apply chdr_same | apply chdr_len_same | apply optional_same, CPe_same | apply CEhtl_same].
Lemma Vns_same m b : refines (Vns_unmarshal Debug b) (Vns_unmarshal m b).
Proof. unfold Vns_unmarshal. same. all: four. Qed.
Lemma CEchoReq_same m b : refines (CEchoReq_unmarshal Debug b) (CEchoReq_unmarshal m b).
Proof. unfold CEchoReq_unmarshal. same. all: four. Qed.
Lemma CEchoResp_same m b : refines (CEchoResp_unmarshal Debug b) (CEchoResp_unmarshal m b).
Proof. unfold CEchoResp_unmarshal. same. all: four. Qed.
Lemma CSup_same m b : refines (CSup_unmarshal Debug b) (CSup_unmarshal m b).
Proof. unfold CSup_unmarshal. same. all: four. Qed.
