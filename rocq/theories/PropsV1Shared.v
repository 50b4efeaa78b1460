(* PropsV1Shared.v - C85: GTP-U and GTPv1-C have three messages in common, echo request, echo response and supported extension headers
   notification. Whether the two halves of the library send and understand them alike. *)
From Verif Require Import Base BaseFacts V1U V1CHdr V1CIe V1CMsg.
Local Open Scope N_scope.
Notation length := List.length.

(* --- specification --------------------------------------------------------------------------------------------------- *)
(* What an extension header holds: type, length in units of four octets, and the octets of its contents as far as they are kept.
   GTP-U knows other types than GTPv1-C; one of them may keep fewer octets than the other. *)
Definition octets2 (v : N) : list N := [v / 256; v mod 256].
Definition octets3 (v : N) : list N := [v / 65536; (v / 256) mod 256; v mod 256].
Definition holds_u (e : ExtensionHeader) : option (N * N * list N) :=
  match e with
  | NoMoreExtensionHeaders => None
  | EH_PDCPPDUNumber x | EH_UDPPort x => Some (ne_type x, ne_length x, octets2 (ne_value x))
  | EH_Sci x => Some (ne_type x, ne_length x, [ne_value x])
  | EH_LongPDCPPDUNumber x => Some (ne_type x, ne_length x, octets3 (ne_value x))
  | EH_RanContainer x | EH_XwRanContainer x | EH_NrRanContainer x | EH_PduSessionContainer x | EH_Unknown x => Some (be_type x, be_length x, be_container x)
  end.
Definition holds_c (e : CExt) : option (N * N * list N) :=
  match e with
  | CX_NoMore => None
  | CX_PDCPPDUNumber x | CX_SuspendRequest x | CX_SuspendResponse x | CX_MBMSSupportIndication x | CX_MSInfoChangeReporting x =>
      Some (ne_type x, ne_length x, octets2 (ne_value x))
  | CX_Unknown x => Some (be_type x, be_length x, be_container x)
  end.
Definition begins (a b : list N) : Prop := exists r, b = a ++ r.
Definition same_extension (e : ExtensionHeader) (c : CExt) : Prop :=
  match holds_u e, holds_c c with
  | Some (t, l, o), Some (t', l', o') => t = t' /\ l = l' /\ (begins o o' \/ begins o' o)
  | None, None => True
  | _, _ => False
  end.
Definition same_extensions (u : option (list ExtensionHeader)) (c : option (list CExt)) : Prop :=
  match u, c with Some l, Some l' => Forall2 same_extension l l' | None, None => True | _, _ => False end.
Definition same_header (u : Gtpv1Header) (c : CHdr) : Prop :=
  msgtype u = c_msgtype c /\ h_length u = c_length c /\ teid u = c_teid c /\ sequence_number u = c_sqn c /\ npdu_number u = c_npdu c /\
  same_extensions (extension_headers u) (c_ext c).
Definition same_private (u : option PrivateExtension) (c : option (Tlv PeV)) : Prop :=
  c = option_map (fun p => mkTlv (pe_t p) (pe_length p) (mkPeV (pe_id p) (pe_value p))) u.
Definition same_echo_request (u : SimpleMsg) (c : CEchoReq) : Prop :=
  same_header (sm_header u) (ceq_header c) /\ same_private (sm_private_ext u) (ceq_pe c).
Definition same_echo_response (u : EchoResponse) (c : CEchoResp) : Prop :=
  same_header (er_header u) (cer_header c) /\ cer_recovery c = mkTv (rec_t (er_recovery u)) (rec_value (er_recovery u)) /\
  same_private (er_private_ext u) (cer_pe c).
Definition same_supported (u : SupExtNotif) (c : CSup) : Prop :=
  same_header (sn_header u) (cs_header c) /\ cs_list c = mkTlv (ehtl_t (sn_list u)) (ehtl_length (sn_list u)) (ehtl_list (sn_list u)).
(* the flags of the first octet: S (a sequence number is there), and PN or E *)
Definition has_sequence (b : list N) : Prop := N.testbit (nth 0 b 0) 1 = true.
Definition no_option (b : list N) : Prop := N.land (nth 0 b 0) 7 = 0.

(* --- proofs: extension headers --------------------------------------------------------------------------------------- *)
Ltac bd H := match type of H with bind ?r _ = Ok _ => let x := fresh "x" in let E := fresh "E" in destruct r as [x| | |] eqn:E; try discriminate H; cbn [bind] in H end.
Lemma ext_checked_inv {A} m b (k : N -> N -> res A) x : ext_checked m b k = Ok x ->
  exists l s, at_ (E:=GTPV1Error) b 1 = Ok l /\ l <> 0 /\ mul8 (E:=GTPV1Error) m l 4 = Ok s /\ (N.to_nat s <= length b)%nat /\ k l s = Ok x.
Proof.
  intros H. unfold ext_checked in H. bd H. destruct (N.eqb_spec x0 0) as [Z|Z]; [discriminate H|]. bd H. destruct (Nat.leb_spec (N.to_nat x1) (length b)) as [L|L]; [|discriminate H].
  exists x0, x1. auto.
Qed.
Lemma ext_checked_ok {A} m b (k : N -> N -> res A) l s : at_ (E:=GTPV1Error) b 1 = Ok l -> l <> 0 -> mul8 (E:=GTPV1Error) m l 4 = Ok s -> (N.to_nat s <= length b)%nat -> ext_checked m b k = k l s.
Proof. intros H Z M L. unfold ext_checked. rewrite H. cbn [bind]. rewrite (proj2 (N.eqb_neq _ _) Z), M. cbn [bind]. rewrite (proj2 (Nat.leb_le _ _) L). reflexivity. Qed.
Lemma size_cases m l s : l <> 0 -> mul8 (E:=GTPV1Error) m l 4 = Ok s -> (4 <= N.to_nat s)%nat \/ (s = 0 /\ m = Release).
Proof.
  intros Z H. unfold mul8, ov in H. destruct (N.ltb_spec (l * 4) 256); [apply Ok_inj in H; left; lia|]. destruct m; [discriminate H|]. apply Ok_inj in H. subst s.
  change 256 with (64 * 4). rewrite N.mul_mod_distr_r by lia. destruct (N.eq_dec (l mod 64) 0) as [Q|Q]; [right; rewrite Q; auto|left; lia].
Qed.
Lemma slice_four (t l x y : N) r s : (4 <= s)%nat -> (s <= length (t :: l :: x :: y :: r))%nat -> slice (E:=GTPV1Error) (t :: l :: x :: y :: r) 2 s = Ok (x :: y :: firstn (s - 4) r).
Proof.
  intros H L. unfold slice. rewrite (proj2 (Nat.leb_le 2 s)) by lia. rewrite (proj2 (Nat.leb_le s _)) by exact L. cbn [andb skipn].
  destruct s as [|[|[|[|s]]]]; try lia. replace (S (S (S (S s))) - 2)%nat with (S (S s)) by lia. replace (S (S (S (S s))) - 4)%nat with s by lia. reflexivity.
Qed.
Lemma four (b : list N) n : (4 <= n)%nat -> (n <= length b)%nat -> exists t l x y r, b = t :: l :: x :: y :: r.
Proof. intros A B. destruct b as [|t [|l [|x [|y r]]]]; cbn in B; try lia. eauto 10. Qed.
Lemma octets2_be16 x y : x < 256 -> y < 256 -> octets2 (be16 x y) = [x; y].
Proof. intros. unfold octets2, be16. f_equal; [|f_equal]; Zify.zify; Z.to_euclidean_division_equations; lia. Qed.
Lemma octets3_be x y z : x < 256 -> y < 256 -> z < 256 -> octets3 (be32 0 x y z) = [x; y; z].
Proof. intros. unfold octets3, be32. f_equal; [|f_equal; [|f_equal]]; Zify.zify; Z.to_euclidean_division_equations; lia. Qed.
(* what GTPv1-C makes of something that GTP-U accepts: the same, or a crash under condition [z] *)
Definition agrees {A B} (P : A -> B -> Prop) (z : Prop) (u : A) (r : res B) : Prop :=
  match r with Ok c => P u c | Panic => z | _ => False end.
Lemma unknown_agrees m b t e l s o : at_ (E:=GTPV1Error) b 0 = Ok t -> at_ (E:=GTPV1Error) b 1 = Ok l -> l <> 0 -> mul8 (E:=GTPV1Error) m l 4 = Ok s -> (N.to_nat s <= length b)%nat ->
  holds_u e = Some (t, l, o) ->
  (forall x y r, (4 <= N.to_nat s)%nat -> b = t :: l :: x :: y :: r -> begins o (x :: y :: firstn (N.to_nat s - 4) r) \/ begins (x :: y :: firstn (N.to_nat s - 4) r) o) ->
  agrees same_extension (ext_len m e = Ok 0%nat) e (let? x := Unknown_unmarshal m b in Ok (CX_Unknown x)).
Proof.
  intros T L1 Z M L H B. unfold Unknown_unmarshal. rewrite T. cbn [bind]. unfold Blob_unmarshal. rewrite (ext_checked_ok m b _ l s L1 Z M L).
  destruct (size_cases m l s Z M) as [S4|[-> ->]].
  2:{ cbn [agrees slice Nat.leb andb N.to_nat]. assert (Q : ext_len Release e = ext_len_of Release l) by (destruct e; cbn [holds_u] in H; try discriminate H; injection H as _ <- _; reflexivity). rewrite Q. unfold ext_len_of. rewrite M. reflexivity. }
  destruct (four b (N.to_nat s) S4 L) as (t' & l' & x & y & r & ->). unfold at_ in T, L1. cbn [nth_error] in T, L1. apply Ok_inj in T, L1. subst t' l'.
  rewrite slice_four by assumption. cbn [bind agrees]. unfold same_extension. rewrite H. cbn [holds_c be_type be_length be_container]. split; [reflexivity|]. split; [reflexivity|].
  apply (B x y r S4 eq_refl).
Qed.

Notation octets := (Forall (fun o => o < 256)).
Lemma at_byte b i x : octets b -> at_ (E:=GTPV1Error) b i = Ok x -> x < 256.
Proof. intros B H. unfold at_ in H. destruct (nth_error b i) eqn:E; [|discriminate H]. apply Ok_inj in H. subst. rewrite Forall_forall in B. apply B. eapply nth_error_In. exact E. Qed.
Lemma ext_agrees m b e : octets b -> ext_unmarshal m b = Ok e -> agrees same_extension (ext_len m e = Ok 0%nat) e (cext_unmarshal m b).
Proof.
  intros B H. unfold ext_unmarshal in H. bd H. rename x into t, E into T. unfold cext_unmarshal. rewrite T. cbn [bind].
  unfold NO_MORE_EXTENSION_HEADERS, PDCP_PDU_NUMBER, UDP_PORT, LONG_PDCP_PDU_NUMBER_I, LONG_PDCP_PDU_NUMBER_II, SCI, RAN_CONTAINER, XW_RAN_CONTAINER, NR_RAN_CONTAINER, PDU_SESSION_CONTAINER,
    C_PDCP_PDU_NUMBER, C_SUSPEND_REQUEST, C_SUSPEND_RESPONSE, C_MBMS_SUPPORT_INDICATION, C_MS_INFO_CHANGE_REPORTING in *.
  destruct (N.eqb_spec t 0) as [X|X]; [apply Ok_inj in H; subst e; exact I|].
  destruct (N.eqb_spec t 192) as [X1|X1].
  { bd H. cbn [agrees]. apply Ok_inj in H. subst e. cbn. split; [reflexivity|]. split; [reflexivity|]. left. exists []. rewrite app_nil_r. reflexivity. }
  destruct (N.eqb_spec t 64) as [X2|X2].
  { subst t. cbn [N.eqb Pos.eqb]. bd H. apply Ok_inj in H. subst e. apply ext_checked_inv in E. destruct E as (l & s & L1 & Z & HM & L & K). bd K. bd K. apply Ok_inj in K. subst x.
    eapply unknown_agrees; try eassumption; [reflexivity|]. intros p q r S4 ->. cbn [ne_value]. unfold at_ in E, E0. cbn [nth_error] in E, E0. apply Ok_inj in E, E0. subst p q.
    rewrite octets2_be16 by (inversion B as [|? ? ? B1]; inversion B1 as [|? ? ? B2]; inversion B2 as [|? ? ? B3]; inversion B3; assumption). left. eexists. reflexivity. }
  assert (LONG : forall x, Long_unmarshal m b = Ok x -> t <> 193 -> t <> 194 -> t <> 1 -> t <> 2 -> agrees same_extension (ext_len m (EH_LongPDCPPDUNumber x) = Ok 0%nat) (EH_LongPDCPPDUNumber x) (let? x := Unknown_unmarshal m b in Ok (CX_Unknown x))).
  { intros x K _ _ _ _. unfold Long_unmarshal in K. rewrite T in K. cbn [bind] in K. destruct (_ || _); [|discriminate K]. apply ext_checked_inv in K. destruct K as (l & s & L1 & Z & HM & L & K).
    bd K. bd K. bd K. apply Ok_inj in K. subst x. pose proof (at_byte _ _ _ B E). pose proof (at_byte _ _ _ B E0). pose proof (at_byte _ _ _ B E1).
    eapply unknown_agrees; try eassumption; [reflexivity|]. intros p q r S4 ->. cbn [ne_value]. unfold at_ in E, E0, E1. cbn [nth_error] in E, E0, E1. apply Ok_inj in E, E0. subst p q.
    rewrite octets3_be by assumption. destruct r as [|z r]; [discriminate E1|]. cbn [nth_error] in E1. apply Ok_inj in E1. subst x2. destruct (N.to_nat s - 4)%nat; cbn [firstn]; [right; exists [z]; reflexivity|left; eexists; reflexivity]. }
  destruct (N.eqb_spec t 3) as [X3|X3].
  { bd H. apply Ok_inj in H. subst e. subst t. cbn [N.eqb Pos.eqb]. apply LONG; [reflexivity|discriminate..]. }
  destruct (N.eqb_spec t 130) as [X4|X4].
  { bd H. apply Ok_inj in H. subst e. subst t. cbn [N.eqb Pos.eqb]. apply LONG; [reflexivity|discriminate..]. }
  destruct (N.eqb_spec t 32) as [X5|X5].
  { subst t. cbn [N.eqb Pos.eqb]. bd H. apply Ok_inj in H. subst e. apply ext_checked_inv in E. destruct E as (l & s & L1 & Z & HM & L & K). bd K. apply Ok_inj in K. subst x.
    eapply unknown_agrees; try eassumption; [reflexivity|]. intros p q r S4 ->. cbn [ne_value]. unfold at_ in E. cbn [nth_error] in E. apply Ok_inj in E. subst p. left. eexists. reflexivity. }
  assert (BLOB : forall x, Blob_unmarshal t m b = Ok x -> forall e, holds_u e = Some (be_type x, be_length x, be_container x) ->
    agrees same_extension (ext_len m e = Ok 0%nat) e (let? y := Unknown_unmarshal m b in Ok (CX_Unknown y)) /\ forall f, holds_c (f (mkNumExt t (be_length x) (be16 (nth 2 b 0) (nth 3 b 0)))) = Some (t, be_length x, octets2 (be16 (nth 2 b 0) (nth 3 b 0))) ->
    agrees same_extension (ext_len m e = Ok 0%nat) e (let? y := Num16_unmarshal t m b in Ok (f y))).
  { intros x K e' HE. split.
    - unfold Unknown_unmarshal. rewrite T. cbn [bind]. rewrite K. cbn [bind agrees]. unfold same_extension. rewrite HE. cbn [holds_c]. split; [reflexivity|]. split; [reflexivity|]. left. exists []. rewrite app_nil_r. reflexivity.
    - intros f HF. apply ext_checked_inv in K. destruct K as (l & s & L1 & Z & HM & L & K). bd K. apply Ok_inj in K. subst x. cbn [be_length be_type be_container] in *.
      destruct (size_cases m l s Z HM) as [S4|[-> _]]; [|discriminate E].
      unfold Num16_unmarshal. rewrite (ext_checked_ok m b _ l s L1 Z HM L). destruct (four b (N.to_nat s) S4 L) as (t' & l' & p & q & r & ->). rewrite slice_four in E by assumption. apply Ok_inj in E. subst x0.
      cbn [nth] in HF. unfold at_. cbn [nth_error bind agrees]. unfold same_extension. rewrite HE, HF. split; [reflexivity|]. split; [reflexivity|].
      rewrite octets2_be16 by (inversion B as [|? ? ? B1]; inversion B1 as [|? ? ? B2]; inversion B2 as [|? ? ? B3]; inversion B3; assumption). right. eexists. reflexivity. }
  assert (DONE : forall x e, Blob_unmarshal t m b = Ok x -> holds_u e = Some (be_type x, be_length x, be_container x) -> agrees same_extension (ext_len m e = Ok 0%nat) e
    (if t =? 193 then let? x := Num16_unmarshal 193 m b in Ok (CX_SuspendRequest x) else if t =? 194 then let? x := Num16_unmarshal 194 m b in Ok (CX_SuspendResponse x)
     else if t =? 1 then let? x := Num16_unmarshal 1 m b in Ok (CX_MBMSSupportIndication x) else if t =? 2 then let? x := Num16_unmarshal 2 m b in Ok (CX_MSInfoChangeReporting x)
     else let? x := Unknown_unmarshal m b in Ok (CX_Unknown x))).
  { intros x e' K HE. destruct (BLOB x K e' HE) as [P Q].
    destruct (N.eqb_spec t 193) as [->|Y]; [apply (Q CX_SuspendRequest eq_refl)|]. destruct (N.eqb_spec t 194) as [->|Y1]; [apply (Q CX_SuspendResponse eq_refl)|].
    destruct (N.eqb_spec t 1) as [->|Y2]; [apply (Q CX_MBMSSupportIndication eq_refl)|]. destruct (N.eqb_spec t 2) as [->|Y3]; [apply (Q CX_MSInfoChangeReporting eq_refl)|]. exact P. }
  clear LONG BLOB.
  destruct (N.eqb_spec t 129) as [Y1|Y1]; [bd H; apply Ok_inj in H; subst e; eapply DONE; [subst t; exact E|reflexivity]|].
  destruct (N.eqb_spec t 131) as [Y2|Y2]; [bd H; apply Ok_inj in H; subst e; eapply DONE; [subst t; exact E|reflexivity]|].
  destruct (N.eqb_spec t 132) as [Y3|Y3]; [bd H; apply Ok_inj in H; subst e; eapply DONE; [subst t; exact E|reflexivity]|].
  destruct (N.eqb_spec t 133) as [Y4|Y4]; [bd H; apply Ok_inj in H; subst e; eapply DONE; [subst t; exact E|reflexivity]|].
  bd H. apply Ok_inj in H. subst e. unfold Unknown_unmarshal in E. rewrite T in E. cbn [bind] in E. eapply DONE; [exact E|reflexivity].
Qed.
Lemma same_len m e c : same_extension e c -> ext_len m e = cext_len m c.
Proof.
  unfold same_extension. destruct e, c; cbn [holds_u holds_c ext_len cext_len]; intros H; try contradiction; try reflexivity; destruct H as (_ & -> & _); reflexivity.
Qed.
Lemma octets_skipn n b : octets b -> octets (skipn n b).
Proof. intros B. rewrite <- (firstn_skipn n b) in B. apply Forall_app in B. apply B. Qed.
(* a header of size zero is met again and again *)
Lemma stuck m b cur e f : forall d, (let? r := slice_from b cur in ext_unmarshal m r) = Ok e -> ext_len m e = Ok 0%nat -> forall l, ext_loop m f b cur d <> Ok l.
Proof.
  induction f as [|f IH]; intros d U L l H; [discriminate H|]. cbn [ext_loop] in H. destruct (slice_from b cur) as [r| | |] eqn:R; try discriminate H. cbn [bind] in *. rewrite U in H. cbn [bind] in H.
  assert (H' : ext_loop m f b (cur + 0) (d ++ [e]) = Ok l) by (rewrite L in H; destruct e; try exact H; discriminate L). rewrite Nat.add_0_r in H'. exact (IH _ U L l H').
Qed.
Lemma loop_agrees m f : forall b cur d d' l, octets b -> Forall2 same_extension d d' -> ext_loop m f b cur d = Ok l -> agrees (Forall2 same_extension) False l (cext_loop m f b cur d').
Proof.
  induction f as [|f IH]; intros b cur d d' l B D H; [discriminate H|]. cbn [ext_loop cext_loop] in *. bd H. cbn [bind]. bd H.
  assert (BX : octets x) by (unfold slice_from in E; destruct (_ <=? _)%nat; [|discriminate E]; apply Ok_inj in E; subst x; apply octets_skipn; exact B).
  pose proof (ext_agrees m x x0 BX E0) as A. destruct (cext_unmarshal m x) as [c| | |]; cbn [bind agrees] in *; try exact A.
  2:{ refine (stuck m b cur x0 (S f) d _ A l _); [rewrite E; exact E0|]. cbn [ext_loop]. rewrite E. cbn [bind]. rewrite E0. exact H. }
  destruct (holds_u x0) as [o|] eqn:HU.
  - assert (H' : (let? l0 := ext_len m x0 in ext_loop m f b (cur + l0) (d ++ [x0])) = Ok l) by (destruct x0; try discriminate HU; exact H). clear H.
    rewrite (same_len m _ _ A) in H'. unfold same_extension in A. rewrite HU in A. destruct o as [[t l0] o].
    assert (G : agrees (Forall2 same_extension) False l (let? l1 := cext_len m c in cext_loop m f b (cur + l1) (d' ++ [c]))).
    { bd H'. cbn [bind]. eapply IH; [exact B| |exact H']. apply Forall2_app; [exact D|]. constructor; [|constructor]. unfold same_extension. rewrite HU. exact A. }
    destruct c; try exact G. cbn in A. contradiction.
  - destruct x0; try discriminate HU. destruct c; cbn in A; try contradiction. apply Ok_inj in H. subst l. exact D.
Qed.

(* --- proofs: headers ------------------------------------------------------------------------------------------------- *)
Lemma low_bit x : N.land x 1 = N.b2n (N.testbit x 0).
Proof. change 1 with (N.ones 1) at 1. rewrite N.land_ones, N.bit0_mod. reflexivity. Qed.
Lemma bit_at x k : N.land (N.shiftr x k) 1 = N.b2n (N.testbit x k).
Proof. rewrite low_bit, N.shiftr_spec'. reflexivity. Qed.
Lemma bit_masked x k : N.shiftr (N.land x (N.shiftl 1 k)) k = N.b2n (N.testbit x k).
Proof. rewrite N.shiftr_land, N.shiftr_shiftl_l by lia. rewrite N.sub_diag, N.shiftl_0_r. apply bit_at. Qed.
Lemma no_option_bits b0 : N.land b0 7 = 0 -> N.testbit b0 0 = false /\ N.testbit b0 1 = false /\ N.testbit b0 2 = false.
Proof.
  intros H. repeat split; (match goal with |- N.testbit _ ?i = _ => pose proof (f_equal (fun x => N.testbit x i) H) as K; cbv beta in K; rewrite N.land_spec in K; cbn in K; rewrite andb_true_r in K; exact K end).
Qed.
Lemma option_bits b0 : N.testbit b0 1 = true -> N.land b0 7 <> 0.
Proof. intros H E. apply no_option_bits in E. destruct E as (_ & E & _). congruence. Qed.
Lemma b2n_1 c : (N.b2n c =? 1) = c. Proof. destruct c; reflexivity. Qed.
Lemma header_agrees m b u : octets b -> has_sequence b \/ no_option b -> hdr_unmarshal m b = Ok u -> agrees same_header False u (chdr_unmarshal m b).
Proof.
  intros B F H. unfold hdr_unmarshal in H. destruct (Nat.leb_spec 8 (length b)) as [L|L]; [|discriminate H]. unfold chdr_unmarshal. rewrite (proj2 (Nat.ltb_ge _ _) L).
  bd H. cbn [bind]. rename x into b0, E into E0. change 16 with (N.shiftl 1 4) in H. rewrite bit_masked in H. rewrite bit_at. destruct (_ && _); [|discriminate H].
  bd H. bd H. bd H. destruct (be16 x0 x1 =? 0); [discriminate H|]. bd H. bd H. bd H. bd H. cbn [bind]. cbv zeta.
  assert (N0 : nth 0 b 0 = b0) by (unfold at_ in E0; destruct (nth_error b 0) eqn:Q; [|discriminate E0]; apply Ok_inj in E0; subst; apply nth_error_nth; exact Q).
  unfold has_sequence, no_option in F. rewrite N0 in F. unfold hdr_flags in H.
  change (N.land b0 2) with (N.land b0 (N.shiftl 1 1)) in H. change (N.land b0 4) with (N.land b0 (N.shiftl 1 2)) in H. rewrite !bit_masked, low_bit in H. rewrite !bit_at, low_bit, !b2n_1.
  destruct F as [F|F].
  - rewrite (proj2 (N.eqb_neq _ _) (option_bits _ F)). rewrite F in *. cbn [N.b2n] in H.
    assert (H' : hdr_optional m b x (be16 x0 x1) (be32 x2 x3 x4 x5) (N.testbit b0 0) (N.testbit b0 2) = Ok u) by (destruct (N.testbit b0 0), (N.testbit b0 2); exact H). clear H.
    unfold hdr_optional in H'. bd H'. cbn [bind]. rename x6 into rest, E7 into ER. destruct (Nat.leb_spec 4 (length rest)) as [L4|L4]; [|discriminate H'].
    rewrite (proj2 (Nat.ltb_ge (length rest) 2)), (proj2 (Nat.ltb_ge (length rest) 3)), (proj2 (Nat.ltb_ge (length rest) 4)) by lia.
    bd H'. bd H'. cbn [bind]. match type of H' with bind ?r _ = _ => destruct r as [np| | |] eqn:NP; try discriminate H'; cbn [bind] in H' end.
    replace (if N.testbit b0 0 then let? n := at_ b 10 in Ok (Some n) else Ok None) with (Ok (E:=GTPV1Error) np) by (destruct (N.testbit b0 0); symmetry; exact NP). cbn [bind].
    destruct (N.testbit b0 2).
    + bd H'. cbn [bind]. bd H'. apply Ok_inj in H'. subst u. unfold unmarshal_ext_hdr in E10. unfold c_unmarshal_ext.
      assert (BX : octets x8) by (unfold slice_from in E9; destruct (_ <=? _)%nat; [|discriminate E9]; apply Ok_inj in E9; subst x8; apply octets_skipn; exact B).
      pose proof (loop_agrees m _ x8 0%nat [] [] x9 BX (Forall2_nil _) E10) as A. destruct (cext_loop m (S (length x8)) x8 0 []) as [l'| | |]; cbn [bind agrees] in *; try exact A.
      repeat split; try reflexivity. exact A.
    + apply Ok_inj in H'. subst u. cbn [bind agrees]. repeat split; reflexivity.
  - rewrite F, N.eqb_refl. destruct (no_option_bits _ F) as (Q0 & Q1 & Q2). rewrite Q0, Q1, Q2 in H. cbn [N.b2n] in H. apply Ok_inj in H. subst u. cbn [agrees]. repeat split; reflexivity.
Qed.
Lemma same_sums m l l' : Forall2 same_extension l l' -> ext_len_sum m l = cext_len_sum m l'.
Proof. induction 1 as [|e c l l' A _ IH]; [reflexivity|]. cbn [ext_len_sum cext_len_sum]. rewrite (same_len m e c A), IH. reflexivity. Qed.
Lemma same_size m u c : same_header u c -> get_header_size m u = chdr_len m c.
Proof.
  intros (_ & _ & _ & A & B & X). unfold get_header_size, chdr_len, same_extensions in *. destruct (extension_headers u), (c_ext c); try contradiction; [rewrite (same_sums m _ _ X); reflexivity|].
  rewrite A, B. reflexivity.
Qed.

(* --- proofs: messages ------------------------------------------------------------------------------------------------ *)
Definition converted (p : PrivateExtension) : Tlv PeV := mkTlv (pe_t p) (pe_length p) (mkPeV (pe_id p) (pe_value p)).
Lemma private_eq m b : CPe_unmarshal m b = let? p := Pe_unmarshal m b in Ok (converted p).
Proof.
  unfold CPe_unmarshal, var_unmarshal, Pe_unmarshal. destruct (3 <=? length b)%nat; [|reflexivity].
  destruct (at_ b 1) as [x| | |]; cbn [bind]; try reflexivity. destruct (at_ b 2) as [y| | |]; cbn [bind]; try reflexivity. cbv zeta.
  unfold check_tlv_ie_buffer. destruct (be16 x y =? 0); [reflexivity|]. destruct (add16 m (be16 x y) 3) as [z| | |]; cbn [bind]; try reflexivity.
  destruct (_ <=? _)%nat; [|reflexivity]. unfold be16_at. cbn [Nat.add]. destruct (at_ b 3) as [i| | |]; cbn [bind]; try reflexivity. destruct (at_ b 4) as [j| | |]; cbn [bind]; try reflexivity.
  destruct (slice_from b 5) as [v| | |]; reflexivity.
Qed.
Lemma private_agrees m b : optional (CPe_unmarshal m b) = let? o := optional (Pe_unmarshal m b) in Ok (option_map converted o).
Proof. rewrite private_eq. destruct (Pe_unmarshal m b); reflexivity. Qed.
Lemma echo_request_agrees m b u : octets b -> has_sequence b \/ no_option b -> EchoRequest_unmarshal m b = Ok u -> agrees same_echo_request False u (CEchoReq_unmarshal m b).
Proof.
  intros B F H. unfold EchoRequest_unmarshal, Simple_unmarshal in H. bd H. pose proof (header_agrees m b x B F E) as A. unfold CEchoReq_unmarshal.
  destruct (chdr_unmarshal m b) as [c| | |]; cbn [bind agrees] in *; try exact A. pose proof A as (T & L & _). rewrite <- T, <- L, <- (same_size m x c A).
  destruct (msgtype x =? ECHO_REQUEST); [|discriminate H]. cbn [negb] in H. destruct (_ <? _)%nat.
  - bd H. cbn [bind]. bd H. cbn [bind]. rewrite private_agrees. bd H. apply Ok_inj in H. subst u. cbn [bind agrees]. split; [exact A|reflexivity].
  - apply Ok_inj in H. subst u. split; [exact A|reflexivity].
Qed.
Lemma echo_response_agrees m b u : octets b -> has_sequence b \/ no_option b -> EchoResponse_unmarshal m b = Ok u -> agrees same_echo_response False u (CEchoResp_unmarshal m b).
Proof.
  intros B F H. unfold EchoResponse_unmarshal in H. bd H. pose proof (header_agrees m b x B F E) as A. unfold CEchoResp_unmarshal.
  destruct (chdr_unmarshal m b) as [c| | |]; cbn [bind agrees] in *; try exact A. pose proof A as (T & L & _). rewrite <- T, <- L, <- (same_size m x c A).
  destruct (msgtype x =? ECHO_RESPONSE); [|discriminate H]. cbn [negb] in H. destruct (_ <? length b)%nat; [|discriminate H]. bd H. cbn [bind]. destruct (x0 <? length b)%nat; [|discriminate H].
  bd H. cbn [bind]. destruct (N.eqb_spec x1 RECOVERY) as [R|R]; [|discriminate H]. bd H. cbn [bind]. bd H. unfold Rec_unmarshal in E3. unfold CRecovery_unmarshal, tv_unmarshal.
  destruct (Nat.ltb_spec 1 (length x2)) as [L2|L2]; [|discriminate E3]. rewrite (proj2 (Nat.leb_le 2 (length x2))) by lia. bd E3. bd E3. apply Ok_inj in E3. subst x3. cbn [bind].
  assert (x4 = RECOVERY).
  { unfold slice_from in E2. destruct (_ <=? _)%nat; [|discriminate E2]. apply Ok_inj in E2. subst x2. unfold at_ in E1, E4. rewrite nth_error_skipn, Nat.add_0_r in E4. rewrite E4 in E1. apply Ok_inj in E1. congruence. }
  subst x4. cbv zeta in H |- *. destruct (_ <? length b)%nat.
  - bd H. cbn [bind]. rewrite private_agrees. bd H. apply Ok_inj in H. subst u. cbn [bind agrees]. split; [exact A|split; reflexivity].
  - apply Ok_inj in H. subst u. cbn [agrees]. split; [exact A|split; reflexivity].
Qed.
Lemma supported_agrees m b u : octets b -> has_sequence b \/ no_option b -> SupExtNotif_unmarshal m b = Ok u -> agrees same_supported False u (CSup_unmarshal m b).
Proof.
  intros B F H. unfold SupExtNotif_unmarshal in H. bd H. pose proof (header_agrees m b x B F E) as A. unfold CSup_unmarshal.
  destruct (chdr_unmarshal m b) as [c| | |]; cbn [bind agrees] in *; try exact A. pose proof A as (T & L & _). rewrite <- T, <- L, <- (same_size m x c A).
  destruct (msgtype x =? SUPPORTED_EXTENSION_HEADERS_NOTIFICATION); [|discriminate H]. cbn [negb] in H |- *. bd H. cbn [bind]. destruct (_ <=? length b)%nat; [|discriminate H]. bd H. cbn [bind].
  destruct (x1 =? length b)%nat; [discriminate H|]. bd H. cbn [bind]. destruct (x2 =? EXTENSION_HEADER_TYPE_LIST); [|discriminate H]. bd H. cbn [bind].
  destruct (Ehtl_unmarshal m x3) as [i| | |] eqn:K; try discriminate H. apply Ok_inj in H. subst u. unfold Ehtl_unmarshal in K. unfold CEhtl_unmarshal. bd K. cbn [bind].
  destruct (x4 =? 0); [discriminate K|]. bd K. cbn [bind]. destruct (_ <=? _)%nat; [|discriminate K]. bd K. cbn [bind]. apply Ok_inj in K. subst i. cbn [agrees]. split; [exact A|reflexivity].
Qed.

(* --- theorems -------------------------------------------------------------------------------------------------------- *)
(* What both halves accept they understand alike, if a sequence number is there or no optional field is. *)
Theorem C85_understood_partial : forall m b, octets b -> has_sequence b \/ no_option b ->
  (forall u c, EchoRequest_unmarshal m b = Ok u -> CEchoReq_unmarshal m b = Ok c -> same_echo_request u c) /\
  (forall u c, EchoResponse_unmarshal m b = Ok u -> CEchoResp_unmarshal m b = Ok c -> same_echo_response u c) /\
  (forall u c, SupExtNotif_unmarshal m b = Ok u -> CSup_unmarshal m b = Ok c -> same_supported u c).
Proof.
  intros m b B F. split; [|split]; intros u c U C.
  - pose proof (echo_request_agrees m b u B F U) as A. rewrite C in A. exact A.
  - pose proof (echo_response_agrees m b u B F U) as A. rewrite C in A. exact A.
  - pose proof (supported_agrees m b u B F U) as A. rewrite C in A. exact A.
Qed.
(* GTPv1-C accepts what GTP-U accepts. *)
Theorem C85_accepted_partial : forall m b, octets b -> has_sequence b \/ no_option b ->
  (forall u, EchoRequest_unmarshal m b = Ok u -> exists c, CEchoReq_unmarshal m b = Ok c /\ same_echo_request u c) /\
  (forall u, EchoResponse_unmarshal m b = Ok u -> exists c, CEchoResp_unmarshal m b = Ok c /\ same_echo_response u c) /\
  (forall u, SupExtNotif_unmarshal m b = Ok u -> exists c, CSup_unmarshal m b = Ok c /\ same_supported u c).
Proof.
  intros m b B F. split; [|split]; intros u U.
  - pose proof (echo_request_agrees m b u B F U) as A. destruct (CEchoReq_unmarshal m b) as [c| | |]; try contradiction. exists c; auto.
  - pose proof (echo_response_agrees m b u B F U) as A. destruct (CEchoResp_unmarshal m b) as [c| | |]; try contradiction. exists c; auto.
  - pose proof (supported_agrees m b u B F U) as A. destruct (CSup_unmarshal m b) as [c| | |]; try contradiction. exists c; auto.
Qed.
(* Without sequence number but with another optional field they differ on every packet that both accept: GTP-U reads a sequence number. *)
Lemma without_sequence m b u c : octets b -> ~ has_sequence b -> ~ no_option b -> hdr_unmarshal m b = Ok u -> chdr_unmarshal m b = Ok c ->
  sequence_number u = Some (be16 (nth 8 b 0) (nth 9 b 0)) /\ c_sqn c = None.
Proof.
  intros B S O U C. unfold has_sequence, no_option in *. unfold hdr_unmarshal in U. destruct (8 <=? length b)%nat; [|discriminate U]. bd U.
  assert (N0 : forall i x, at_ (E:=GTPV1Error) b i = Ok x -> nth i b 0 = x) by (intros i y Q; unfold at_ in Q; destruct (nth_error b i) eqn:K; [|discriminate Q]; apply Ok_inj in Q; subst; apply nth_error_nth; exact K).
  rewrite (N0 _ _ E) in S, O. apply not_true_is_false in S. destruct (_ && _) in U; [|discriminate U]. bd U. bd U. bd U. destruct (be16 x1 x2 =? 0); [discriminate U|]. bd U. bd U. bd U. bd U. split.
  - unfold hdr_flags in U. change (N.land x 2) with (N.land x (N.shiftl 1 1)) in U. change (N.land x 4) with (N.land x (N.shiftl 1 2)) in U. rewrite !bit_masked, low_bit, S in U. cbn [N.b2n] in U.
    assert (X : N.testbit x 0 = true \/ N.testbit x 2 = true).
    { destruct (N.testbit x 0) eqn:Q0; [auto|]. destruct (N.testbit x 2) eqn:Q2; [auto|]. exfalso. apply O. apply N.bits_inj. intros i. rewrite N.land_spec, N.bits_0.
      destruct (N.eq_dec i 0) as [->|Z0]; [rewrite Q0; reflexivity|]. destruct (N.eq_dec i 1) as [->|Z1]; [rewrite S; reflexivity|]. destruct (N.eq_dec i 2) as [->|Z2]; [rewrite Q2; reflexivity|].
      rewrite (N.bits_above_log2 7 i) by (change (N.log2 7) with 2; lia). apply andb_false_r. }
    assert (H' : hdr_optional m b x0 (be16 x1 x2) (be32 x3 x4 x5 x6) true true = Ok u) by (destruct (N.testbit x 0), (N.testbit x 2); try exact U; destruct X as [X|X]; discriminate X).
    unfold hdr_optional in H'. bd H'. destruct (4 <=? length x7)%nat; [|discriminate H']. bd H'. bd H'. bd H'. bd H'. bd H'. apply Ok_inj in H'. subst u. cbn [sequence_number]. rewrite (N0 _ _ E8), (N0 _ _ E9). reflexivity.
  - unfold chdr_unmarshal in C. destruct (length b <? 8)%nat; [discriminate C|]. rewrite E in C. cbn [bind] in C. destruct (_ && _) in C; [|discriminate C].
    rewrite E0, E1, E2, E3, E4, E5, E6 in C. cbn [bind] in C. cbv zeta in C. rewrite (proj2 (N.eqb_neq _ _) O) in C. rewrite !bit_at, S, low_bit, !b2n_1 in C. cbn [bind] in C.
    destruct (if N.testbit x 0 then _ else _) in C; try discriminate C. cbn [bind] in C. destruct (if N.testbit x 2 then _ else _) in C; try discriminate C. cbn [bind] in C. apply Ok_inj in C. subst c. reflexivity.
Qed.
Theorem C85_sequence_refuted : forall m b, octets b -> ~ has_sequence b -> ~ no_option b ->
  (forall u c, EchoRequest_unmarshal m b = Ok u -> CEchoReq_unmarshal m b = Ok c -> sequence_number (sm_header u) = Some (be16 (nth 8 b 0) (nth 9 b 0)) /\ c_sqn (ceq_header c) = None) /\
  (forall u c, EchoResponse_unmarshal m b = Ok u -> CEchoResp_unmarshal m b = Ok c -> sequence_number (er_header u) = Some (be16 (nth 8 b 0) (nth 9 b 0)) /\ c_sqn (cer_header c) = None) /\
  (forall u c, SupExtNotif_unmarshal m b = Ok u -> CSup_unmarshal m b = Ok c -> sequence_number (sn_header u) = Some (be16 (nth 8 b 0) (nth 9 b 0)) /\ c_sqn (cs_header c) = None).
Proof.
  intros m b B S O. split; [|split]; intros u c U C.
  - unfold EchoRequest_unmarshal, Simple_unmarshal in U. bd U. unfold CEchoReq_unmarshal in C. bd C. destruct (without_sequence m b _ _ B S O E E0) as [P Q].
    destruct (negb _) in U; [discriminate U|]. destruct (c_msgtype x0 =? ECHO_REQUEST); [|discriminate C].
    assert (sm_header u = x) as -> by (destruct (_ <? _)%nat in U; [bd U; bd U; bd U|]; apply Ok_inj in U; subst u; reflexivity).
    assert (ceq_header c = x0) as -> by (destruct (_ <? _)%nat in C; [bd C; bd C; bd C|]; apply Ok_inj in C; subst c; reflexivity). auto.
  - unfold EchoResponse_unmarshal in U. bd U. unfold CEchoResp_unmarshal in C. bd C. destruct (without_sequence m b _ _ B S O E E0) as [P Q].
    destruct (negb _) in U; [discriminate U|]. destruct (c_msgtype x0 =? ECHO_RESPONSE); [|discriminate C].
    assert (er_header u = x) as ->.
    { destruct (_ <? _)%nat in U; [|discriminate U]. bd U. destruct (_ <? _)%nat in U; [|discriminate U]. bd U. destruct (_ =? _) in U; [|discriminate U]. bd U. bd U. cbv zeta in U. destruct (_ <? _)%nat in U; [bd U; bd U|]; apply Ok_inj in U; subst u; reflexivity. }
    assert (cer_header c = x0) as ->.
    { destruct (_ <? _)%nat in C; [|discriminate C]. bd C. destruct (_ <? _)%nat in C; [|discriminate C]. bd C. destruct (_ =? _) in C; [|discriminate C]. bd C. bd C. cbv zeta in C. destruct (_ <? _)%nat in C; [bd C; bd C|]; apply Ok_inj in C; subst c; reflexivity. }
    auto.
  - unfold SupExtNotif_unmarshal in U. bd U. unfold CSup_unmarshal in C. bd C. destruct (without_sequence m b _ _ B S O E E0) as [P Q].
    destruct (negb _) in U; [discriminate U|]. destruct (negb _) in C; [discriminate C|].
    assert (sn_header u = x) as ->.
    { bd U. destruct (_ <=? _)%nat in U; [|discriminate U]. bd U. destruct (_ =? _)%nat in U; [discriminate U|]. bd U. destruct (_ =? _) in U; [|discriminate U]. bd U. destruct (Ehtl_unmarshal m _) in U; try discriminate U. apply Ok_inj in U; subst u; reflexivity. }
    assert (cs_header c = x0) as ->.
    { bd C. destruct (_ <=? _)%nat in C; [|discriminate C]. bd C. destruct (_ =? _)%nat in C; [discriminate C|]. bd C. destruct (_ =? _) in C; [|discriminate C]. bd C. destruct (CEhtl_unmarshal m _) in C; try discriminate C. apply Ok_inj in C; subst c; reflexivity. }
    auto.
Qed.
(* GTPv1-C accepts packets that GTP-U refuses: a length of zero, a header cut short after the sequence number, an empty list of types. *)
Theorem C85_refused_refuted : forall m t1 t2 t3 t4 s1 s2,
  (EchoRequest_unmarshal m [48; 1; 0; 0; t1; t2; t3; t4] = Err HeaderInvalidLength /\ exists c, CEchoReq_unmarshal m [48; 1; 0; 0; t1; t2; t3; t4] = Ok c) /\
  (EchoRequest_unmarshal m [50; 1; 0; 10; t1; t2; t3; t4; s1; s2] = Err HeaderInvalidLength /\ exists c, CEchoReq_unmarshal m [50; 1; 0; 10; t1; t2; t3; t4; s1; s2] = Ok c) /\
  (SupExtNotif_unmarshal m [48; 31; 0; 2; t1; t2; t3; t4; 141; 0] = Err MessageMandatoryIEMissing /\ exists c, CSup_unmarshal m [48; 31; 0; 2; t1; t2; t3; t4; 141; 0] = Ok c).
Proof. intros. destruct m; (split; [|split]); (split; [reflexivity|eexists; reflexivity]). Qed.
(* --- sending ---------------------------------------------------------------------------------------------------------- *)
(* Corresponding messages, whose extension headers are sent as the same octets, are sent as the same octets. *)
Definition sent_alike (u : option (list ExtensionHeader)) (c : option (list CExt)) : Prop :=
  match u, c with Some l, Some l' => Forall2 (fun e e' => ext_marshal e = cext_marshal e') l l' | None, None => True | _, _ => False end.
Lemma header_sent u c : same_header u c -> sent_alike (extension_headers u) (c_ext c) -> hdr_marshal u = chdr_marshal c.
Proof.
  intros (A & B & C & D & E & X) S. clear X. unfold hdr_marshal, chdr_marshal. f_equal; [f_equal; [|f_equal; exact A]|f_equal; [f_equal; exact B|f_equal; [f_equal; exact C|]]].
  - unfold construct_flags, c_flags. rewrite D, E. unfold sent_alike in S. destruct (extension_headers u), (c_ext c); try contradiction; reflexivity.
  - unfold marshal_ext_hdr, c_marshal_ext. rewrite D, E. unfold sent_alike in S. destruct (extension_headers u) as [l|], (c_ext c) as [l'|]; try contradiction.
    + assert (map ext_marshal l = map cext_marshal l') as -> by (induction S as [|e e' l l' Q _ IH]; [reflexivity|cbn [map]; rewrite Q, IH; reflexivity]).
      destruct (c_sqn c), (c_npdu c); reflexivity.
    + destruct (c_sqn c), (c_npdu c); reflexivity.
Qed.
Lemma private_sent u c : same_private u c -> opt_bytes Pe_marshal u = opt_bytes (tlv_marshal CPe_value) c.
Proof. intros ->. destruct u; reflexivity. Qed.
Theorem C85_sent : forall w,
  (forall u c, same_echo_request u c -> sent_alike (extension_headers (sm_header u)) (c_ext (ceq_header c)) -> Simple_marshal u w = CEchoReq_marshal c w) /\
  (forall u c, same_echo_response u c -> sent_alike (extension_headers (er_header u)) (c_ext (cer_header c)) -> EchoResponse_marshal u w = CEchoResp_marshal c w) /\
  (forall u c, same_supported u c -> sent_alike (extension_headers (sn_header u)) (c_ext (cs_header c)) -> SupExtNotif_marshal u w = CSup_marshal c w).
Proof.
  intros w. split; [|split]; intros u c S X.
  - destruct S as [H P]. unfold Simple_marshal, CEchoReq_marshal. rewrite (header_sent _ _ H X), (private_sent _ _ P). reflexivity.
  - destruct S as (H & R & P). unfold EchoResponse_marshal, CEchoResp_marshal. rewrite (header_sent _ _ H X), (private_sent _ _ P), R. reflexivity.
  - destruct S as (H & L). unfold SupExtNotif_marshal, CSup_marshal. rewrite (header_sent _ _ H X), L. reflexivity.
Qed.
(* What both understood alike they need not send on alike: a service class indicator of which GTP-U keeps one octet. *)
Definition with_sci : list N := [54; 1; 0; 9; 0; 0; 0; 0; 0; 7; 0; 32; 1; 5; 9; 0; 0].
Theorem C85_forwarded_refuted : forall m, exists u c,
  EchoRequest_unmarshal m with_sci = Ok u /\ CEchoReq_unmarshal m with_sci = Ok c /\ same_echo_request u c /\ Simple_marshal u [] <> CEchoReq_marshal c [].
Proof.
  intros m. destruct m; (eexists; eexists; split; [reflexivity|]; split; [reflexivity|]; split; [|vm_compute; discriminate]).
  all: split; [|reflexivity]; split; [reflexivity|]; split; [reflexivity|]; split; [reflexivity|]; split; [reflexivity|]; split; [reflexivity|].
  all: apply Forall2_cons; [|apply Forall2_nil]; split; [reflexivity|]; split; [reflexivity|]; left; eexists; reflexivity.
Qed.

(* --- non-vacuity ------------------------------------------------------------------------------------------------------ *)
(* an echo response with sequence number, a service class indicator, a container, a recovery and a private extension *)
Definition shared_response : list N := [54; 2; 0; 26; 0; 0; 0; 0; 0; 7; 0; 32; 1; 5; 9; 133; 1; 1; 2; 0; 14; 6; 255; 0; 6; 0; 10; 1; 2; 3; 4].
Example C85_response_example : octets shared_response /\ has_sequence shared_response /\ forall m,
  exists u c, EchoResponse_unmarshal m shared_response = Ok u /\ CEchoResp_unmarshal m shared_response = Ok c /\ is_some (er_private_ext u) = true /\ is_some (extension_headers (er_header u)) = true.
Proof. split; [repeat constructor|]. split; [reflexivity|]. intros m. destruct m; (eexists; eexists; repeat split; reflexivity). Qed.
Definition shared_list : list N := [48; 31; 0; 4; 0; 0; 0; 0; 141; 2; 192; 64].
Example C85_list_example : octets shared_list /\ no_option shared_list /\ forall m,
  exists u c, SupExtNotif_unmarshal m shared_list = Ok u /\ CSup_unmarshal m shared_list = Ok c /\ ehtl_list (sn_list u) = [192; 64].
Proof. split; [repeat constructor|]. split; [reflexivity|]. intros m. destruct m; (eexists; eexists; repeat split; reflexivity). Qed.
(* an echo request that has an N-PDU number only *)
Definition numbered : list N := [49; 1; 0; 4; 0; 0; 0; 0; 1; 2; 3; 0].
Example C85_sequence_example : octets numbered /\ ~ has_sequence numbered /\ ~ no_option numbered /\ forall m,
  exists u c, EchoRequest_unmarshal m numbered = Ok u /\ CEchoReq_unmarshal m numbered = Ok c.
Proof. split; [repeat constructor|]. split; [discriminate|]. split; [discriminate|]. intros m. destruct m; (eexists; eexists; repeat split; reflexivity). Qed.
Example C85_sent_example : exists u c, same_echo_request u c /\ sent_alike (extension_headers (sm_header u)) (c_ext (ceq_header c)) /\ Simple_marshal u [] = [54; 1; 0; 8; 0; 0; 0; 1; 0; 9; 0; 192; 1; 1; 2; 0] /\ extension_headers (sm_header u) <> None.
Proof.
  exists (mkSimple (mkHdr 1 0 1 (Some 9) None (Some [EH_PDCPPDUNumber (mkNumExt 192 1 258)])) None), (mkCEchoReq (mkCHdr 1 0 1 (Some 9) None (Some [CX_PDCPPDUNumber (mkNumExt 192 1 258)])) None).
  split; [|split; [|split; [reflexivity|discriminate]]].
  - split; [|reflexivity]. split; [reflexivity|]. split; [reflexivity|]. split; [reflexivity|]. split; [reflexivity|]. split; [reflexivity|].
    apply Forall2_cons; [|apply Forall2_nil]. split; [reflexivity|]. split; [reflexivity|]. left. exists []. reflexivity.
  - apply Forall2_cons; [reflexivity|apply Forall2_nil].
Qed.

Print Assumptions C85_understood_partial.
Print Assumptions C85_accepted_partial.
Print Assumptions C85_sequence_refuted.
Print Assumptions C85_refused_refuted.
Print Assumptions C85_sent.
Print Assumptions C85_forwarded_refuted.
