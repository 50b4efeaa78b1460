(* PropsV1CHdrErr.v - C96: what is wrong with the GTPv1-C packets that are refused, error by error
   (builds with overflow checks): the header, the messages with a decoder of their own and the
   sixteen messages made of elements. *)
From Verif Require Import BaseFacts Octets V1USpec V1UErrSpec V1CHdr V1CMsg V1CMsgSpec V1CMsgFacts V1CMsgRead V1CExact V1CMsgReadFacts V1CErrSpec V1CHdrErrSpec V1CHdrErrFacts V1CTabErrFacts ModeFacts V1ModeFacts.
Local Open Scope N_scope.

(* ----- the header ------------------------------------------------------------------------------- *)
Theorem C96_header : forall b e, chdr_unmarshal Debug b = Err e <-> cheader_refused b e.
Proof.
  intros b e. split; [|apply cheader_refused_ok]. intros E.
  destruct (cheader_total b) as [(h & H)|[(e' & H)|H]]; try (rewrite H in E; discriminate).
  rewrite (cheader_refused_ok Debug _ _ H) in E. injection E as <-. exact H.
Qed.
Print Assumptions C96_header.

(* The errors are the same in builds without overflow checks (where more packets may be refused). *)
Theorem C96_header_any_build : forall m b e, cheader_refused b e -> chdr_unmarshal m b = Err e.
Proof. exact cheader_refused_ok. Qed.
Print Assumptions C96_header_any_build.

(* ----- messages --------------------------------------------------------------------------------- *)
(* The packet is refused with the error [e] because of its header, because of its type, or for the
   reason [Q h p e], where [h] is its header and [p] the place after it. *)
Definition refused_as (code : N) (Q : CHdr -> nat -> GTPV1Error -> Prop) (b : list N) (e : GTPV1Error) : Prop :=
  cheader_refused b e \/
  exists h p, header_says b h p /\
    ((c_msgtype h <> code /\ e = MessageIncorrectMessageType) \/ (c_msgtype h = code /\ Q h p e)).

Lemma framed {A} code (k : CHdr -> res A) (Q : CHdr -> nat -> GTPV1Error -> Prop) (P : GTPV1Error -> Prop) b :
  (forall h p, header_says b h p -> c_msgtype h = code -> forall e, P e -> (k h = Err e <-> Q h p e)) ->
  forall e, P e ->
  (let? h := chdr_unmarshal Debug b in if c_msgtype h =? code then k h else Err MessageIncorrectMessageType) = Err e <->
  refused_as code Q b e.
Proof.
  intros Hk e He. pose proof (C96_header b) as HE. unfold refused_as.
  destruct (chdr_unmarshal Debug b) as [h|e'| |] eqn:E; cbn [bind].
  - destruct (header_says_debug _ _ E) as (p & Hp).
    assert (No : forall e, ~ cheader_refused b e) by (intros e0 R; apply HE in R; discriminate).
    split.
    + intros H. right. exists h, p. split; [exact Hp|]. destruct (N.eqb_spec (c_msgtype h) code) as [Ht|Ht].
      * right. split; [exact Ht|]. apply (Hk h p Hp Ht e He), H.
      * left. injection H as <-. auto.
    + intros [R|(h' & p' & H' & R)]; [exfalso; exact (No _ R)|]. destruct (header_says_det _ _ _ _ _ Hp H') as [-> ->].
      destruct (N.eqb_spec (c_msgtype h) code) as [Ht|Ht]; destruct R as [[R1 R2]|[R1 R2]]; try contradiction.
      * apply (Hk h p Hp Ht e He), R2.
      * subst e. reflexivity.
  - split; [intros H; injection H as <-; left; apply HE; reflexivity|].
    intros [R|(h & p & Hp & _)]; [apply HE in R; injection R as <-; reflexivity|].
    destruct (header_says_ok Debug _ _ _ Hp) as [X _]. rewrite E in X. discriminate.
  - split; [discriminate|]. intros [R|(h & p & Hp & _)]; [apply HE in R; discriminate|].
    destruct (header_says_ok Debug _ _ _ Hp) as [X _]. rewrite E in X. discriminate.
  - split; [discriminate|]. intros [R|(h & p & Hp & _)]; [apply HE in R; discriminate|].
    destruct (header_says_ok Debug _ _ _ Hp) as [X _]. rewrite E in X. discriminate.
Qed.

Theorem C96_version_not_supported : forall b e,
  Vns_unmarshal Debug b = Err e <-> refused_as 3 (fun _ _ _ => False) b e.
Proof.
  intros b e. apply (framed 3 (fun h => Ok h) (fun _ _ _ => False) (fun _ => True)); [|exact I].
  intros h p _ _ e' _. split; [discriminate|contradiction].
Qed.
Print Assumptions C96_version_not_supported.

Lemma at_no_err (b : list N) i (e : GTPV1Error) : at_ b i = Err e -> False.
Proof. unfold at_. destruct (nth_error b i); discriminate. Qed.
Lemma slice_from_no_err (b : list N) i (e : GTPV1Error) : slice_from b i = Err e -> False.
Proof. unfold slice_from. destruct (i <=? length b)%nat; discriminate. Qed.
Lemma optional_no_err {A} (r : res A) e : optional r = Err e -> False.
Proof. destruct r; discriminate. Qed.

(* Echo requests: nothing after the header is ever a reason to refuse. *)
Theorem C96_echo_request : forall b e,
  CEchoReq_unmarshal Debug b = Err e <-> refused_as 1 (fun _ _ _ => False) b e.
Proof.
  intros b e. unfold CEchoReq_unmarshal.
  apply (framed 1 (fun h => if (N.to_nat (c_length h) <? length b)%nat then
      let? s := chdr_len Debug h in let? r := slice_from b s in let? o := optional (CPe_unmarshal Debug r) in Ok (mkCEchoReq h o)
    else Ok (mkCEchoReq h None)) (fun _ _ _ => False) (fun _ => True)); [|exact I].
  intros h p Hp _ e' _. destruct (header_says_ok Debug _ _ _ Hp) as [_ El]. split; [|contradiction].
  destruct (_ <? _)%nat; [|discriminate]. rewrite El. cbn [bind].
  destruct (slice_from b p) as [r| | |] eqn:Er; try discriminate; [cbn [bind]|intros _; exact (slice_from_no_err _ _ _ Er)].
  destruct (optional _) eqn:Eo; try discriminate. intros _. exact (optional_no_err _ _ Eo).
Qed.
Print Assumptions C96_echo_request.

Theorem C96_echo_response : forall b e,
  CEchoResp_unmarshal Debug b = Err e <-> refused_as 2 (echo_response_wrong b) b e.
Proof.
  intros b e. unfold CEchoResp_unmarshal.
  apply (framed 2 (fun h =>
    if (N.to_nat (c_length h) + 4 <? length b)%nat then
      let? cursor := chdr_len Debug h in
      if (cursor <? length b)%nat then
        let? t := at_ b cursor in
        if t =? RECOVERY then
          let? r := slice_from b cursor in
          let? rec := CRecovery_unmarshal r in
          let cursor := (cursor + 2)%nat in
          if (cursor <? length b)%nat then
            let? r := slice_from b cursor in
            let? o := optional (CPe_unmarshal Debug r) in
            Ok (mkCEchoResp h rec o)
          else Ok (mkCEchoResp h rec None)
        else Err MessageMandatoryIEMissing
      else Err MessageMandatoryIEMissing
    else Err MessageLengthError) (echo_response_wrong b) (fun _ => True)); [|exact I].
  clear e. intros h p Hp _ e _. destruct (header_says_ok Debug _ _ _ Hp) as [_ El].
  destruct (Nat.ltb_spec (N.to_nat (c_length h) + 4) (length b)) as [Hl|Hl].
  2:{ split.
      - intros H. injection H as <-. apply er_length. unfold nlen. lia.
      - intros H. destruct H; unfold nlen in *; (reflexivity || lia). }
  rewrite El. cbn [bind]. destruct (Nat.ltb_spec p (length b)) as [Hp'|Hp'].
  2:{ split.
      - intros H. injection H as <-. apply er_none; unfold nlen; lia.
      - intros H. destruct H; unfold nlen in *; (reflexivity || lia || (rewrite skipn_all2 in * by lia; discriminate)). }
  unfold at_. destruct (nth_error b p) as [t|] eqn:Et; [|apply nth_error_None in Et; lia]. cbn [bind].
  pose proof (skipn_at _ _ _ Et) as Es. unfold RECOVERY.
  destruct (N.eqb_spec t 14) as [->|Ht].
  2:{ split.
      - intros H. injection H as <-. apply (er_other b h p t (skipn (S p) b)); [unfold nlen; lia|exact Es|exact Ht].
      - intros H. destruct H; unfold nlen in *; (reflexivity || lia || congruence). }
  rewrite slice_from_ok by lia. cbn [bind]. rewrite Es.
  destruct (skipn (S p) b) as [|v r] eqn:Er.
  - split.
    + intros H. injection H as <-. apply er_cut; [unfold nlen; lia|exact Es].
    + intros H. destruct H; unfold nlen in *; (reflexivity || lia || congruence).
  - split.
    + change (CRecovery_unmarshal (14 :: v :: r)) with (@Ok GTPV1Error _ (mkTv RECOVERY v)). cbn [bind]. cbv zeta.
      destruct (_ <? _)%nat; [|discriminate].
      destruct (slice_from b (p + 2)) as [q| | |] eqn:Eq; try discriminate; [cbn [bind]|intros _; exfalso; exact (slice_from_no_err _ _ _ Eq)].
      destruct (optional _) eqn:Eo; try discriminate. intros _. exfalso. exact (optional_no_err _ _ Eo).
    + intros H. destruct H; unfold nlen in *; (lia || congruence).
Qed.
Print Assumptions C96_echo_response.

Lemma add16_max x : 65527 < x -> add16 Debug x 8 = @Panic GTPV1Error N.
Proof. intros H. unfold add16, ov. destruct (N.ltb_spec (x + 8) 65536); [lia|reflexivity]. Qed.
Lemma negb_if {A} (c : bool) (x y : A) : (if negb c then x else y) = if c then y else x.
Proof. destruct c; reflexivity. Qed.
Lemma bind_ext {A B} (r : res A) (k k' : A -> res B) : (forall a, k a = k' a) -> bind r k = bind r k'.
Proof. intros H. destruct r; cbn; auto. Qed.

Theorem C96_supported_extension_headers : forall b e,
  CSup_unmarshal Debug b = Err e <-> refused_as 31 (supported_headers_wrong b) b e.
Proof.
  intros b e. unfold CSup_unmarshal. erewrite bind_ext by (intros h; apply negb_if).
  apply (framed 31 (fun h =>
    let? tot := add16 Debug (c_length h) 8 in
    if (N.to_nat tot <=? length b)%nat then
      let? hs := chdr_len Debug h in
      if (hs =? length b)%nat then Err MessageMandatoryIEMissing
      else
        let? t := at_ b hs in
        if t =? EXTENSION_HEADER_TYPE_LIST then
          let? r := slice_from b hs in
          match CEhtl_unmarshal Debug r with
          | Ok i => Ok (mkCSup h i)
          | Err _ => Err MessageMandatoryIEMissing
          | Panic => Panic | Diverge => Diverge
          end
        else Err MessageInvalidMessageFormat
    else Err MessageLengthError) (supported_headers_wrong b) (fun _ => True)); [|exact I].
  clear e. intros h p Hp _ e _. destruct (header_says_ok Debug _ _ _ Hp) as [_ El].
  destruct (N.lt_ge_cases 65527 (c_length h)) as [Hm|Hm].
  { rewrite add16_max by exact Hm. split; [discriminate|]. intros H. destruct H; lia. }
  rewrite add16_small by lia. cbn [bind].
  destruct (Nat.leb_spec (N.to_nat (c_length h + 8)) (length b)) as [Hl|Hl].
  2:{ split.
      - intros H. injection H as <-. apply sh_length; [exact Hm|unfold nlen; lia].
      - intros H. destruct H; unfold nlen in *; (reflexivity || lia). }
  rewrite El. cbn [bind]. destruct (Nat.eqb_spec p (length b)) as [Hp'|Hp'].
  { split.
    - intros H. injection H as <-. apply sh_none; unfold nlen; lia.
    - intros H. destruct H; unfold nlen in *; (reflexivity || lia || (rewrite skipn_all2 in * by lia; discriminate)). }
  unfold at_. destruct (nth_error b p) as [t|] eqn:Et; cbn [bind].
  2:{ apply nth_error_None in Et. split; [discriminate|]. intros H. destruct H; unfold nlen in *; (lia || (rewrite skipn_all2 in * by lia; discriminate)). }
  assert (Hlt : (p < length b)%nat) by (apply nth_error_Some; congruence).
  pose proof (skipn_at _ _ _ Et) as Es. unfold EXTENSION_HEADER_TYPE_LIST at 1.
  destruct (N.eqb_spec t 141) as [->|Ht].
  2:{ split.
      - intros H. injection H as <-. apply (sh_other b h p t (skipn (S p) b)); [unfold nlen; lia|lia|exact Es|exact Ht].
      - intros H. destruct H; unfold nlen in *; (reflexivity || lia || congruence). }
  rewrite slice_from_ok by lia. cbn [bind]. rewrite Es.
  destruct (skipn (S p) b) as [|l v] eqn:Er.
  { split; [discriminate|]. intros H. destruct H; unfold nlen in *; (lia || congruence). }
  unfold CEhtl_unmarshal, at_. cbn [nth_error bind]. unfold add8, ov.
  destruct (N.ltb_spec (l + 2) 256) as [H2|H2]; cbn [bind].
  2:{ split; [discriminate|]. intros H. destruct H as [ | | |l' v' ? ? E]; unfold nlen in *; try lia; try congruence. rewrite E in Es. injection Es as -> ->. lia. }
  destruct (Nat.leb_spec (N.to_nat (l + 2)) (length (141 :: l :: v))) as [H3|H3]; cbn [length] in H3.
  - rewrite slice_from_ok by (cbn [length]; lia). cbn [bind]. split; [discriminate|].
    intros H. destruct H as [ | | |l' v' ? ? E]; unfold nlen in *; try lia; try congruence. rewrite E in Es. injection Es as -> ->. lia.
  - split.
    + intros H. injection H as <-. apply (sh_cut b h p l v); [unfold nlen; lia|lia|exact Es|lia|unfold nlen; lia].
    + intros H. destruct H; unfold nlen in *; (reflexivity || lia || congruence).
Qed.
Print Assumptions C96_supported_extension_headers.

(* ----- the sixteen messages made of elements ---------------------------------------------------- *)
Theorem C96_table_messages : forall code L T b e, In (code, L, T) messages1 ->
  (msg1_unmarshal T Debug b = Err e <-> refused_as code (table_message_wrong code L b) b e).
Proof.
  intros code L T b e HI. pose proof (tab_code code L T (messages1_checked _ _ _ HI)) as HC.
  assert (E : msg1_unmarshal T Debug b = let? h := chdr_unmarshal Debug b in if c_msgtype h =? code then msg1_unmarshal T Debug b else Err MessageIncorrectMessageType).
  { unfold msg1_unmarshal. destruct (chdr_unmarshal Debug b) as [h| | |]; cbn [bind]; try reflexivity. rewrite HC.
    destruct (c_msgtype h =? code); reflexivity. }
  rewrite E. apply (framed code (fun _ => msg1_unmarshal T Debug b) (table_message_wrong code L b) (fun _ => True)); [|exact I].
  clear e E. intros h p Hp Ht e _. destruct (header_says_ok Debug _ _ _ Hp) as [Eh El]. unfold table_message_wrong.
  destruct (N.lt_ge_cases 65527 (c_length h)) as [Hm|Hm].
  { unfold msg1_unmarshal. rewrite Eh. cbn [bind]. rewrite Ht, HC, N.eqb_refl. cbn [negb]. rewrite add16_max by exact Hm.
    split; [discriminate|]. intros [H _]. lia. }
  destruct (N.ltb_spec (nlen b) (8 + c_length h)) as [Hl|Hl].
  { unfold msg1_unmarshal. rewrite Eh. cbn [bind]. rewrite Ht, HC, N.eqb_refl. cbn [negb]. rewrite add16_small by lia. cbn [bind].
    unfold nlen in Hl. destruct (Nat.leb_spec (N.to_nat (c_length h + 8)) (length b)); [lia|]. split; [intros H1; injection H1 as <-; auto|].
    intros [_ ->]. reflexivity. }
  rewrite (wrong_iff code L T HI b h p e) by assumption. split; [auto|]. intros [_ H]. exact H.
Qed.
Print Assumptions C96_table_messages.

(* In builds without overflow checks these packets are refused with the same errors. *)
Lemma refines_err {A} (d r : res A) e : refines d r -> d = Err e -> r = Err e.
Proof. intros [->| ->] H; [discriminate|exact H]. Qed.
Theorem C96_any_build : forall m b e,
  (refused_as 3 (fun _ _ _ => False) b e -> Vns_unmarshal m b = Err e) /\
  (refused_as 1 (fun _ _ _ => False) b e -> CEchoReq_unmarshal m b = Err e) /\
  (refused_as 2 (echo_response_wrong b) b e -> CEchoResp_unmarshal m b = Err e) /\
  (refused_as 31 (supported_headers_wrong b) b e -> CSup_unmarshal m b = Err e) /\
  (forall code L T, In (code, L, T) messages1 -> refused_as code (table_message_wrong code L b) b e -> msg1_unmarshal T m b = Err e).
Proof.
  intros m b e. split; [|split; [|split; [|split]]].
  - intros H. apply (refines_err _ _ _ (Vns_same m b)), C96_version_not_supported, H.
  - intros H. apply (refines_err _ _ _ (CEchoReq_same m b)), C96_echo_request, H.
  - intros H. apply (refines_err _ _ _ (CEchoResp_same m b)), C96_echo_response, H.
  - intros H. apply (refines_err _ _ _ (CSup_same m b)), C96_supported_extension_headers, H.
  - intros code L T HI H. apply (refines_err _ _ _ (msg1_same T m b)), (C96_table_messages code L T b e HI), H.
Qed.
Print Assumptions C96_any_build.

(* ----- cases ------------------------------------------------------------------------------------ *)
(* a packet of seven octets, one of version 2, one without the octets its flags announce, and one with
   a good extension header and then one of length 0 *)
Example C96_header_case :
  cheader_refused [50; 1; 0; 4; 0; 0; 0] HeaderInvalidLength /\
  cheader_refused [72; 1; 0; 4; 0; 0; 0; 0] HeaderVersionNotSupported /\
  cheader_refused [51; 1; 0; 4; 0; 0; 0; 0; 0; 5] HeaderInvalidLength /\
  cheader_refused [52; 1; 0; 12; 0; 0; 0; 0; 0; 5; 0; 192; 1; 0; 7; 193; 0; 3; 3; 0] ExtHeaderInvalidLength.
Proof.
  repeat split; apply C96_header; vm_compute; reflexivity.
Qed.
Example C96_message_cases :
  refused_as 3 (fun _ _ _ => False) [50; 1; 0; 4; 0; 0; 0; 0; 0; 5; 0; 0] MessageIncorrectMessageType /\
  refused_as 2 (echo_response_wrong [50; 2; 0; 8; 0; 0; 0; 0; 0; 5; 0; 0]) [50; 2; 0; 8; 0; 0; 0; 0; 0; 5; 0; 0] MessageLengthError /\
  refused_as 2 (echo_response_wrong [50; 2; 0; 5; 0; 0; 0; 0; 0; 5; 0; 0; 14]) [50; 2; 0; 5; 0; 0; 0; 0; 0; 5; 0; 0; 14] IEInvalidLength /\
  refused_as 31 (supported_headers_wrong [50; 31; 0; 7; 0; 0; 0; 0; 0; 5; 0; 0; 141; 2; 192])
    [50; 31; 0; 7; 0; 0; 0; 0; 0; 5; 0; 0; 141; 2; 192] MessageMandatoryIEMissing.
Proof.
  split; [apply C96_version_not_supported; vm_compute; reflexivity|].
  split; [apply C96_echo_response; vm_compute; reflexivity|].
  split; [apply C96_echo_response; vm_compute; reflexivity|].
  apply C96_supported_extension_headers; vm_compute; reflexivity.
Qed.
(* a delete request: the NSAPI is missing; the time zone is cut short; an element comes too late; a
   type that is not in this message *)
Example C96_table_cases : let D b := refused_as 20 (table_message_wrong 20 DeletePDPContextRequest_L b) b in
  D [50; 20; 0; 6; 0; 0; 0; 7; 0; 9; 0; 0; 19; 255] MessageMandatoryIEMissing /\
  D [50; 20; 0; 9; 0; 0; 0; 7; 0; 9; 0; 0; 20; 5; 153; 0; 2] MessageOptionalIEIncorrect /\
  D [50; 20; 0; 8; 0; 0; 0; 7; 0; 9; 0; 0; 20; 5; 19; 255] MessageInvalidMessageFormat /\
  D [50; 20; 0; 8; 0; 0; 0; 7; 0; 9; 0; 0; 20; 5; 26; 255] MessageInvalidMessageFormat /\
  D [50; 20; 0; 9; 0; 0; 0; 7; 0; 9; 0; 0; 20; 5; 19; 255] MessageLengthError.
Proof.
  assert (HI : In (20, DeletePDPContextRequest_L, DeletePDPContextRequest_T) messages1) by (cbn; tauto).
  cbv zeta. repeat split; apply (C96_table_messages 20 _ _ _ _ HI); vm_compute; reflexivity.
Qed.
