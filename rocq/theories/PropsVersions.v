(* PropsVersions.v - the protocol version of a packet, over the decoders and encoders of the three protocols: C68.
   The names of GTPv2-C are qualified. *)
From Coq Require String.
From Verif Require Import BaseFacts V1USafety2 V1CHdrSafety V1CMsg V1CMsgSpec PropsV1C.
From Verif Require V2Base V2MsgSpec V2Msg V2MsgLayouts V2MsgReadSpec V2ErrSpec V2ErrLoop V2ModeFacts.
Local Open Scope N_scope.

(* TS 29.060 6, TS 29.281 5.1, TS 29.274 5.1: the version is in the three high bits of the first octet. In version 1 the
   next bit tells GTP (1) from GTP' (0). *)
Definition version (b : list N) : N := nth 0 b 0 / 32.
Definition is_gtpv1 (b : list N) : Prop := version b = 1 /\ N.testbit (nth 0 b 0) 4 = true.

(* a result of one of the decoders, whatever it decodes *)
Inductive outcome := Accepted | Refused_version | Other.
Definition outcome1 {A} (r : res A) : outcome :=
  match r with Ok _ => Accepted | Err HeaderVersionNotSupported => Refused_version | _ => Other end.
Definition outcome2 {A} (r : V2Base.res A) : outcome :=
  match r with Ok _ => Accepted | Err V2Base.HeaderVersionNotSupported => Refused_version | _ => Other end.

(* the six decoders of GTP-U messages *)
Definition gtpu_outcomes (m : mode) (b : list N) : list outcome :=
  [outcome1 (EchoRequest_unmarshal m b); outcome1 (EchoResponse_unmarshal m b); outcome1 (ErrorIndication_unmarshal m b);
   outcome1 (EndMarker_unmarshal m b); outcome1 (Gpdu_unmarshal m b); outcome1 (SupExtNotif_unmarshal m b)].
(* the twenty of GTPv1-C *)
Definition gtpv1c_outcomes (m : mode) (b : list N) : list outcome :=
  [outcome1 (CEchoReq_unmarshal m b); outcome1 (CEchoResp_unmarshal m b); outcome1 (Vns_unmarshal m b); outcome1 (CSup_unmarshal m b)] ++
  map (fun p => outcome1 (msg1_unmarshal (snd p) m b)) messages1.
(* the 83 of GTPv2-C *)
Definition gtpv2_outcomes (m : mode) (b : list N) : list outcome :=
  map (fun p => outcome2 (V2Msg.msg_unmarshal (fst p) m b)) V2MsgLayouts.gtpv2_messages.


(* ----- proofs: no step after the version check returns the version error ---------------------------- *)
Definition nv {A} (r : res A) : Prop := r <> Err HeaderVersionNotSupported.
Lemma nv_bind {A B} (r : res A) (k : A -> res B) : nv r -> (forall x, nv (k x)) -> nv (bind r k).
Proof. unfold nv. destruct r as [a|e| |]; cbn; intros H K; [apply K|intros [= ->]; apply H; reflexivity|discriminate|discriminate]. Qed.
Lemma nv_ok {A} (x : A) : nv (Ok x). Proof. discriminate. Qed.
Lemma nv_at b i : nv (at_ b i). Proof. unfold nv, at_. destruct (nth_error b i); discriminate. Qed.
Lemma nv_slice b i j : nv (slice b i j). Proof. unfold nv, slice. destruct (_ && _); discriminate. Qed.
Lemma nv_slice_from b i : nv (slice_from b i). Proof. unfold nv, slice_from. destruct (_ <=? _)%nat; discriminate. Qed.
Lemma nv_ov m w v : nv (ov m w v). Proof. unfold nv, ov. destruct (_ <? _); [|destruct m]; discriminate. Qed.
Lemma nv_optional {A} (r : res A) : nv (optional r). Proof. destruct r; discriminate. Qed.
Ltac nv_ := repeat first
  [ match goal with |- nv (Ok _) => apply nv_ok | |- nv (at_ _ _) => apply nv_at | |- nv (slice _ _ _) => apply nv_slice
    | |- nv (slice_from _ _) => apply nv_slice_from | |- nv (ov _ _ _) => apply nv_ov | |- nv (optional _) => apply nv_optional | |- nv (Err _) => discriminate end
  | match goal with |- nv (bind _ _) => apply nv_bind; [|intros ?] end
  | match goal with |- nv (if ?c then _ else _) => destruct c end ].

Lemma nv_ext_checked {A} m b (k : N -> N -> res A) : (forall l s, nv (k l s)) -> nv (ext_checked m b k).
Proof. intros K. unfold ext_checked, mul8. nv_. apply K. Qed.
Lemma nv_num16 t m b : nv (Num16_unmarshal t m b). Proof. apply nv_ext_checked. intros. nv_. Qed.
Lemma nv_sci m b : nv (Sci_unmarshal m b). Proof. apply nv_ext_checked. intros. nv_. Qed.
Lemma nv_long m b : nv (Long_unmarshal m b). Proof. unfold Long_unmarshal. nv_. apply nv_ext_checked. intros. nv_. Qed.
Lemma nv_blob t m b : nv (Blob_unmarshal t m b). Proof. apply nv_ext_checked. intros. nv_. Qed.
Lemma nv_unknown m b : nv (Unknown_unmarshal m b). Proof. unfold Unknown_unmarshal. nv_. apply nv_blob. Qed.
Lemma nv_ext m b : nv (ext_unmarshal m b).
Proof. unfold ext_unmarshal. nv_; first [apply nv_num16|apply nv_sci|apply nv_long|apply nv_blob|apply nv_unknown]. Qed.
Lemma nv_cext m b : nv (cext_unmarshal m b).
Proof. unfold cext_unmarshal. nv_; first [apply nv_num16|apply nv_unknown]. Qed.
Lemma nv_ext_len m e : nv (ext_len m e). Proof. destruct e; cbn; unfold ext_len_of, mul8; nv_. Qed.
Lemma nv_cext_len m e : nv (cext_len m e). Proof. destruct e; cbn; unfold ext_len_of, mul8; nv_. Qed.
Lemma nv_ext_loop m fuel b : forall c d, nv (ext_loop m fuel b c d).
Proof.
  induction fuel as [|fuel IH]; intros c d; [discriminate|]. cbn [ext_loop]. apply nv_bind; [apply nv_slice_from|intros r].
  apply nv_bind; [apply nv_ext|intros i]. destruct i; [discriminate|..]; (apply nv_bind; [apply nv_ext_len|intros l; apply IH]).
Qed.
Lemma nv_cext_loop m fuel b : forall c d, nv (cext_loop m fuel b c d).
Proof.
  induction fuel as [|fuel IH]; intros c d; [discriminate|]. cbn [cext_loop]. apply nv_bind; [apply nv_slice_from|intros r].
  apply nv_bind; [apply nv_cext|intros i]. destruct i; [discriminate|..]; (apply nv_bind; [apply nv_cext_len|intros l; apply IH]).
Qed.

(* the version test of each header *)
Definition v1_octet (b0 : N) : Prop := b0 / 32 = 1 /\ N.testbit b0 4 = true.
Lemma bit4 b0 : N.land (N.shiftr b0 4) 1 = 1 <-> N.testbit b0 4 = true.
Proof.
  pose proof (N.land_ones (N.shiftr b0 4) 1) as E. change (N.ones 1) with 1 in E. change (2 ^ 1) with 2 in E. rewrite E.
  pose proof (N.bit0_mod (N.shiftr b0 4)) as B. rewrite <- B, N.shiftr_spec'. replace (0 + 4) with 4 by reflexivity.
  destruct (N.testbit b0 4); cbn; split; congruence.
Qed.
Lemma bit4' b0 : N.shiftr (N.land b0 16) 4 = 1 <-> N.testbit b0 4 = true.
Proof. rewrite N.shiftr_land. change (N.shiftr 16 4) with 1. apply bit4. Qed.
Lemma v1_test b0 : (N.shiftr b0 5 =? 1) && (N.land (N.shiftr b0 4) 1 =? 1) = true <-> v1_octet b0.
Proof. rewrite andb_true_iff, !N.eqb_eq, bit4, N.shiftr_div_pow2. reflexivity. Qed.
Lemma v1_test' b0 : (N.shiftr b0 5 =? 1) && (N.shiftr (N.land b0 16) 4 =? 1) = true <-> v1_octet b0.
Proof. rewrite andb_true_iff, !N.eqb_eq, bit4', N.shiftr_div_pow2. reflexivity. Qed.

Lemma at_nth {E} b i : (i < length b)%nat -> @at_ E b i = Ok (nth i b 0).
Proof. intros H. unfold at_. rewrite (nth_error_nth' b 0 H). reflexivity. Qed.

Lemma nv_hdr_flags m b b0 mt l t : nv (hdr_flags m b b0 mt l t).
Proof.
  assert (O : forall n e, nv (hdr_optional m b mt l t n e)).
  { intros n e. unfold hdr_optional. nv_. apply nv_ext_loop. }
  unfold hdr_flags. repeat match goal with |- nv (match ?x with _ => _ end) => destruct x end; auto; discriminate.
Qed.

Lemma uhdr_version m b : hdr_unmarshal m b = Err HeaderVersionNotSupported <-> (8 <= length b)%nat /\ ~ is_gtpv1 b.
Proof.
  unfold hdr_unmarshal, is_gtpv1, version. destruct (Nat.leb_spec 8 (length b)) as [H|H]; [|split; [discriminate|lia]].
  rewrite at_nth by lia. cbn [bind]. pose proof (v1_test' (nth 0 b 0)) as T. unfold v1_octet in T.
  destruct (_ && _).
  - split; [|intros [_ X]; exfalso; apply X, T; reflexivity]. intros X. exfalso. revert X. change (nv (let? mt := at_ b 1 in
      let? l1 := at_ b 2 in let? l2 := at_ b 3 in if be16 l1 l2 =? 0 then Err HeaderInvalidLength else
      let? t1 := at_ b 4 in let? t2 := at_ b 5 in let? t3 := at_ b 6 in let? t4 := at_ b 7 in
      hdr_flags m b (nth 0 b 0) mt (be16 l1 l2) (be32 t1 t2 t3 t4))).
    nv_. apply nv_hdr_flags.
  - split; [|reflexivity]. intros _. split; [exact H|]. intros X. apply T in X. discriminate.
Qed.
Lemma chdr_version m b : chdr_unmarshal m b = Err HeaderVersionNotSupported <-> (8 <= length b)%nat /\ ~ is_gtpv1 b.
Proof.
  unfold chdr_unmarshal, is_gtpv1, version. destruct (Nat.ltb_spec (length b) 8) as [H|H]; [split; [discriminate|lia]|].
  rewrite at_nth by lia. cbn [bind]. pose proof (v1_test (nth 0 b 0)) as T. unfold v1_octet in T.
  destruct (_ && _).
  - split; [|intros [_ X]; exfalso; apply X, T; reflexivity]. intros X. exfalso. revert X.
    match goal with |- ?r = _ -> False => change (nv r) end. cbv zeta. nv_. apply nv_cext_loop.
  - split; [|reflexivity]. intros _. split; [exact H|]. intros X. apply T in X. discriminate.
Qed.

(* each message decoder reports the version error exactly if its header does *)
Definition refuses_so {A} (r : res A) (b : list N) : Prop := r = Err HeaderVersionNotSupported <-> (8 <= length b)%nat /\ ~ is_gtpv1 b.
Lemma via_hdr {A} m b (k : Gtpv1Header -> res A) : (forall h, nv (k h)) -> refuses_so (let? h := hdr_unmarshal m b in k h) b.
Proof.
  intros K. unfold refuses_so. rewrite <- (uhdr_version m b). destruct (hdr_unmarshal m b) as [h|e| |]; cbn [bind]; [|split; congruence..].
  split; [intros X; exfalso; exact (K h X)|discriminate].
Qed.
Lemma via_chdr {A} m b (k : CHdr -> res A) : (forall h, nv (k h)) -> refuses_so (let? h := chdr_unmarshal m b in k h) b.
Proof.
  intros K. unfold refuses_so. rewrite <- (chdr_version m b). destruct (chdr_unmarshal m b) as [h|e| |]; cbn [bind]; [|split; congruence..].
  split; [intros X; exfalso; exact (K h X)|discriminate].
Qed.
Lemma nv_size m h : nv (get_header_size m h).
Proof.
  unfold get_header_size. destruct (extension_headers h) as [l|]; nv_.
  induction l as [|e l IH]; cbn [ext_len_sum]; nv_; [apply nv_ext_len|exact IH].
Qed.
Lemma nv_csize m h : nv (chdr_len m h).
Proof.
  unfold chdr_len. destruct (c_ext h) as [l|]; nv_.
  induction l as [|e l IH]; cbn [cext_len_sum]; nv_; [apply nv_cext_len|exact IH].
Qed.
Lemma nv_rec b : nv (Rec_unmarshal b). Proof. unfold Rec_unmarshal. nv_. Qed.
Lemma nv_crec b : nv (CRecovery_unmarshal b). Proof. unfold CRecovery_unmarshal, tv_unmarshal. nv_. Qed.
Lemma nv_count m c : nv (count m c). Proof. destruct c; cbn; unfold add8; nv_. Qed.
Lemma nv_gsn_len m x : nv (Gsn_len m x). Proof. unfold Gsn_len, add16. nv_. Qed.
Lemma nv_pe_len m x : nv (Pe_len m x). Proof. unfold Pe_len, add16. nv_. Qed.
Lemma nv_ei m fuel b : forall s, nv (ei_loop m fuel b s).
Proof.
  induction fuel as [|fuel IH]; intros s; [discriminate|]. cbn [ei_loop]. nv_.
  - destruct (Teid_unmarshal _); try discriminate. nv_; [apply nv_count|apply IH].
  - destruct (Gsn_unmarshal _ _); try discriminate. nv_; [apply nv_count|apply nv_gsn_len|apply IH].
  - destruct (Pe_unmarshal _ _); try discriminate. nv_; [apply nv_count|apply nv_pe_len|apply IH].
Qed.
Lemma nv_len1 m i : nv (ie1_len m i). Proof. destruct i; cbn; unfold len_u16, add16; nv_. Qed.
Lemma nv_loop1 T m fuel b : forall c i k f, nv (msg1_loop T m fuel b c i k f).
Proof.
  induction fuel as [|fuel IH]; intros c i k f; [discriminate|]. cbn [msg1_loop]. nv_.
  destruct (find_arm _ _) as [a|]; [|discriminate]. nv_. destruct (ie1_unmarshal _ _ _) as [j|e| |]; try discriminate.
  - nv_; [|apply nv_len1|apply IH]. unfold next_count, add8. destruct (k _); nv_.
  - destruct (a_err a); cbn [arm_error bind]; try discriminate.
    + destruct (_ =? _); discriminate.
    + destruct (k x) as [n|]; [destruct (n <? 3)|]; discriminate.
Qed.

Lemma gtpu_refuse m b : Forall (fun o => o = Refused_version <-> (8 <= length b)%nat /\ ~ is_gtpv1 b) (gtpu_outcomes m b).
Proof.
  assert (O : forall A (r : res A), refuses_so r b -> outcome1 r = Refused_version <-> (8 <= length b)%nat /\ ~ is_gtpv1 b).
  { intros A r R. unfold refuses_so in R. rewrite <- R. destruct r as [a|e| |]; cbn; [split; discriminate| |split; discriminate..]. destruct e; split; congruence. }
  unfold gtpu_outcomes. repeat (constructor; [apply O|]); [..|constructor]; apply via_hdr; intros h; unfold add16; nv_; try apply nv_size; try apply nv_rec; try apply nv_ei.
  destruct (Ehtl_unmarshal _ _); discriminate.
Qed.
Lemma gtpv1c_refuse m b : Forall (fun o => o = Refused_version <-> (8 <= length b)%nat /\ ~ is_gtpv1 b) (gtpv1c_outcomes m b).
Proof.
  assert (O : forall A (r : res A), refuses_so r b -> outcome1 r = Refused_version <-> (8 <= length b)%nat /\ ~ is_gtpv1 b).
  { intros A r R. unfold refuses_so in R. rewrite <- R. destruct r as [a|e| |]; cbn; [split; discriminate| |split; discriminate..]. destruct e; split; congruence. }
  unfold gtpv1c_outcomes. apply Forall_app. split.
  - repeat (constructor; [apply O|]); [..|constructor]; apply via_chdr; intros h; unfold add16; nv_; try apply nv_csize; try apply nv_crec.
    destruct (CEhtl_unmarshal _ _); discriminate.
  - apply Forall_map, Forall_forall. intros p _. apply O, via_chdr. intros h. unfold add16. nv_; [apply nv_csize|apply nv_loop1].
Qed.

Lemma h2_version b : V2Base.h2_unmarshal b = Err V2Base.HeaderVersionNotSupported <-> (8 <= length b)%nat /\ version b <> 2.
Proof.
  unfold V2Base.h2_unmarshal, V2Base.MIN_HEADER_LENGTH, V2Base.MAX_HEADER_LENGTH, version.
  destruct (Nat.leb_spec 8 (length b)) as [H|H]; [|split; [discriminate|lia]].
  rewrite at_nth by lia. cbn [bind]. rewrite N.shiftr_div_pow2. change (2 ^ 5) with 32.
  destruct (N.eqb_spec (nth 0 b 0 / 32) 2) as [E|E]; cbn [negb]; [|split; [auto|reflexivity]].
  split; [|intros [_ X]; contradiction]. intros X. exfalso. revert X. rewrite !(at_nth b) by lia. cbn [bind]. cbv zeta.
  destruct (_ =? 0).
  - destruct (_ =? 0); [discriminate|]. destruct (_ <? 4); discriminate.
  - destruct (Nat.leb_spec 12 (length b)); [|discriminate]. destruct (_ <? 8); [discriminate|]. rewrite !(at_nth b) by lia. discriminate.
Qed.

Lemma stops_not_version s e : V2ErrSpec.stops_with s e -> e <> V2Base.HeaderVersionNotSupported.
Proof.
  induction 1 as [| t q e _ R | ]; try assumption. revert R. unfold V2ErrSpec.reported, V2ErrSpec.names.
  destruct (t =? 115); [intros ->; discriminate|]. destruct (t =? 169); [intros [->| ->]; discriminate|].
  destruct (t =? 86); [intros [[->| ->]| ->]; discriminate|]. intros [[->| ->]|[_ ->]]; discriminate.
Qed.
Lemma refused_version d L b : In (d, L) V2MsgLayouts.gtpv2_messages -> bytes b ->
  V2Msg.msg_unmarshal d Debug b = Err V2Base.HeaderVersionNotSupported -> (8 <= length b)%nat /\ version b <> 2.
Proof.
  intros HI Hb H. apply h2_version. pose proof H as H0. apply (V2ErrLoop.message_refused d L b _ HI Hb) in H.
  unfold V2Msg.msg_unmarshal in H0. destruct (V2Base.h2_unmarshal b) as [h|e| |] eqn:Hh; cbn [bind] in H0; try discriminate.
  - exfalso. assert (X : forall e, V2ErrSpec.header_reports b e -> False).
    { intros e R. apply V2ErrLoop.header_reports_iff in R. congruence. }
    remember V2Base.HeaderVersionNotSupported as ev eqn:Ev. destruct H as [e R|h' Hs Ht|h' N Hs Ht Hl|h' s e N Hs Ht Ho R|h' s l f t N N' Hs Ht Ho Hl HF HM K]; try discriminate.
    + exact (X e R).
    + subst e. exact (stops_not_version _ _ R eq_refl).
  - injection H0 as ->. reflexivity.
Qed.

Lemma gtpv2_refuse m b : (8 <= length b)%nat /\ version b <> 2 -> Forall (eq Refused_version) (gtpv2_outcomes m b).
Proof.
  intros H. apply h2_version in H. unfold gtpv2_outcomes. apply Forall_map, Forall_forall. intros p _. unfold V2Msg.msg_unmarshal. rewrite H. reflexivity.
Qed.

(* ----- C68 ------------------------------------------------------------------------------------------ *)
Example C68_numbers : forall m b, length (gtpu_outcomes m b) = 6%nat /\ length (gtpv1c_outcomes m b) = 20%nat /\ length (gtpv2_outcomes m b) = 83%nat.
Proof. intros. repeat split. Qed.

(* The decoders of version 1 refuse a packet for its version exactly if it has the eight octets of a header and is not a
   GTPv1 packet. *)
Theorem C68_version1_refused : forall m b o, In o (gtpu_outcomes m b ++ gtpv1c_outcomes m b) ->
  (o = Refused_version <-> (8 <= length b)%nat /\ ~ is_gtpv1 b).
Proof.
  intros m b o H. apply in_app_or in H as [H|H]; [pose proof (gtpu_refuse m b) as F|pose proof (gtpv1c_refuse m b) as F];
    rewrite Forall_forall in F; exact (F o H).
Qed.
Print Assumptions C68_version1_refused.

(* Those of version 2 do if the packet is not of version 2; a debug build only then. *)
Theorem C68_version2_refused : forall m b o, In o (gtpv2_outcomes m b) -> (8 <= length b)%nat -> version b <> 2 -> o = Refused_version.
Proof. intros m b o H H8 Hv. pose proof (gtpv2_refuse m b (conj H8 Hv)) as F. rewrite Forall_forall in F. symmetry. exact (F o H). Qed.
Print Assumptions C68_version2_refused.
Theorem C68_version2_refused_only : forall b o, bytes b -> In o (gtpv2_outcomes Debug b) ->
  (o = Refused_version <-> (8 <= length b)%nat /\ version b <> 2).
Proof.
  intros b o Hb H. split; [|intros [H8 Hv]; exact (C68_version2_refused Debug b o H H8 Hv)]. intros ->.
  unfold gtpv2_outcomes in H. apply in_map_iff in H as ([d L] & E & HI). cbn [fst] in E. apply (refused_version d L b HI Hb).
  destruct (V2Msg.msg_unmarshal d Debug b) as [x|e| |]; try discriminate. destruct e; try discriminate. reflexivity.
Qed.
Print Assumptions C68_version2_refused_only.

(* What is accepted is of the version of its decoder... *)
Lemma v1_accept {A} m b (k : Gtpv1Header -> res A) : outcome1 (let? h := hdr_unmarshal m b in k h) = Accepted -> exists h, hdr_unmarshal m b = Ok h.
Proof. destruct (hdr_unmarshal m b) as [h|e| |]; cbn [bind]; eauto; [destruct e|..]; discriminate. Qed.
Lemma c1_accept {A} m b (k : CHdr -> res A) : outcome1 (let? h := chdr_unmarshal m b in k h) = Accepted -> exists h, chdr_unmarshal m b = Ok h.
Proof. destruct (chdr_unmarshal m b) as [h|e| |]; cbn [bind]; eauto; [destruct e|..]; discriminate. Qed.
Lemma is_gtpv1_dec b : is_gtpv1 b \/ ~ is_gtpv1 b.
Proof. unfold is_gtpv1. destruct (N.eq_dec (version b) 1), (N.testbit (nth 0 b 0) 4); intuition. Qed.
Lemma uhdr_v1 m b h : hdr_unmarshal m b = Ok h -> (8 <= length b)%nat /\ is_gtpv1 b.
Proof.
  intros H. assert (H8 : (8 <= length b)%nat) by (unfold hdr_unmarshal in H; destruct (Nat.leb_spec 8 (length b)); [assumption|discriminate]).
  split; [exact H8|]. destruct (is_gtpv1_dec b) as [D|D]; [exact D|]. pose proof (proj2 (uhdr_version m b) (conj H8 D)). congruence.
Qed.
Lemma chdr_v1 m b h : chdr_unmarshal m b = Ok h -> (8 <= length b)%nat /\ is_gtpv1 b.
Proof.
  intros H. assert (H8 : (8 <= length b)%nat) by (unfold chdr_unmarshal in H; destruct (Nat.ltb_spec (length b) 8); [discriminate|assumption]).
  split; [exact H8|]. destruct (is_gtpv1_dec b) as [D|D]; [exact D|]. pose proof (proj2 (chdr_version m b) (conj H8 D)). congruence.
Qed.

Theorem C68_accepted_version1 : forall m b, In Accepted (gtpu_outcomes m b ++ gtpv1c_outcomes m b) -> (8 <= length b)%nat /\ is_gtpv1 b.
Proof.
  intros m b H. unfold gtpu_outcomes, gtpv1c_outcomes in H. rewrite !in_app_iff in H. destruct H as [H|[H|H]].
  - repeat (destruct H as [H|H]; [apply v1_accept in H as (h & H); exact (uhdr_v1 m b h H)|]). contradiction.
  - repeat (destruct H as [H|H]; [apply c1_accept in H as (h & H); exact (chdr_v1 m b h H)|]). contradiction.
  - apply in_map_iff in H as (p & H & _). apply c1_accept in H as (h & H). exact (chdr_v1 m b h H).
Qed.
Print Assumptions C68_accepted_version1.
Theorem C68_accepted_version2 : forall m b, In Accepted (gtpv2_outcomes m b) -> (8 <= length b)%nat /\ version b = 2.
Proof.
  intros m b H. unfold gtpv2_outcomes in H. apply in_map_iff in H as ([d L] & H & _). cbn [fst] in H. unfold V2Msg.msg_unmarshal in H.
  assert (X : exists h, V2Base.h2_unmarshal b = Ok h) by (destruct (V2Base.h2_unmarshal b) as [h|e| |]; [eauto|destruct e; discriminate|discriminate..]).
  destruct X as [h X]. assert (H8 : (8 <= length b)%nat).
  { unfold V2Base.h2_unmarshal, V2Base.MIN_HEADER_LENGTH in X. destruct (Nat.leb_spec 8 (length b)); [assumption|discriminate]. }
  split; [exact H8|]. destruct (N.eq_dec (version b) 2) as [D|D]; [exact D|]. pose proof (proj2 (h2_version b) (conj H8 D)). congruence.
Qed.
Print Assumptions C68_accepted_version2.

(* ... so that no packet is accepted under both versions: what one accepts all decoders of the other refuse for its
   version, in whatever build. *)
Theorem C68_one_version : forall m m' b,
  (In Accepted (gtpu_outcomes m b ++ gtpv1c_outcomes m b) -> forall o, In o (gtpv2_outcomes m' b) -> o = Refused_version) /\
  (In Accepted (gtpv2_outcomes m b) -> forall o, In o (gtpu_outcomes m' b ++ gtpv1c_outcomes m' b) -> o = Refused_version).
Proof.
  intros m m' b. split.
  - intros H o Ho. apply C68_accepted_version1 in H as [H8 [V _]]. apply (C68_version2_refused m' b o Ho H8). rewrite V. discriminate.
  - intros H o Ho. apply C68_accepted_version2 in H as [H8 V]. apply (C68_version1_refused m' b o Ho). split; [exact H8|]. intros [V1 _]. rewrite V in V1. discriminate.
Qed.
Print Assumptions C68_one_version.

(* What is sent is of the version of its encoder, whatever the message, well formed or not. *)
Lemma first_set_length b : nth 0 (set_length b) 0 = nth 0 b 0.
Proof. unfold set_length. destruct b as [|? [|? [|? [|? ?]]]]; reflexivity. Qed.
Lemma length_set_nth b i v : length (set_nth b i v) = length b.
Proof. revert i; induction b; destruct i; cbn; auto. Qed.
Lemma length_set_length b : length (set_length b) = length b.
Proof. unfold set_length. rewrite !length_set_nth. reflexivity. Qed.
Lemma u_first h r : is_gtpv1 (set_length ([] ++ hdr_marshal h ++ r)) /\ (8 <= length (set_length ([] ++ hdr_marshal h ++ r)))%nat.
Proof.
  rewrite length_set_length. unfold is_gtpv1, version. rewrite first_set_length. split.
  - unfold hdr_marshal, construct_flags. cbn [app nth]. destruct (extension_headers h), (sequence_number h), (npdu_number h); split; reflexivity.
  - unfold hdr_marshal. rewrite !app_length. cbn [length enc16 enc32]. lia.
Qed.
Lemma c_first h r : is_gtpv1 (set_length ([] ++ chdr_marshal h ++ r)) /\ (8 <= length (set_length ([] ++ chdr_marshal h ++ r)))%nat.
Proof.
  rewrite length_set_length. unfold is_gtpv1, version. rewrite first_set_length. split.
  - unfold chdr_marshal, c_flags. cbn [app nth]. destruct (c_ext h), (c_sqn h), (c_npdu h); split; reflexivity.
  - unfold chdr_marshal. rewrite !app_length. cbn [length enc16 enc32]. lia.
Qed.

(* the octets of any message of the three protocols *)
Inductive sent_v1 : list N -> Prop :=
| s_simple x : sent_v1 (Simple_marshal x [])                 (* GTP-U echo request, end marker *)
| s_echo_response x : sent_v1 (EchoResponse_marshal x [])
| s_error_indication x : sent_v1 (ErrorIndication_marshal x [])
| s_gpdu x : sent_v1 (Gpdu_marshal x [])
| s_sup x : sent_v1 (SupExtNotif_marshal x [])
| s_cecho_request x : sent_v1 (CEchoReq_marshal x [])
| s_cecho_response x : sent_v1 (CEchoResp_marshal x [])
| s_vns x : sent_v1 (Vns_marshal x [])
| s_csup x : sent_v1 (CSup_marshal x [])
| s_msg1 x : sent_v1 (msg1_marshal x []).

Lemma sent_v1_is b : sent_v1 b -> is_gtpv1 b /\ (8 <= length b)%nat.
Proof.
  destruct 1; [unfold Simple_marshal|unfold EchoResponse_marshal|unfold ErrorIndication_marshal|unfold Gpdu_marshal|unfold SupExtNotif_marshal
    |unfold CEchoReq_marshal|unfold CEchoResp_marshal|unfold Vns_marshal|unfold CSup_marshal|unfold msg1_marshal, msg1_octets];
    match goal with
    | |- context [hdr_marshal ?h ++ ?r] => exact (u_first h r)
    | |- context [chdr_marshal ?h ++ ?r] => exact (c_first h r)
    | |- context [chdr_marshal ?h] => generalize (c_first h []); rewrite app_nil_r; exact (fun C => C)
    end.
Qed.
Theorem C68_sent_version1 : forall b, sent_v1 b -> is_gtpv1 b /\ forall m o, In o (gtpv2_outcomes m b) -> o = Refused_version.
Proof.
  intros b H. apply sent_v1_is in H as [V H8]. split; [exact V|]. intros m o Ho. apply (C68_version2_refused m b o Ho H8).
  destruct V as [V _]. rewrite V. discriminate.
Qed.
Print Assumptions C68_sent_version1.

Theorem C68_sent_version2 : forall d x, let b := V2Msg.msg_marshal d x [] in version b = 2 /\
  forall m o, In o (gtpu_outcomes m b ++ gtpv1c_outcomes m b) -> o = Refused_version.
Proof.
  intros d x b. assert (V : version b = 2).
  { unfold b, version, V2Msg.msg_marshal, V2Base.set_msg_length. cbn [app V2Base.h2_marshal]. unfold V2Base.h2_marshal. cbn [app set_nth nth enc16].
    unfold V2Base.h2_flags. destruct (V2Base.h2_prio _), (V2Base.h2_teid _), (V2Base.h2_piggyback _); reflexivity. }
  split; [exact V|]. intros m o Ho. apply (C68_version1_refused m b o Ho). split; [|intros [V1 _]; rewrite V in V1; discriminate].
  unfold b, V2Msg.msg_marshal, V2Base.set_msg_length. rewrite !length_set_nth. unfold V2Base.h2_marshal. cbn [app]. rewrite ?app_length. cbn [length enc16 enc24 app].
  rewrite ?app_length. cbn [length enc16 enc24]. rewrite ?app_length. cbn [length enc16 enc24]. lia.
Qed.
Print Assumptions C68_sent_version2.

(* a G-PDU, a GTPv2-C echo request and a GTP' packet *)
Example C68_case : In Accepted (gtpu_outcomes Debug [48; 255; 0; 2; 0; 0; 0; 7; 1; 2]) /\
  In Accepted (gtpv2_outcomes Debug [64; 1; 0; 9; 0; 0; 1; 0; 3; 0; 1; 0; 5]) /\
  Forall (eq Refused_version) (gtpu_outcomes Debug [14; 1; 0; 2; 0; 0; 0; 7; 1; 2]).
Proof. split; [vm_compute; tauto|]. split; [vm_compute; tauto|]. repeat constructor. Qed.
