(* V1CrashPkt.v - when decoding a GTPv1 packet panics. *)
From Coq Require Import Sorting.Sorted.
From Verif Require Import Base BaseFacts LabelsFacts V1U V1CHdr V1CIe V1CKind V1CMsg V1CTables V1CSpec V1CSafeSpec V1CMsgSpec V1CMsgFacts V1CMsgRead V1CMsgSafety V1CExact V1CHdrSafety V1CIeSafety V1USafety2 V1CrashSpec V1Crash V1CrashIe V1CrashMsg.
Local Open Scope N_scope.

Lemma add16_total {A} m l b (k : N -> res A) (e : GTPV1Error) : l < 65536 ->
  ((let? tot := add16 m l 8 in if (N.to_nat tot <=? length b)%nat then k tot else Err e) = Panic <->
   total_overflows m l \/ (total_fits l b /\ k ((l + 8) mod 65536) = Panic /\ ~ total_overflows m l)).
Proof.
  intros Hl. unfold total_overflows, total_fits, nlen, add16, ov. destruct (N.ltb_spec (l + 8) 65536) as [H|H].
  - rewrite (N.mod_small (l + 8)) by exact H. cbn [bind]. destruct (Nat.leb_spec (N.to_nat (l + 8)) (length b)) as [K|K].
    + split; [intros E; right; repeat split; [lia|exact E|lia]|]. intros [[_ ?]|(_ & E & _)]; [lia|exact E].
    + split; [discriminate|]. intros [[_ ?]|(? & _ & _)]; lia.
  - destruct m; cbn [bind].
    + split; [intros _; left; split; [reflexivity|lia]|reflexivity].
    + destruct (Nat.leb_spec (N.to_nat ((l + 8) mod 65536)) (length b)) as [K|K].
      * split; [intros E; right; split; [lia|split; [exact E|intros [? _]; discriminate]]|]. intros [[? _]|(_ & E & _)]; [discriminate|exact E].
      * split; [discriminate|]. intros [[? _]|(? & _ & _)]; [discriminate|lia].
Qed.
Lemma slice_from_panic {E} b i : @slice_from E b i = Panic <-> (length b < i)%nat.
Proof.
  destruct (Nat.le_gt_cases i (length b)); [rewrite slice_from_ok by assumption; split; [discriminate|lia]|].
  split; [intros _; assumption|]. intros _. unfold slice_from, slice. destruct (Nat.leb_spec i (length b)); [lia|]. reflexivity.
Qed.

(* the shape of all the messages *)
Lemma msg_shape {A} m b (k : CHdr -> res A) (P : N -> nat -> Prop) code :
  (forall h n, chdr_unmarshal m b = Ok h -> c_msgtype h = code -> chdr_len m h = Ok n -> (k h = Panic <-> P (c_length h) n)) ->
  (forall h, c_msgtype h <> code -> k h <> Panic) ->
  (bind (chdr_unmarshal m b) k = Panic <-> header_c_crashes m b \/ exists l n, read_c code m b l n /\ P l n).
Proof.
  intros HP HN. rewrite bind_panic, chdr_panic. split; (intros [H|H]; [left; exact H|right]).
  - destruct H as (h & Hh & H). destruct (N.eq_dec (c_msgtype h) code) as [E|E]; [|exfalso; eapply HN; eassumption].
    destruct (chdr_has_len _ _ _ Hh) as [n Hn]. exists (c_length h), n. split; [exists h; auto|]. apply (HP h n); assumption.
  - destruct H as (l & n & (h & Hh & E & <- & Hn) & H). exists h. split; [exact Hh|]. apply (HP h n); assumption.
Qed.
Lemma umsg_shape {A} m b (k : Gtpv1Header -> res A) (P : N -> nat -> Prop) code :
  (forall h n, hdr_unmarshal m b = Ok h -> msgtype h = code -> get_header_size m h = Ok n -> (n <= length b)%nat -> (k h = Panic <-> P (h_length h) n)) ->
  (forall h, msgtype h <> code -> k h <> Panic) ->
  (bind (hdr_unmarshal m b) k = Panic <-> header_u_crashes m b \/ exists l n, read_u code m b l n /\ P l n).
Proof.
  intros HP HN. rewrite bind_panic, hdr_panic. split; (intros [H|H]; [left; exact H|right]).
  - destruct H as (h & Hh & H). destruct (N.eq_dec (msgtype h) code) as [E|E]; [|exfalso; eapply HN; eassumption].
    destruct (header_size_decoded _ _ _ Hh) as (n & Hn & Hle). exists (h_length h), n. split; [exists h; auto|]. apply (HP h n); try assumption. lia.
  - destruct H as (l & n & (h & Hh & E & <- & Hn) & H). exists h. split; [exact Hh|].
    destruct (header_size_decoded _ _ _ Hh) as (n' & Hn' & Hle). assert (n' = n) by congruence. subst n'. apply (HP h n); try assumption. lia.
Qed.
Lemma octet_skipn n b : octet (skipn n b) 0 = octet b n.
Proof. unfold octet. revert b. induction n as [|n IH]; intros [|x b]; cbn; try reflexivity. apply IH. Qed.
Lemma at_byte {E} b i x : bytes b -> @at_ E b i = Ok x -> x < 256.
Proof. intros B H. unfold at_ in H. destruct (nth_error b i) as [y|] eqn:En; [|discriminate]. injection H as <-. apply nth_error_In in En. unfold bytes in B. rewrite Forall_forall in B. exact (B _ En). Qed.
Lemma be16_small a c : a < 256 -> c < 256 -> be16 a c < 65536.
Proof. unfold be16. lia. Qed.
Lemma c_len_max m b h : bytes b -> chdr_unmarshal m b = Ok h -> c_length h < 65536.
Proof.
  intros B H. unfold chdr_unmarshal in H. destruct (_ <? _)%nat; [discriminate|]. apply bind_ok in H as (b0 & _ & H). destruct (_ && _)%bool; [|discriminate].
  apply bind_ok in H as (mt & _ & H). apply bind_ok in H as (l1 & H1 & H). apply bind_ok in H as (l2 & H2 & H).
  assert (L : be16 l1 l2 < 65536).
  { apply be16_small; (eapply at_byte; [exact B|eassumption]). }
  do 4 apply bind_ok in H as (? & _ & H). cbv zeta in H.
  repeat (first [match type of H with (if ?c then _ else _) = _ => destruct c end | apply bind_ok in H as (? & _ & H)]); try discriminate; apply Ok_inj in H; subst h; exact L.
Qed.

Lemma u_len_max m b h : bytes b -> hdr_unmarshal m b = Ok h -> h_length h < 65536.
Proof.
  intros B H. destruct (hdr_inv _ _ _ H) as (b0 & l1 & l2 & t1 & t2 & t3 & t4 & q & E & A & _). subst b. rewrite A.
  unfold bytes in B. rewrite !Forall_cons_iff in B. unfold byte in B. apply be16_small; apply B.
Qed.

(* the messages of the loop *)
Theorem message_panic code L T m b : In (code, L, T) messages1 -> bytes b ->
  (msg1_unmarshal T m b = Panic <-> message_c_crashes code (map f_code L) m b).
Proof.
  intros HI B. unfold msg1_unmarshal, message_c_crashes. apply msg_shape.
  - intros h n Hh E Hn. rewrite E, (tab_code code L T (messages1_checked _ _ _ HI)), N.eqb_refl. cbn [negb]. rewrite add16_total by (eapply c_len_max; eassumption).
    rewrite Hn. cbn [bind]. rewrite bind_panic. rewrite (loop_panic_iff code L T HI m b n _ B). split.
    + intros [H|(F & [H|(r & _ & H)] & _)]; [auto|auto|]. destruct (forallb _ _) in H; discriminate.
    + intros [H|(F & H)]; [auto|]. destruct (N.leb_spec 65528 (c_length h)) as [K|K]; [|right; split; [exact F|split; [auto|intros [_ ?]; lia]]].
      destruct m; [left; split; [reflexivity|exact K]|]. right. split; [exact F|]. split; [auto|]. intros [? _]. discriminate.
  - intros h E. rewrite (tab_code code L T (messages1_checked _ _ _ HI)). destruct (N.eqb_spec (c_msgtype h) code); [contradiction|]. cbn [negb]. discriminate.
Qed.

Lemma optional_panic {A} (r : res A) : optional r = Panic <-> r = Panic.
Proof. destruct r; cbn [optional]; split; intros; congruence. Qed.
Lemma cpe_panic m s : bytes s -> (CPe_unmarshal m s = Panic <-> private_crashes m s).
Proof.
  intros B. unfold private_crashes. rewrite <- (Pe_stops m s B). unfold stops. cbn [ie1_unmarshal]. rewrite bind_ok_panic. split; [auto|].
  intros [H|(i & H & H')]; [exact H|]. apply bind_ok in H as (x & Hx & H). injection H as <-. cbn [ie1_len] in H'.
  pose proof (var_declared _ _ _ _ _ Hx) as Hd. apply (len_panic m s B) in H'; [|exact Hd]. destruct H' as [-> O].
  apply (var_panic _ _ Debug s B). split; [|left; split; [reflexivity|exact O]].
  split; [|split; [unfold overlong in O; lia|right; exact O]]. unfold CPe_unmarshal, var_unmarshal in Hx. destruct (Nat.leb_spec 3 (length s)); [assumption|discriminate].
Qed.
Lemma pe_same m s : optional (Pe_unmarshal m s) = Panic <-> CPe_unmarshal m s = Panic.
Proof.
  rewrite optional_panic. unfold Pe_unmarshal, CPe_unmarshal, var_unmarshal, be16_at. destruct (_ <=? _)%nat; [|split; discriminate].
  destruct (at_ s 1) as [l1| | |]; cbn [bind]; try tauto; try (split; discriminate). destruct (at_ s 2) as [l2| | |]; cbn [bind]; try tauto; try (split; discriminate). cbv zeta.
  unfold check_tlv_ie_buffer. destruct (be16 l1 l2 =? 0); [cbn [bind]; split; discriminate|].
  destruct (add16 m (be16 l1 l2) 3) as [e| | |]; cbn [bind]; try tauto; try (split; discriminate). destruct (_ <=? _)%nat; [|split; discriminate].
  change (3 + 1)%nat with 4%nat. destruct (at_ s 3) as [i1| | |]; cbn [bind]; try tauto; try (split; discriminate). destruct (at_ s 4) as [i2| | |]; cbn [bind]; try tauto; try (split; discriminate).
  destruct (slice_from s 5) as [v| | |]; cbn [bind]; split; intros; congruence.
Qed.

Theorem vns_panic m b : Vns_unmarshal m b = Panic <-> header_c_crashes m b.
Proof. unfold Vns_unmarshal. rewrite bind_panic, chdr_panic. split; [intros [H|(h & _ & H)]; [exact H|destruct (_ =? _); discriminate]|auto]. Qed.

Theorem echo_request_c_panic m b : bytes b -> (CEchoReq_unmarshal m b = Panic <-> echo_request_c_crashes m b).
Proof.
  intros B. unfold CEchoReq_unmarshal, echo_request_c_crashes. apply (msg_shape m b _ (fun l n => l < nlen b /\ ((length b < n)%nat \/ private_crashes m (skipn n b)))).
  - intros h n Hh E Hn. rewrite E. change (1 =? ECHO_REQUEST) with true. cbv iota. unfold nlen. destruct (Nat.ltb_spec (N.to_nat (c_length h)) (length b)) as [K|K]; [|split; [discriminate|lia]].
    rewrite Hn. cbn [bind]. rewrite bind_panic, slice_from_panic. split.
    + intros [H|(r & Hr & H)]; (split; [lia|]); [auto|]. destruct (Nat.le_gt_cases n (length b)) as [Le|]; [|auto]. rewrite slice_from_ok in Hr by exact Le. apply Ok_inj in Hr. subst r.
      apply bind_panic in H as [H|(? & _ & H)]; [|discriminate]. right. apply cpe_panic; [apply bytes_skipn, B|]. apply optional_panic, H.
    + intros (_ & [H|H]); [auto|]. destruct (Nat.le_gt_cases n (length b)) as [Le|]; [|auto]. right. rewrite slice_from_ok by exact Le. eexists. split; [reflexivity|].
      apply cpe_panic in H; [|apply bytes_skipn, B]. rewrite H. reflexivity.
  - intros h E. destruct (N.eqb_spec (c_msgtype h) ECHO_REQUEST); [contradiction|discriminate].
Qed.
Theorem echo_response_c_panic m b : bytes b -> (CEchoResp_unmarshal m b = Panic <-> echo_response_c_crashes m b).
Proof.
  intros B. unfold CEchoResp_unmarshal, echo_response_c_crashes. apply (msg_shape m b _ (fun l n => l + 4 < nlen b /\ (n + 2 < length b)%nat /\ octet b n = 14 /\ private_crashes m (skipn (n + 2) b))).
  - intros h n Hh E Hn. rewrite E. change (2 =? ECHO_RESPONSE) with true. cbv iota. unfold nlen. destruct (Nat.ltb_spec (N.to_nat (c_length h) + 4) (length b)) as [K|K]; [|split; [discriminate|lia]].
    rewrite Hn. cbn [bind]. destruct (Nat.ltb_spec n (length b)) as [K1|K1]; [|split; [discriminate|lia]]. rewrite at_octet. destruct (Nat.ltb_spec n (length b)); [|lia]. cbn [bind].
    change RECOVERY with 14. destruct (N.eqb_spec (octet b n) 14) as [Q|Q]; [|split; [discriminate|tauto]]. rewrite slice_from_ok by lia. cbn [bind].
    unfold CRecovery_unmarshal, tv_unmarshal. rewrite skipn_length. destruct (Nat.leb_spec 2 (length b - n)) as [K2|K2]; [|cbn [bind]; split; [discriminate|lia]].
    rewrite at_octet, skipn_length. destruct (Nat.ltb_spec 1 (length b - n)); [|lia]. cbn [bind]. destruct (Nat.ltb_spec (n + 2) (length b)) as [K3|K3]; [|split; [discriminate|lia]].
    rewrite slice_from_ok by lia. cbn [bind]. rewrite bind_ok_panic, optional_panic, cpe_panic by (apply bytes_skipn, B). split; [intros P|tauto]. split; [lia|auto].
  - intros h E. destruct (N.eqb_spec (c_msgtype h) ECHO_RESPONSE); [contradiction|discriminate].
Qed.
Lemma ctl_panic m s : s <> [] -> octet s 0 = 141 -> bytes s -> (CEhtl_unmarshal m s = Panic <-> type_list_crashes m s).
Proof.
  intros Hs E B. unfold CEhtl_unmarshal, type_list_crashes. rewrite at_octet. destruct s as [|x s]; [contradiction|]. cbn [length].
  destruct (Nat.ltb_spec 1 (S (length s))) as [K|K]; cbn [bind].
  - unfold add8, ov. assert (octet (x :: s) 1 < 256). { apply (@at_byte GTPV1Error (x :: s) 1%nat); [exact B|]. rewrite at_octet. cbn [length]. destruct (Nat.ltb_spec 1 (S (length s))); [reflexivity|lia]. }
    destruct (N.ltb_spec (octet (x :: s) 1 + 2) 256) as [O|O]; cbn [bind].
    + destruct (_ <=? _)%nat; [rewrite slice_from_ok by (cbn [length]; lia); cbn [bind]|]; (split; [discriminate|intros (_ & [?|[_ ?]]); lia]).
    + destruct m; cbn [bind]; [split; [intros _; split; [exact E|right; split; [reflexivity|lia]]|reflexivity]|].
      destruct (_ <=? _)%nat; [rewrite slice_from_ok by (cbn [length]; lia); cbn [bind]|]; (split; [discriminate|intros (_ & [?|[? _]]); [lia|discriminate]]).
  - split; [intros _; split; [exact E|left; lia]|reflexivity].
Qed.
Lemma utl_panic m s : s <> [] -> octet s 0 = 141 -> bytes s -> (Ehtl_unmarshal m s = Panic <-> type_list_crashes m s).
Proof.
  intros Hs E B. rewrite <- (ctl_panic m s Hs E B). unfold Ehtl_unmarshal, CEhtl_unmarshal. destruct (at_ s 1) as [l| | |] eqn:El; cbn [bind]; try (split; intros; congruence).
  destruct (N.eqb_spec l 0) as [->|Z].
  - split; [discriminate|]. change (@add8 GTPV1Error m 0 2) with (@Ok GTPV1Error N 2). cbn [bind]. destruct (_ <=? _)%nat eqn:F; [|discriminate]. apply Nat.leb_le in F. rewrite slice_from_ok by lia. discriminate.
  - destruct (add8 m l 2) as [e| | |]; cbn [bind]; try (split; intros; congruence). destruct (_ <=? _)%nat; [|split; discriminate]. destruct (slice_from s 2); cbn [bind]; split; intros; congruence.
Qed.
Lemma no_overflow_or m l : total_overflows m l \/ ~ total_overflows m l.
Proof. unfold total_overflows. destruct m; [|right; intros [? _]; discriminate]. destruct (N.leb_spec 65528 l); [auto|right; intros [_ ?]; lia]. Qed.
Theorem extensions_c_panic m b : bytes b -> (CSup_unmarshal m b = Panic <-> extensions_c_crashes m b).
Proof.
  intros B. unfold CSup_unmarshal, extensions_c_crashes. apply (msg_shape m b _ (fun l n => total_overflows m l \/ (total_fits l b /\ ((length b < n)%nat \/ ((n < length b)%nat /\ type_list_crashes m (skipn n b)))))).
  - intros h n Hh E Hn. rewrite E. change (31 =? SUPPORTED_EXTENSION_HEADERS_NOTIFICATION) with true. cbn [negb]. rewrite add16_total by (eapply c_len_max; eassumption). rewrite Hn. cbn [bind].
    assert (X : (if (n =? length b)%nat then Err MessageMandatoryIEMissing else let? t := at_ b n in if t =? EXTENSION_HEADER_TYPE_LIST then let? r := slice_from b n in
       match CEhtl_unmarshal m r with Ok i => Ok (mkCSup h i) | Err _ => Err MessageMandatoryIEMissing | Panic => Panic | Diverge => Diverge end else Err MessageInvalidMessageFormat) = Panic
       <-> (length b < n)%nat \/ ((n < length b)%nat /\ type_list_crashes m (skipn n b))).
    { destruct (Nat.eqb_spec n (length b)); [split; [discriminate|lia]|]. rewrite at_octet. destruct (Nat.ltb_spec n (length b)) as [K|K]; cbn [bind]; [|split; [lia|reflexivity]].
      assert (O : octet (skipn n b) 0 = octet b n) by apply octet_skipn.
      change EXTENSION_HEADER_TYPE_LIST with 141. destruct (N.eqb_spec (octet b n) 141) as [Q|Q].
      - rewrite slice_from_ok by lia. cbn [bind]. rewrite <- (ctl_panic m (skipn n b)); [|intros Z; apply (f_equal (@length N)) in Z; rewrite skipn_length in Z; cbn in Z; lia|congruence|apply bytes_skipn, B].
        destruct (CEhtl_unmarshal m (skipn n b)); (split; [intros P|intros [P|[_ P]]]); try discriminate; try lia; auto.
      - split; [discriminate|]. intros [P|[_ [P _]]]; [lia|congruence]. }
    rewrite X. pose proof (no_overflow_or m (c_length h)). tauto.
  - intros h E. destruct (N.eqb_spec (c_msgtype h) SUPPORTED_EXTENSION_HEADERS_NOTIFICATION); [contradiction|]. discriminate.
Qed.

(* --- GTP-U --- *)
Theorem plain_u_panic code m b : bytes b -> (Simple_unmarshal code m b = Panic <-> plain_u_crashes code m b).
Proof.
  intros B. unfold Simple_unmarshal, plain_u_crashes. apply (umsg_shape m b _ (fun l n => l < nlen b /\ private_crashes m (skipn n b))).
  - intros h n Hh E Hn Le. rewrite E, N.eqb_refl. cbn [negb]. unfold nlen. destruct (Nat.ltb_spec (N.to_nat (h_length h)) (length b)) as [K|K]; [|split; [discriminate|lia]].
    rewrite Hn. cbn [bind]. rewrite slice_from_ok by exact Le. cbn [bind]. rewrite bind_ok_panic, pe_same, cpe_panic by (apply bytes_skipn, B). split; [|tauto]. split; [lia|assumption].
  - intros h E. destruct (N.eqb_spec (msgtype h) code); [contradiction|discriminate].
Qed.
Theorem echo_response_u_panic m b : bytes b -> (EchoResponse_unmarshal m b = Panic <-> echo_response_u_crashes m b).
Proof.
  intros B. unfold EchoResponse_unmarshal, echo_response_u_crashes. apply (umsg_shape m b _ (fun l n => l + 4 < nlen b /\ (n + 2 < length b)%nat /\ octet b n = 14 /\ private_crashes m (skipn (n + 2) b))).
  - intros h n Hh E Hn Le. rewrite E. change (2 =? ECHO_RESPONSE) with true. cbn [negb]. unfold nlen. destruct (Nat.ltb_spec (N.to_nat (h_length h) + 4) (length b)) as [K|K]; [|split; [discriminate|lia]].
    rewrite Hn. cbn [bind]. destruct (Nat.ltb_spec n (length b)) as [K1|K1]; [|split; [discriminate|lia]]. rewrite at_octet. destruct (Nat.ltb_spec n (length b)); [|lia]. cbn [bind].
    change RECOVERY with 14. destruct (N.eqb_spec (octet b n) 14) as [Q|Q]; [|split; [discriminate|tauto]]. rewrite slice_from_ok by lia. cbn [bind].
    unfold Rec_unmarshal. rewrite skipn_length. destruct (Nat.ltb_spec 1 (length b - n)) as [K2|K2]; [|cbn [bind]; split; [discriminate|lia]].
    rewrite !at_octet, skipn_length. destruct (Nat.ltb_spec 0 (length b - n)); [|lia]. destruct (Nat.ltb_spec 1 (length b - n)); [|lia]. cbn [bind]. destruct (Nat.ltb_spec (n + 2) (length b)) as [K3|K3]; [|split; [discriminate|lia]].
    rewrite slice_from_ok by lia. cbn [bind]. rewrite bind_ok_panic, pe_same, cpe_panic by (apply bytes_skipn, B). split; [intros P|tauto]. split; [lia|auto].
  - intros h E. destruct (N.eqb_spec (msgtype h) ECHO_RESPONSE); [contradiction|discriminate].
Qed.
Theorem gpdu_panic m b : bytes b -> (Gpdu_unmarshal m b = Panic <-> gpdu_crashes m b).
Proof.
  intros B. unfold Gpdu_unmarshal, gpdu_crashes. apply (umsg_shape m b _ (fun l n => total_overflows m l \/ (total_fits l b /\ (l + 8) mod 65536 < N.of_nat n))).
  - intros h n Hh E Hn Le. rewrite E. change (255 =? GPDU) with true. cbn [negb]. rewrite add16_total by (eapply u_len_max; eassumption). rewrite Hn. cbn [bind].
    rewrite bind_ok_panic, slice_panic. pose proof (no_overflow_or m (h_length h)). unfold total_fits, nlen in *. intuition lia.
  - intros h E. destruct (N.eqb_spec (msgtype h) GPDU); [contradiction|discriminate].
Qed.
Theorem extensions_u_panic m b : bytes b -> (SupExtNotif_unmarshal m b = Panic <-> extensions_u_crashes m b).
Proof.
  intros B. unfold SupExtNotif_unmarshal, extensions_u_crashes. apply (umsg_shape m b _ (fun l n => total_overflows m l \/ (total_fits l b /\ (n < length b)%nat /\ type_list_crashes m (skipn n b)))).
  - intros h n Hh E Hn Le. rewrite E. change (31 =? SUPPORTED_EXTENSION_HEADERS_NOTIFICATION) with true. cbn [negb]. rewrite add16_total by (eapply u_len_max; eassumption). rewrite Hn. cbn [bind].
    assert (X : (if (n =? length b)%nat then Err MessageMandatoryIEMissing else let? t := at_ b n in if t =? EXTENSION_HEADER_TYPE_LIST then let? r := slice_from b n in
       match Ehtl_unmarshal m r with Ok i => Ok (mkSup h i) | Err _ => Err MessageMandatoryIEMissing | Panic => Panic | Diverge => Diverge end else Err MessageInvalidMessageFormat) = Panic
       <-> ((n < length b)%nat /\ type_list_crashes m (skipn n b))).
    { destruct (Nat.eqb_spec n (length b)); [split; [discriminate|lia]|]. rewrite at_octet. destruct (Nat.ltb_spec n (length b)) as [K|K]; cbn [bind]; [|lia].
      assert (O : octet (skipn n b) 0 = octet b n) by apply octet_skipn.
      change EXTENSION_HEADER_TYPE_LIST with 141. destruct (N.eqb_spec (octet b n) 141) as [Q|Q].
      - rewrite slice_from_ok by lia. cbn [bind]. rewrite <- (utl_panic m (skipn n b)); [|intros Z; apply (f_equal (@length N)) in Z; rewrite skipn_length in Z; cbn in Z; lia|congruence|apply bytes_skipn, B].
        destruct (Ehtl_unmarshal m (skipn n b)); (split; [intros P|intros [_ P]]); try discriminate; try lia; auto.
      - split; [discriminate|]. intros [_ [P _]]; congruence. }
    rewrite X. pose proof (no_overflow_or m (h_length h)). tauto.
  - intros h E. destruct (N.eqb_spec (msgtype h) SUPPORTED_EXTENSION_HEADERS_NOTIFICATION); [contradiction|]. discriminate.
Qed.
