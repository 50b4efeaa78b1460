(* PropsV1UErr.v - C95: what is wrong with the GTP-U packets that are refused, error by error, and
   which packets stop the program (builds with overflow checks). *)
From Verif Require Import BaseFacts V1USpec V1UFacts V1USafety V1USafety2 V1USafety3 V1UWireSpec V1UReadFacts V1UErrSpec V1UErrFacts.
From Coq Require Import Sorted.
Local Open Scope N_scope.

(* ----- the header ------------------------------------------------------------------------------- *)
Theorem C95_header : forall b, bytes b ->
  (forall e, hdr_unmarshal Debug b = Err e <-> header_refused b e) /\
  (hdr_unmarshal Debug b = Panic <-> header_crashes b) /\ hdr_unmarshal Debug b <> Diverge.
Proof.
  intros b Hb. destruct (header_total b) as [(h & r & H)|[(e' & H)|H]].
  - pose proof (header_is_ok Debug _ _ _ Hb H) as E. rewrite E. split; [|split; [|discriminate]]; split; try discriminate.
    + intros R. rewrite (header_refused_ok Debug _ _ Hb R) in E. discriminate.
    + intros R. rewrite (header_crashes_ok _ Hb R) in E. discriminate.
  - pose proof (header_refused_ok Debug _ _ Hb H) as E. split; [|split; [|rewrite E; discriminate]].
    + intros e. split; [intros E2; rewrite E in E2; injection E2 as <-; exact H|apply header_refused_ok, Hb].
    + split; [rewrite E; discriminate|apply header_crashes_ok, Hb].
  - pose proof (header_crashes_ok _ Hb H) as E. split; [|split; [|rewrite E; discriminate]].
    + intros e. split; [rewrite E; discriminate|apply header_refused_ok, Hb].
    + split; [intros _; exact H|apply header_crashes_ok, Hb].
Qed.
Print Assumptions C95_header.

(* The errors are the same in builds without overflow checks (where other packets may be refused
   too: C09). *)
Theorem C95_header_any_build : forall m b e, bytes b -> header_refused b e -> hdr_unmarshal m b = Err e.
Proof. exact header_refused_ok. Qed.
Print Assumptions C95_header_any_build.

(* ----- messages --------------------------------------------------------------------------------- *)
(* What is common to all messages: the packet is refused with the error [e] because of its header,
   because of its type, or for the reason [Q h r e], where [h] is its header and [r] what follows. *)
Definition refused_as (mt : N) (Q : Gtpv1Header -> list N -> GTPV1Error -> Prop) (b : list N) (e : GTPV1Error) : Prop :=
  header_refused b e \/
  exists h r, header_is b h r /\
    ((msgtype h <> mt /\ e = MessageIncorrectMessageType) \/ (msgtype h = mt /\ Q h r e)).
Definition crashes_as (mt : N) (Q : Gtpv1Header -> list N -> Prop) (b : list N) : Prop :=
  header_crashes b \/ exists h r, header_is b h r /\ msgtype h = mt /\ Q h r.

Lemma framed {A} mt (k : Gtpv1Header -> res A) Q C b : bytes b ->
  (forall h r, header_is b h r -> msgtype h = mt ->
     (forall e, k h = Err e <-> Q h r e) /\ (k h = Panic <-> C h r)) ->
  let d := let? h := hdr_unmarshal Debug b in if negb (msgtype h =? mt) then Err MessageIncorrectMessageType else k h in
  (forall e, d = Err e <-> refused_as mt Q b e) /\ (d = Panic <-> crashes_as mt C b).
Proof.
  intros Hb Hk d. subst d. destruct (C95_header b Hb) as (HE & HP & HD).
  destruct (hdr_unmarshal Debug b) as [h|e'| |] eqn:E; cbn [bind]; [|split; [intros e|]..|contradiction].
  - destruct (header_is_debug _ _ Hb E) as (r & Hr).
    assert (Hno : (forall e, ~ header_refused b e) /\ ~ header_crashes b).
    { split; [intros e R; apply HE in R; discriminate|intros R; apply HP in R; discriminate]. }
    destruct Hno as [No1 No2].
    assert (Hone : forall h' r', header_is b h' r' -> h' = h /\ r' = r) by (intros h' r' H'; eapply header_is_det; eassumption).
    destruct (N.eqb_spec (msgtype h) mt) as [Ht|Ht]; cbn [negb].
    + destruct (Hk h r Hr Ht) as [K1 K2]. split; [intros e|]; (split; [intros H; right; exists h, r|]).
      * split; [exact Hr|]. right. split; [exact Ht|]. apply K1, H.
      * intros [R|(h' & r' & H' & R)]; [exfalso; exact (No1 _ R)|]. destruct (Hone _ _ H') as [-> ->]. destruct R as [[R _]|[_ R]]; [contradiction|]. apply K1, R.
      * split; [exact Hr|]. split; [exact Ht|]. apply K2, H.
      * intros [R|(h' & r' & H' & R1 & R2)]; [contradiction|]. destruct (Hone _ _ H') as [-> ->]. apply K2, R2.
    + split; [intros e|]; (split; [intros H|]).
      * right. exists h, r. split; [exact Hr|]. left. split; [exact Ht|]. congruence.
      * intros [R|(h' & r' & H' & R)]; [exfalso; exact (No1 _ R)|]. destruct (Hone _ _ H') as [-> ->]. destruct R as [[_ ->]|[R _]]; [reflexivity|contradiction].
      * discriminate.
      * intros [R|(h' & r' & H' & R1 & R2)]; [contradiction|]. destruct (Hone _ _ H') as [-> ->]. contradiction.
  - split; [intros H; left; apply HE; congruence|]. intros [R|(h' & r' & H' & _)]; [apply HE in R; congruence|].
    rewrite (header_is_ok Debug _ _ _ Hb H') in E. discriminate.
  - split; [discriminate|]. intros [R|(h' & r' & H' & _)]; [apply HP in R; discriminate|]. rewrite (header_is_ok Debug _ _ _ Hb H') in E. discriminate.
  - split; [discriminate|]. intros [R|(h' & r' & H' & _)]; [apply HE in R; discriminate|]. rewrite (header_is_ok Debug _ _ _ Hb H') in E. discriminate.
  - split; [|reflexivity]. intros _. left. apply HP. reflexivity.
Qed.

(* A G-PDU: the packet is shorter than its length says. A length above 65527, or one that ends
   inside the header, stops the program. *)
Theorem C95_gpdu : forall b, bytes b ->
  (forall e, Gpdu_unmarshal Debug b = Err e <->
     refused_as 255 (fun h _ e => e = MessageLengthError /\ h_length h <= 65527 /\ nlen b < h_length h + 8) b e) /\
  (Gpdu_unmarshal Debug b = Panic <->
     crashes_as 255 (fun h r => 65527 < h_length h \/ (h_length h + 8 <= nlen b /\ h_length h + 8 + nlen r < nlen b)) b).
Proof.
  intros b Hb. unfold Gpdu_unmarshal. apply framed; [exact Hb|]. intros h r Hr Ht.
  destruct (header_is_rest Debug _ _ _ Hr) as (n & Hn & Hnb & Hsk). pose proof (f_equal (@length N) Hsk) as HL. rewrite skipn_length in HL.
  unfold add16, ov, nlen. destruct (N.ltb_spec (h_length h + 8) 65536); cbn [bind].
  - destruct (Nat.leb_spec (N.to_nat (h_length h + 8)) (length b)).
    + rewrite Hn. cbn [bind]. unfold slice. destruct (Nat.leb_spec n (N.to_nat (h_length h + 8))); cbn [andb].
      * destruct (Nat.leb_spec (N.to_nat (h_length h + 8)) (length b)); [|lia]. cbn [bind].
        split; [intros e|]; (split; [discriminate|]); [intros (_ & K); lia|lia].
      * cbn [bind]. split; [intros e; split; [discriminate|intros (_ & K); lia]|]. split; [lia|reflexivity].
    + split; [intros e; split; [intros K; injection K as <-; repeat split; lia|intros (-> & _); reflexivity]|]. split; [discriminate|lia].
  - split; [intros e; split; [discriminate|intros (_ & K); lia]|]. split; [lia|reflexivity].
Qed.
Print Assumptions C95_gpdu.

(* An Echo Request or End Marker: nothing after the header is ever refused. *)
Theorem C95_echo_request_end_marker : forall mt b, bytes b ->
  (forall e, Simple_unmarshal mt Debug b = Err e <-> refused_as mt (fun _ _ _ => False) b e) /\
  (Simple_unmarshal mt Debug b = Panic <-> crashes_as mt (fun h r => h_length h < nlen b /\ private_crashes r) b).
Proof.
  intros mt b Hb. unfold Simple_unmarshal. apply framed; [exact Hb|]. intros h r Hr Ht.
  destruct (header_is_rest Debug _ _ _ Hr) as (n & Hn & Hnb & Hsk). unfold nlen.
  destruct (Nat.ltb_spec (N.to_nat (h_length h)) (length b)).
  - rewrite Hn. cbn [bind]. rewrite slice_from_ok by exact Hnb. cbn [bind]. rewrite Hsk.
    destruct (private_total r) as [(x & Hx)|[Hx|Hx]].
    + pose proof (pe_is Debug r x Hx) as E. rewrite E. cbn [optional bind]. split; [intros e; split; [discriminate|tauto]|]. split; [discriminate|].
      intros [_ K]. apply pe_crash_ok in K. congruence.
    + destruct (pe_none_ok r Hx) as (x & E). rewrite E. cbn [optional bind]. split; [intros e; split; [discriminate|tauto]|]. split; [discriminate|].
      intros [_ K]. apply pe_crash_ok in K. congruence.
    + rewrite (pe_crash_ok r Hx). cbn [optional bind]. split; [intros e; split; [discriminate|tauto]|]. split; [intros _; split; [lia|exact Hx]|reflexivity].
  - split; [intros e; split; [discriminate|tauto]|]. split; [discriminate|lia].
Qed.
Print Assumptions C95_echo_request_end_marker.

(* An Echo Response: too short for its length, no Recovery after the header, or a Recovery without
   its value. *)
Theorem C95_echo_response : forall b, bytes b ->
  (forall e, EchoResponse_unmarshal Debug b = Err e <->
     refused_as 2 (fun h r e =>
       (e = MessageLengthError /\ nlen b <= h_length h + 4) \/
       (h_length h + 4 < nlen b /\
         ((e = MessageMandatoryIEMissing /\ hd 0 r <> 14) \/ (e = IEInvalidLength /\ r = [14])))) b e) /\
  (EchoResponse_unmarshal Debug b = Panic <->
     crashes_as 2 (fun h r => h_length h + 4 < nlen b /\ exists v q, r = 14 :: v :: q /\ private_crashes q) b).
Proof.
  intros b Hb. unfold EchoResponse_unmarshal. apply framed; [exact Hb|]. intros h r Hr Ht.
  destruct (header_is_rest Debug _ _ _ Hr) as (n & Hn & Hnb & Hsk). pose proof (f_equal (@length N) Hsk) as HL. rewrite skipn_length in HL. unfold nlen.
  destruct (Nat.ltb_spec (N.to_nat (h_length h) + 4) (length b)).
  2: { split; [intros e; split; [intros K; injection K as <-; left; split; [reflexivity|lia]|intros [(-> & _)|K]; [reflexivity|lia]]|].
       split; [discriminate|lia]. }
  rewrite Hn. cbn [bind]. destruct r as [|y r]; cbn [length] in HL.
  { destruct (Nat.ltb_spec n (length b)); [lia|]. cbn [hd].
    split; [intros e; split; [intros K; injection K as <-; right; split; [lia|]; left; split; [reflexivity|discriminate]|]|].
    - intros [(_ & K)|(_ & [(-> & _)|(_ & K)])]; [lia|reflexivity|discriminate].
    - split; [discriminate|]. intros (_ & v & q & K & _). discriminate. }
  destruct (Nat.ltb_spec n (length b)); [|lia].
  assert (Hat : @at_ GTPV1Error b n = Ok y).
  { rewrite <- (firstn_skipn n b), Hsk. unfold at_. rewrite nth_error_app2 by (rewrite firstn_length; lia).
    rewrite firstn_length, Nat.min_l, Nat.sub_diag by lia. reflexivity. }
  rewrite Hat. cbn [bind hd]. unfold RECOVERY. destruct (N.eqb_spec y 14) as [->|Hy].
  2: { split; [intros e; split; [intros K; injection K as <-; right; split; [lia|]; left; split; [reflexivity|exact Hy]|]|].
       - intros [(_ & K)|(_ & [(-> & _)|(_ & K)])]; [lia|reflexivity|congruence].
       - split; [discriminate|]. intros (_ & v & q & K & _). congruence. }
  rewrite slice_from_ok by exact Hnb. cbn [bind]. rewrite Hsk. destruct r as [|v q].
  { change (Rec_unmarshal [14]) with (@Err GTPV1Error Recovery IEInvalidLength). cbn [bind].
    split; [intros e; split; [intros K; injection K as <-; right; split; [lia|]; right; split; reflexivity|]|].
    - intros [(_ & K)|(_ & [(_ & K)|(-> & _)])]; [lia|congruence|reflexivity].
    - split; [discriminate|]. intros (_ & v & q & K & _). discriminate. }
  change (Rec_unmarshal (14 :: v :: q)) with (@Ok GTPV1Error _ (mkRec 14 v)). cbn [bind].
  assert (HN : forall e, ~ ((e = MessageLengthError /\ N.of_nat (length b) <= h_length h + 4) \/
       (h_length h + 4 < N.of_nat (length b) /\ ((e = MessageMandatoryIEMissing /\ 14 <> 14) \/ (e = IEInvalidLength /\ 14 :: v :: q = [14]))))).
  { intros e [(_ & K)|(_ & [(_ & K)|(_ & K)])]; [lia|congruence|discriminate]. }
  cbn [length] in HL. destruct (Nat.ltb_spec (n + 2) (length b)).
  - rewrite slice_from_ok by lia. cbn [bind]. rewrite skipn_add, Hsk. cbn [skipn].
    destruct (private_total q) as [(x & Hx)|[Hx|Hx]].
    + pose proof (pe_is Debug q x Hx) as E. rewrite E. cbn [optional bind]. split; [intros e; split; [discriminate|intros K; exfalso; exact (HN e K)]|]. split; [discriminate|].
      intros (_ & v' & q' & K & C). injection K as <- <-. apply pe_crash_ok in C. congruence.
    + destruct (pe_none_ok q Hx) as (x & E). rewrite E. cbn [optional bind]. split; [intros e; split; [discriminate|intros K; exfalso; exact (HN e K)]|]. split; [discriminate|].
      intros (_ & v' & q' & K & C). injection K as <- <-. apply pe_crash_ok in C. congruence.
    + rewrite (pe_crash_ok q Hx). cbn [optional bind]. split; [intros e; split; [discriminate|intros K; exfalso; exact (HN e K)]|].
      split; [intros _; split; [lia|eauto]|reflexivity].
  - destruct q; [|cbn [length] in HL; lia]. split; [intros e; split; [discriminate|intros K; exfalso; exact (HN e K)]|]. split; [discriminate|].
    intros (_ & v' & q' & K & C). injection K as <- <-. destruct C.
Qed.
Print Assumptions C95_echo_response.

(* A Supported Extension Headers Notification: nothing after the header, something else than the
   type list, or a list that is empty or cut short. A list of 254 or 255, or without its length,
   stops the program. *)
Theorem C95_supported_extension_headers : forall b, bytes b ->
  (forall e, SupExtNotif_unmarshal Debug b = Err e <->
     refused_as 31 (fun h r e => h_length h <= 65527 /\
       ((e = MessageLengthError /\ nlen b < h_length h + 8) \/
        (h_length h + 8 <= nlen b /\
          ((e = MessageMandatoryIEMissing /\ (r = [] \/ exists k l, r = 141 :: k :: l /\ k <= 253 /\ (k = 0 \/ nlen l < k))) \/
           (e = MessageInvalidMessageFormat /\ exists t l, r = t :: l /\ t <> 141))))) b e) /\
  (SupExtNotif_unmarshal Debug b = Panic <->
     crashes_as 31 (fun h r => 65527 < h_length h \/
       (h_length h + 8 <= nlen b /\ (r = [141] \/ exists k l, r = 141 :: k :: l /\ 254 <= k))) b).
Proof.
  intros b Hb. unfold SupExtNotif_unmarshal. apply framed; [exact Hb|]. intros h r Hr Ht.
  destruct (header_is_rest Debug _ _ _ Hr) as (n & Hn & Hnb & Hsk). pose proof (f_equal (@length N) Hsk) as HL. rewrite skipn_length in HL. unfold nlen.
  unfold add16, ov. destruct (N.ltb_spec (h_length h + 8) 65536); cbn [bind].
  2: { split; [intros e; split; [discriminate|intros (K & _); lia]|]. split; [lia|reflexivity]. }
  destruct (Nat.leb_spec (N.to_nat (h_length h + 8)) (length b)).
  2: { split; [intros e; split; [intros K; injection K as <-; split; [lia|]; left; split; [reflexivity|lia]|intros (_ & [(-> & _)|K]); [reflexivity|lia]]|].
       split; [discriminate|lia]. }
  rewrite Hn. cbn [bind]. destruct r as [|y r]; cbn [length] in HL.
  { destruct (Nat.eqb_spec n (length b)) as [_|]; [|lia].
    split; [intros e; split; [intros K; injection K as <-; split; [lia|]; right; split; [lia|]; left; split; [reflexivity|left; reflexivity]|]|].
    - intros (_ & [(_ & K)|(_ & [(-> & _)|(_ & t & l & K & _)])]); [lia|reflexivity|discriminate].
    - split; [discriminate|]. intros [K|(_ & [K|(k & l & K & _)])]; [lia|discriminate..]. }
  destruct (Nat.eqb_spec n (length b)); [lia|].
  assert (Hat : @at_ GTPV1Error b n = Ok y).
  { rewrite <- (firstn_skipn n b), Hsk. unfold at_. rewrite nth_error_app2 by (rewrite firstn_length; lia).
    rewrite firstn_length, Nat.min_l, Nat.sub_diag by lia. reflexivity. }
  rewrite Hat. cbn [bind]. unfold EXTENSION_HEADER_TYPE_LIST. destruct (N.eqb_spec y 141) as [->|Hy].
  2: { split; [intros e; split; [intros K; injection K as <-; split; [lia|]; right; split; [lia|]; right; split; [reflexivity|eauto]|]|].
       - intros (_ & [(_ & K)|(_ & [(_ & [K|(k & l & K & _)])|(-> & _)])]); [lia|discriminate|congruence|reflexivity].
       - split; [discriminate|]. intros [K|(_ & [K|(k & l & K & _)])]; [lia|congruence..]. }
  rewrite slice_from_ok by exact Hnb. cbn [bind]. rewrite Hsk. unfold Ehtl_unmarshal. destruct r as [|k l].
  { unfold at_. cbn [nth_error bind]. split; [intros e; split; [discriminate|]|].
    - intros (_ & [(_ & K)|(_ & [(_ & [K|(k & l & K & _)])|(_ & t & l & K & Kt)])]); [lia|discriminate..|]. injection K as <- _. congruence.
    - split; [intros _; right; split; [lia|left; reflexivity]|reflexivity]. }
  unfold at_. cbn [nth_error bind]. unfold add8, ov. destruct (N.eqb_spec k 0) as [->|Hk].
  { split; [intros e; split; [intros K; injection K as <-; split; [lia|]; right; split; [lia|]; left; split; [reflexivity|]; right; exists 0, l; repeat split; auto; lia|]|].
    - intros (_ & [(_ & K)|(_ & [(-> & _)|(_ & t & q & K & Kt)])]); [lia|reflexivity|]. injection K as <- _. congruence.
    - split; [discriminate|]. intros [K|(_ & [K|(k & q & K & Kl)])]; [lia|discriminate|]. injection K as <- _. lia. }
  destruct (N.ltb_spec (k + 2) 256) as [Hk2|Hk2]; cbn [bind].
  2: { split; [intros e; split; [discriminate|]|].
       - intros (_ & [(_ & K)|(_ & [(_ & [K|(k' & q & K & K1 & K2)])|(_ & t & q & K & Kt)])]); [lia|discriminate|injection K as <- <-; lia|injection K as <- _; congruence].
       - split; [intros _; right; split; [lia|]; right; exists k, l; split; [reflexivity|lia]|reflexivity]. }
  destruct (Nat.leb_spec (N.to_nat (k + 2)) (length (141 :: k :: l))) as [Hkl|Hkl]; cbn [length] in Hkl.
  - rewrite slice_from_ok by (cbn [length]; lia). cbn [bind]. split; [intros e; split; [discriminate|]|].
    + intros (_ & [(_ & K)|(_ & [(_ & [K|(k' & q & K & K1 & K2)])|(_ & t & q & K & Kt)])]); [lia|discriminate|injection K as <- <-; lia|injection K as <- _; congruence].
    + split; [discriminate|]. intros [K|(_ & [K|(k' & q & K & Kl)])]; [lia|discriminate|]. injection K as <- _. lia.
  - split; [intros e; split; [intros K; injection K as <-; split; [lia|]; right; split; [lia|]; left; split; [reflexivity|]; right; exists k, l; repeat split; [lia|right; lia]|]|].
    + intros (_ & [(_ & K)|(_ & [(-> & _)|(_ & t & q & K & Kt)])]); [lia|reflexivity|]. injection K as <- _. congruence.
    + split; [discriminate|]. intros [K|(_ & [K|(k' & q & K & Kl)])]; [lia|discriminate|]. injection K as <- _. lia.
Qed.
Print Assumptions C95_supported_extension_headers.

(* An Error Indication: too short for its length; after the header some elements in order and then
   octets that are no next element ([stops] tells the error for what), or all elements good but no
   TEID or no address among them. *)
Theorem C95_error_indication : forall b, bytes b ->
  (forall e, ErrorIndication_unmarshal Debug b = Err e <->
     refused_as 26 (fun h r e => h_length h <= 65527 /\
       ((e = MessageLengthError /\ nlen b < h_length h + 8) \/
        (h_length h + 8 <= nlen b /\ exists l q, starts r l q /\ walked l /\
          (stops l q (Some e) \/
           (q = [] /\ e = MessageMandatoryIEMissing /\ (teids l = [] \/ gsns l = [])))))) b e) /\
  (ErrorIndication_unmarshal Debug b = Panic <->
     crashes_as 26 (fun h r => 65527 < h_length h \/
       (h_length h + 8 <= nlen b /\ exists l q, starts r l q /\ walked l /\ stops l q None)) b).
Proof.
  intros b Hb. unfold ErrorIndication_unmarshal. apply framed; [exact Hb|]. intros h r Hr Ht.
  destruct (header_is_rest Debug _ _ _ Hr) as (n & Hn & Hnb & Hsk). pose proof (f_equal (@length N) Hsk) as HL. rewrite skipn_length in HL. unfold nlen.
  unfold add16, ov. destruct (N.ltb_spec (h_length h + 8) 65536); cbn [bind].
  2: { split; [intros e; split; [discriminate|intros (K & _); lia]|]. split; [lia|reflexivity]. }
  destruct (Nat.leb_spec (N.to_nat (h_length h + 8)) (length b)).
  2: { split; [intros e; split; [intros K; injection K as <-; split; [lia|]; left; split; [reflexivity|lia]|intros (_ & [(-> & _)|(K & _)]); [reflexivity|lia]]|].
       split; [discriminate|]. intros [K|(K & _)]; lia. }
  rewrite Hn. cbn [bind]. set (s := mkEi n 0 None None None teid_default gsn_default None).
  assert (Hbr : bytes r) by (rewrite <- Hsk; apply bytes_skipn; exact Hb).
  assert (Hzero : forall t, counter s t = 0%nat) by (intros t; unfold counter, s; cbn [c_teid c_gsn c_pe cnt]; destruct (t =? 16), (t =? 133), (t =? 255); reflexivity).
  (* what happens at an element that is not good *)
  assert (S1 : forall l q o, starts r l q -> walked l -> stops l q o ->
    ei_loop Debug (S (length b)) b s = match o with Some e => Err e | None => Panic end).
  { intros l q o Hst [W1 W2] Ho. rewrite <- (firstn_skipn n b) at 2. rewrite Hsk.
    assert (Hs0 : StronglySorted N.le (ei_increment s :: map ucode l)) by (constructor; [exact W1|apply Forall_forall; cbn [ei_increment s]; lia]).
    destruct (ei_walk r l q Hst (S (length b)) (firstn n b) s) as (fuel & pre & s' & -> & A1 & A2 & A3 & A4).
    - rewrite firstn_length. cbn [ei_cursor s]. lia.
    - lia.
    - exact Hs0.
    - intros t. rewrite Hzero. apply W2.
    - destruct fuel as [|fuel]; [lia|]. apply (ei_stop l q o); [exact Ho|exact A1| |].
      + intros t. rewrite A3, (latest_order l t _ Hs0). cbn [ei_increment s]. split; [intros [_ K]; exact K|intros K; split; [lia|exact K]].
      + intros t. rewrite A4, Hzero. reflexivity. }
  (* what happens when all are good *)
  assert (Hcount : forall l, walked l -> (length (teids l) <= 255 /\ length (gsns l) <= 255 /\ length (pes l) <= 255)%nat).
  { intros l [_ W].
    assert (E : length (teids l) = same 16 l /\ length (gsns l) = same 133 l /\ length (pes l) = same 255 l).
    { clear. induction l as [|[x|x|x] l (I1 & I2 & I3)]; [repeat split; reflexivity|..]; cbn [teids gsns pes flat_map app length ucode];
        fold (teids l) (gsns l) (pes l); rewrite !same_cons; cbn [length ucode]; rewrite I1, I2, I3; repeat split; reflexivity. }
    destruct E as (-> & -> & ->). repeat split; apply W. }
  assert (S2 : forall l, starts r l [] -> walked l -> exists s', ei_loop Debug (S (length b)) b s = Ok s' /\ after s l s').
  { intros l Hst W. apply starts_carries in Hst. destruct (Hcount l W) as (K1 & K2 & K3). destruct W as [W1 _].
    destruct (ei_loop_carries Debug r l Hst (S (length b)) (firstn n b) s) as (s' & Es & A);
      cbn [ei_cursor ei_increment c_teid c_gsn c_pe s]; unfold count_of; cbn [cnt]; try lia; try assumption.
    - rewrite firstn_length. lia.
    - apply Forall_forall. intros; lia.
    - exists s'. rewrite <- Hsk, firstn_skipn in Es. auto. }
  destruct (walk_total (length r) r [] (le_n _) Hbr) as (l & q & Hst & W & D); [split; [constructor|intros t; cbn; lia]|]. cbn [app] in W, D.
  assert (X1 : forall e, (exists l q, starts r l q /\ walked l /\ (stops l q (Some e) \/ (q = [] /\ e = MessageMandatoryIEMissing /\ (teids l = [] \/ gsns l = [])))) ->
    (let? s := ei_loop Debug (S (length b)) b s in
      if is_some (c_teid s) && is_some (c_gsn s) then Ok (mkErrInd h (s_teid s) (s_gsn s) (s_pe s)) else Err MessageMandatoryIEMissing) = Err e).
  { intros e (l' & q' & H1 & H2 & [H3|(-> & -> & H3)]); [rewrite (S1 l' q' _ H1 H2 H3); reflexivity|].
    destruct (S2 l' H1 H2) as (s' & -> & A1 & A2 & _). cbn [bind]. rewrite A1, A2. cbn [c_teid c_gsn s is_some orb].
    destruct H3 as [-> | ->]; [reflexivity|]. rewrite andb_false_r. reflexivity. }
  assert (X2 : (exists l q, starts r l q /\ walked l /\ stops l q None) ->
    (let? s := ei_loop Debug (S (length b)) b s in
      if is_some (c_teid s) && is_some (c_gsn s) then Ok (mkErrInd h (s_teid s) (s_gsn s) (s_pe s)) else Err MessageMandatoryIEMissing) = Panic).
  { intros (l' & q' & H1 & H2 & H3). rewrite (S1 l' q' _ H1 H2 H3). reflexivity. }
  split; [intros e; split|split].
  - intros E. split; [lia|]. right. split; [lia|]. exists l, q. split; [exact Hst|]. split; [exact W|].
    destruct D as [-> |([e'|] & D)].
    + right. destruct (S2 l Hst W) as (s' & Es & A1 & A2 & _). rewrite Es in E. cbn [bind] in E. rewrite A1, A2 in E. cbn [c_teid c_gsn s is_some orb] in E.
      destruct (teids l); [|destruct (gsns l); [|discriminate]]; cbn [negb andb] in E; injection E as <-; auto.
    + left. rewrite (S1 l q _ Hst W D) in E. injection E as <-. exact D.
    + rewrite (S1 l q _ Hst W D) in E. discriminate.
  - intros (_ & [(_ & K)|(_ & K)]); [lia|]. apply X1, K.
  - intros E. right. split; [lia|]. exists l, q. split; [exact Hst|]. split; [exact W|].
    destruct D as [-> |([e'|] & D)].
    + destruct (S2 l Hst W) as (s' & Es & _). rewrite Es in E. cbn [bind] in E. destruct (is_some _ && is_some _); discriminate.
    + rewrite (S1 l q _ Hst W D) in E. discriminate.
    + exact D.
  - intros [K|(_ & K)]; [lia|]. apply X2, K.
Qed.
Print Assumptions C95_error_indication.

(* Every packet is one of the three: a message, refused, or one that stops the program. *)
Theorem C95_no_other_outcome : forall b, bytes b ->
  Gpdu_unmarshal Debug b <> Diverge /\ (forall mt, Simple_unmarshal mt Debug b <> Diverge) /\
  EchoResponse_unmarshal Debug b <> Diverge /\ SupExtNotif_unmarshal Debug b <> Diverge /\
  ErrorIndication_unmarshal Debug b <> Diverge.
Proof.
  intros b Hb. destruct (C95_header b Hb) as (_ & _ & HD).
  unfold Gpdu_unmarshal, Simple_unmarshal, EchoResponse_unmarshal, SupExtNotif_unmarshal, ErrorIndication_unmarshal.
  destruct (hdr_unmarshal Debug b) as [h|e| |] eqn:E; cbn [bind]; [|repeat split; intros; discriminate..|contradiction].
  destruct (header_is_debug _ _ Hb E) as (r & Hr). destruct (header_is_rest Debug _ _ _ Hr) as (n & Hn & Hnb & Hsk). rewrite Hn. cbn [bind].
  rewrite slice_from_ok by exact Hnb. cbn [bind]. rewrite Hsk.
  assert (Hopt : forall q, optional (Pe_unmarshal Debug q) <> Diverge).
  { intros q. destruct (private_total q) as [(x & Hx)|[Hx|Hx]].
    - rewrite (pe_is Debug q x Hx). discriminate.
    - destruct (pe_none_ok q Hx) as (x & ->). discriminate.
    - rewrite (pe_crash_ok q Hx). discriminate. }
  assert (Hopt' : forall A q (k : option PrivateExtension -> A), (let? p := optional (Pe_unmarshal Debug q) in @Ok GTPV1Error A (k p)) <> Diverge).
  { intros A q k. specialize (Hopt q). destruct (optional _); cbn [bind]; congruence. }
  unfold add16, ov.
  split; [|split; [|split; [|split]]].
  - destruct (negb _); [discriminate|]. destruct (_ <? _); [|discriminate]. cbn [bind]. destruct (Nat.leb _ _); [|discriminate]. unfold slice.
    destruct (_ && _); discriminate.
  - intros mt. destruct (negb _); [discriminate|]. destruct (Nat.ltb _ _); [|discriminate]. apply Hopt'.
  - destruct (negb _); [discriminate|]. destruct (Nat.ltb _ _); [|discriminate]. destruct (Nat.ltb n (length b)); [|discriminate].
    unfold at_. destruct (nth_error b n); [|discriminate]. cbn [bind]. destruct (_ =? _); [|discriminate].
    unfold Rec_unmarshal. destruct (Nat.ltb 1 (length r)); [|discriminate]. unfold at_. destruct (nth_error r 0); [|discriminate]. cbn [bind].
    destruct (nth_error r 1); [|discriminate]. cbn [bind]. destruct (Nat.ltb_spec (n + 2) (length b)); [|discriminate].
    rewrite slice_from_ok by lia. cbn [bind]. apply Hopt'.
  - destruct (negb _); [discriminate|]. destruct (h_length h + 8 <? 65536); [|discriminate]. cbn [bind]. destruct (Nat.leb _ _); [|discriminate].
    destruct (Nat.eqb _ _); [discriminate|]. unfold at_. destruct (nth_error b n); [|discriminate]. cbn [bind]. destruct (_ =? _); [|discriminate].
    unfold Ehtl_unmarshal, at_. destruct (nth_error r 1); [|discriminate]. cbn [bind]. destruct (_ =? _); [discriminate|]. unfold add8, ov.
    destruct (_ <? _); [|discriminate]. cbn [bind]. destruct (Nat.leb _ _); [|discriminate]. unfold slice_from. destruct (Nat.leb _ _); discriminate.
  - destruct (negb _); [discriminate|]. destruct (_ <? _); [|discriminate]. cbn [bind]. destruct (Nat.leb _ _); [|discriminate].
    pose proof (ei_loop_debug_terminates b (S (length b)) (mkEi n 0 None None None teid_default gsn_default None)) as T.
    cbn [ei_cursor] in T. specialize (T ltac:(lia) ltac:(lia)).
    destruct (ei_loop _ _ _ _); cbn [bind]; [|discriminate..|contradiction]. destruct (_ && _); discriminate.
Qed.
Print Assumptions C95_no_other_outcome.

Example C95_case :
  (* version 2 *)
  header_refused [80; 255; 0; 1; 0; 0; 0; 7; 9] HeaderVersionNotSupported /\
  (* a second extension header that the packet cuts short *)
  header_refused [52; 255; 0; 9; 0; 0; 0; 7; 0; 0; 0; 64; 1; 8; 104; 133; 2; 0; 0] ExtHeaderInvalidLength /\
  (* an extension header of 64 units *)
  header_crashes [52; 255; 0; 9; 0; 0; 0; 7; 0; 0; 0; 133; 64; 0; 0] /\
  (* an Error Indication whose address has eight octets *)
  refused_as 26 (fun h r e => h_length h <= 65527 /\ exists l q, starts r l q /\ walked l /\ stops l q (Some e))
    [48; 26; 0; 16; 0; 0; 0; 7; 16; 0; 0; 1; 2; 133; 0; 8; 1; 2; 3; 4; 5; 6; 7; 8] MessageMandatoryIEMissing /\
  ErrorIndication_unmarshal Debug [48; 26; 0; 16; 0; 0; 0; 7; 16; 0; 0; 1; 2; 133; 0; 8; 1; 2; 3; 4; 5; 6; 7; 8] = Err MessageMandatoryIEMissing.
Proof.
  split; [|split; [|split; [|split; [|reflexivity]]]].
  - apply refused_version; [vm_compute; discriminate|]. intros [K _]. discriminate.
  - apply refused_extensions; [split; reflexivity|discriminate|reflexivity|].
    apply (refused_later_ext 64 1 [8; 104] [133; 2; 0; 0]); [discriminate|lia|reflexivity|]. apply refused_cut_ext; [discriminate|lia|vm_compute; reflexivity].
  - apply crash_extensions; [split; reflexivity|discriminate|reflexivity|]. apply crash_long_ext; [discriminate|lia].
  - right. eexists _, _. split; [apply header_short; reflexivity || discriminate|]. right. split; [reflexivity|]. split; [cbn; lia|].
    exists [UT (mkTeid 16 258)], [133; 0; 8; 1; 2; 3; 4; 5; 6; 7; 8].
    split; [econstructor; [apply (el_teid 0 0 1 2)|constructor]|]. split; [split; [repeat constructor|]|].
    + intros t. unfold same. cbn [filter]. destruct (_ =? t); cbn; lia.
    + apply stop_gsn; [repeat constructor; cbn; lia|]. cbn. right. split; [lia|]. right. lia.
Qed.
