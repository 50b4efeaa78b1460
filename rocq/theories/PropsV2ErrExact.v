(* PropsV2ErrExact.v - C97: for which GTPv2-C packets each error is returned. The specification is V2ErrSpec.v. *)
From Coq Require Import String.
From Verif Require Import BaseFacts V2Base V2Decoder V2Msg V2MsgTables V2MsgLayouts V2ReadSpec V2ReadFacts V2ListSpec V2ListFacts V2MsgSpec V2MsgReadSpec V2MsgThms V2MsgReadFacts V2ErrSpec V2ErrFacts V2ErrLoop.
From Verif Require ModeFacts V2ModeFacts PropsV2Hang.
Import ListNotations.
Local Open Scope N_scope.

(* the errors for a header that cannot be read, and those for an element that cannot be read *)
Definition header_errors : list GTPV2Error := [MessageInvalidLength 0; HeaderVersionNotSupported; HeaderInvalidLength].
Definition element_error (e : GTPV2Error) : Prop := exists t, e = IEInvalidLength t \/ e = IEIncorrect t.

Lemma reported_error t e : reported t e -> element_error e.
Proof.
  unfold reported, names, element_error. destruct (t =? 115); [intros ->; eauto|]. destruct (t =? 169); [intros [->| ->]; eauto|].
  destruct (t =? 86); [intros [[->| ->]| ->]; eauto|]. intros [[->| ->]|[_ ->]]; eauto.
Qed.
Lemma stops_error s e : stops_with s e -> element_error e.
Proof. intros H. induction H as [s x n e HH HS IH|t q e HN R|t a b c q x f e K F S IH]; [exact IH|exact (reported_error _ _ R)|exact IH]. Qed.
Lemma header_error b e : header_reports b e -> In e header_errors.
Proof. intros H. inversion H; subst; cbn; auto. Qed.

Section Exact.
Variables (d : message_def) (L : layout) (b : list N).
Hypothesis (HI : In (d, L) gtpv2_messages) (Hb : bytes b).

Lemma by_header e : header_reports b e -> msg_unmarshal d Debug b = Err e.
Proof. intros H. apply header_reports_iff in H. unfold msg_unmarshal. rewrite H. reflexivity. Qed.
Lemma by_type h : header_says b h -> h2_msgtype h <> md_type d -> msg_unmarshal d Debug b = Err MessageIncorrectMessageType.
Proof. intros H T. apply header_says_iff in H. unfold msg_unmarshal. rewrite H. cbn [bind]. apply N.eqb_neq in T. rewrite T. reflexivity. Qed.
Lemma by_start h : md_name d <> "VersionNotSupported"%string -> header_says b h -> h2_msgtype h = md_type d ->
  msg_unmarshal d Debug b =
    (let offset := (N.to_nat (h2_length h) + 4)%nat in
     if (offset <=? length b)%nat then
       let? body := slice b (elements_from (md_name d)) offset in let? l := decoder Debug body in let? x := fromvec d l in Ok (mkMsg h x)
     else Err MessageInvalidMessageFormat).
Proof.
  intros NV H T. pose proof starts_from as S. rewrite forallb_forall in S. specialize (S _ HI). cbn [fst snd] in S.
  apply header_says_iff in H. unfold msg_unmarshal. rewrite H. cbn [bind]. rewrite T, N.eqb_refl. cbn [negb].
  destruct (md_start d) as [s|] eqn:Es.
  - apply andb_true_iff in S. destruct S as [S1 S2]. apply Nat.eqb_eq in S1. subst s. reflexivity.
  - apply andb_true_iff in S. destruct S as [S1 S2]. apply String.eqb_eq in S1. contradiction.
Qed.
Lemma by_octets h : md_name d <> "VersionNotSupported"%string -> header_says b h -> h2_msgtype h = md_type d -> nlen b < h2_length h + 4 ->
  msg_unmarshal d Debug b = Err MessageInvalidMessageFormat.
Proof.
  intros NV H T Q. rewrite (by_start h NV H T). cbv zeta. unfold nlen in Q.
  destruct (Nat.leb_spec (N.to_nat (h2_length h) + 4) (length b)); [lia|reflexivity].
Qed.
Lemma by_elements h s : md_name d <> "VersionNotSupported"%string -> header_says b h -> h2_msgtype h = md_type d -> element_octets (md_name d) b h s ->
  bytes s /\ msg_unmarshal d Debug b = (let? l := decoder Debug s in let? x := fromvec d l in Ok (mkMsg h x)).
Proof.
  intros NV H T Q. rewrite (by_start h NV H T). cbv zeta. apply element_octets_iff in Q as [[Q1 Q2] ->]. split; [apply bytes_part; exact Hb|].
  unfold slice. rewrite (proj2 (Nat.leb_le _ _) Q1), (proj2 (Nat.leb_le _ _) Q2). reflexivity.
Qed.
Lemma by_missing h s l f : md_name d <> "VersionNotSupported"%string -> md_name d <> "IdentificationResponse"%string ->
  header_says b h -> h2_msgtype h = md_type d -> element_octets (md_name d) b h s -> octets_say s l -> In f L -> missing f l ->
  exists t, msg_unmarshal d Debug b = Err (MessageMandatoryIEMissing t).
Proof.
  intros NV NI H T Q S F M. destruct (by_elements h s NV H T Q) as [Bs E]. rewrite E. pose proof S as S'. apply decoder_iff in S'; [|exact Bs]. rewrite S'. cbn [bind].
  assert (UN : ~ In (md_name d) unenforced) by (intros [C|[]]; congruence).
  destruct (fromvec d l) as [x|e| |] eqn:Fx; cbn [bind].
  - exfalso. exact (proj1 (fromvec_ok_iff d L (mk_good d L HI) (mk_flags d L HI) (mk_enforces d L HI UN) l) (ex_intro _ x Fx) f F M).
  - destruct (fromvec_err d L (mk_good d L HI) (mk_flags d L HI) (mk_enforces d L HI UN) l e Fx) as (c & -> & _). exists c. reflexivity.
  - exfalso. unfold fromvec in Fx. destruct (decide _ _); discriminate.
  - exfalso. unfold fromvec in Fx. destruct (decide _ _); discriminate.
Qed.
Lemma by_stop h s e0 : md_name d <> "VersionNotSupported"%string -> header_says b h -> h2_msgtype h = md_type d -> element_octets (md_name d) b h s ->
  stops_with s e0 -> msg_unmarshal d Debug b <> Panic -> msg_unmarshal d Debug b <> Diverge ->
  exists e, stops_with s e /\ msg_unmarshal d Debug b = Err e.
Proof.
  intros NV H T Q S NP ND. destruct (by_elements h s NV H T Q) as [Bs E]. rewrite E in *.
  destruct (decoder Debug s) as [l|e| |] eqn:D; cbn [bind] in *; try contradiction.
  - exfalso. apply decoder_iff in D; [|exact Bs]. exact (stops_no_elements s e0 S Bs l D).
  - exists e. split; [|reflexivity]. exact (decoder_stops s e Bs D).
Qed.
End Exact.

(* every error that a message decoder returns is of one of five sorts *)
Theorem C97_sorts d L b e : In (d, L) gtpv2_messages -> bytes b -> msg_unmarshal d Debug b = Err e ->
  In e header_errors \/ e = MessageIncorrectMessageType \/ e = MessageInvalidMessageFormat \/ element_error e \/ exists t, e = MessageMandatoryIEMissing t.
Proof.
  intros HI Hb U. destruct (message_refused d L b e HI Hb U) as [e R|h Gh Gt|h NV Gh Gt Go|h s e NV Gh Gt Go Gs|h s l f t NV NI Gh Gt Go Gs Gf Gm Gc]; eauto 6 using header_error, stops_error.
Qed.
Print Assumptions C97_sorts.

(* an error for the header: exactly for the headers that cannot be read, each with the error listed for it *)
Theorem C97_header d L b e : In (d, L) gtpv2_messages -> bytes b -> In e header_errors ->
  (msg_unmarshal d Debug b = Err e <-> header_reports b e).
Proof.
  intros HI Hb He. split; [|apply by_header]. intros U. assert (NE : ~ element_error e).
  { intros [t [->| ->]]; cbn in He; intuition discriminate. }
  destruct (message_refused d L b e HI Hb U) as [e R|h Gh Gt|h NV Gh Gt Go|h s e NV Gh Gt Go Gs|h s l f t NV NI Gh Gt Go Gs Gf Gm Gc]; auto;
    try (exfalso; cbn in He; intuition discriminate). exfalso. exact (NE (stops_error _ _ Gs)).
Qed.
Print Assumptions C97_header.

(* the error for another message type: exactly for the packets whose header can be read and has another type *)
Theorem C97_type d L b : In (d, L) gtpv2_messages -> bytes b ->
  (msg_unmarshal d Debug b = Err MessageIncorrectMessageType <-> exists h, header_says b h /\ h2_msgtype h <> md_type d).
Proof.
  intros HI Hb. split; [|intros (h & H & T); exact (by_type d b h H T)]. intros U.
  pose proof (message_refused d L b _ HI Hb U) as R. inversion R as [e R'|h Gh Gt|h NV Gh Gt Go|h s e NV Gh Gt Go Gs|]; subst; eauto.
  - apply header_error in R'. cbn in R'. intuition discriminate.
  - apply stops_error in Gs. destruct Gs as [t [C|C]]; discriminate.
Qed.
Print Assumptions C97_type.

(* the error for the format: exactly for the packets of the right type that end before their length does *)
Theorem C97_length d L b : In (d, L) gtpv2_messages -> bytes b ->
  (msg_unmarshal d Debug b = Err MessageInvalidMessageFormat <->
   md_name d <> "VersionNotSupported"%string /\ exists h, header_says b h /\ h2_msgtype h = md_type d /\ nlen b < h2_length h + 4).
Proof.
  intros HI Hb. split; [|intros (NV & h & H & T & Q); exact (by_octets d L b HI h NV H T Q)]. intros U.
  pose proof (message_refused d L b _ HI Hb U) as R. inversion R as [e R'|h Gh Gt|h NV Gh Gt Go|h s e NV Gh Gt Go Gs|]; subst; eauto 6.
  - apply header_error in R'. cbn in R'. intuition discriminate.
  - apply stops_error in Gs. destruct Gs as [t [C|C]]; discriminate.
Qed.
Print Assumptions C97_length.

(* the error for a missing element: exactly for the packets whose elements can all be read and that lack one the message
   must have *)
Theorem C97_missing d L b : In (d, L) gtpv2_messages -> bytes b ->
  ((exists t, msg_unmarshal d Debug b = Err (MessageMandatoryIEMissing t)) <->
   md_name d <> "VersionNotSupported"%string /\ md_name d <> "IdentificationResponse"%string /\
   exists h s l f, header_says b h /\ h2_msgtype h = md_type d /\ element_octets (md_name d) b h s /\ octets_say s l /\ In f L /\ missing f l).
Proof.
  intros HI Hb. split; [|intros (NV & NI & h & s & l & f & H & T & Q & S & F & M); exact (by_missing d L b HI Hb h s l f NV NI H T Q S F M)]. intros [t U].
  pose proof (message_refused d L b _ HI Hb U) as R. inversion R as [e R'|h Gh Gt|h NV Gh Gt Go|h s e NV Gh Gt Go Gs|h s l f t' NV NI Gh Gt Go Gs Gf Gm Gc]; subst.
  - apply header_error in R'. cbn in R'. intuition discriminate.
  - apply stops_error in Gs. destruct Gs as [t' [C|C]]; discriminate.
  - split; [exact NV|]. split; [exact NI|]. exists h, s, l, f. auto 8.
Qed.
Print Assumptions C97_missing.

(* the errors for an element: exactly for the packets in which reading the elements stops at one that cannot be read,
   save the packets that crash the decoder or hang it (C71, C74); the error reports an element that cannot be read *)
Theorem C97_element d L b : In (d, L) gtpv2_messages -> bytes b ->
  ((exists e, element_error e /\ msg_unmarshal d Debug b = Err e) <->
   msg_unmarshal d Debug b <> Panic /\ msg_unmarshal d Debug b <> Diverge /\ md_name d <> "VersionNotSupported"%string /\
   exists h s e, header_says b h /\ h2_msgtype h = md_type d /\ element_octets (md_name d) b h s /\ stops_with s e).
Proof.
  intros HI Hb. split.
  - intros (e & [t E] & U). rewrite U. split; [discriminate|]. split; [discriminate|].
    destruct (message_refused d L b _ HI Hb U) as [e R'|h Gh Gt|h NV Gh Gt Go|h s e NV Gh Gt Go Gs|]; try (exfalso; intuition discriminate).
    + exfalso. apply header_error in R'. cbn in R'. intuition (subst; discriminate).
    + split; [exact NV|]. exists h, s, e. auto.
  - intros (NP & ND & NV & h & s & e0 & H & T & Q & S). destruct (by_stop d L b HI Hb h s e0 NV H T Q S NP ND) as (e & Se & U).
    exists e. split; [exact (stops_error _ _ Se)|exact U].
Qed.
Print Assumptions C97_element.

Lemma no_hang d L b : In (d, L) gtpv2_messages -> bytes b -> msg_unmarshal d Debug b <> Diverge.
Proof. intros HI Hb H. apply (PropsV2Hang.C74_message_hang d L Debug b HI Hb) in H. unfold PropsV2Hang.packet_hangs in H. firstorder discriminate. Qed.
(* no packet hangs a build with overflow checks, so only the packets that crash it have to be left out *)
Theorem C97_element_exact d L b : In (d, L) gtpv2_messages -> bytes b ->
  ((exists e, element_error e /\ msg_unmarshal d Debug b = Err e) <->
   ~ PropsV2Hang.packet_crashes Debug (md_name d) (md_type d) b /\ md_name d <> "VersionNotSupported"%string /\
   exists h s e, header_says b h /\ h2_msgtype h = md_type d /\ element_octets (md_name d) b h s /\ stops_with s e).
Proof.
  intros HI Hb. pose proof (PropsV2Hang.C71_message_exact d L Debug b HI Hb) as C. pose proof (no_hang d L b HI Hb) as H.
  rewrite (C97_element d L b HI Hb). tauto.
Qed.
Print Assumptions C97_element_exact.

(* There are no other packets: each is a message, or has one of the faults above, or crashes the receiver. *)
Theorem C97_every_packet d L b : In (d, L) gtpv2_messages -> bytes b ->
  (exists x, message_says (md_name d) (md_type d) L b x) \/
  (exists e, header_reports b e) \/
  (exists h, header_says b h /\ h2_msgtype h <> md_type d) \/
  (exists h, header_says b h /\ h2_msgtype h = md_type d /\ nlen b < h2_length h + 4) \/
  (exists h s e, header_says b h /\ h2_msgtype h = md_type d /\ element_octets (md_name d) b h s /\ stops_with s e) \/
  (exists h s l f, header_says b h /\ h2_msgtype h = md_type d /\ element_octets (md_name d) b h s /\ octets_say s l /\ In f L /\ missing f l) \/
  PropsV2Hang.packet_crashes Debug (md_name d) (md_type d) b.
Proof.
  intros HI Hb. destruct (msg_unmarshal d Debug b) as [x|e| |] eqn:U.
  - left. exists x. apply (message_says_iff d L b x HI Hb). exact U.
  - right. destruct (message_refused d L b e HI Hb U) as [e R|h Gh Gt|h NV Gh Gt Go|h s e NV Gh Gt Go Gs|h s l f t NV NI Gh Gt Go Gs Gf Gm Gc]; eauto 12.
    right. right. right. right. left. exists h, s, l, f. auto 8.
  - repeat right. apply (PropsV2Hang.C71_message_exact d L Debug b HI Hb). exact U.
  - destruct (no_hang d L b HI Hb U).
Qed.
Print Assumptions C97_every_packet.

(* the errors of the header, of the type, of the length and for missing elements are the same in every build; so are those
   of the elements, and other builds return more only for packets that crash a build with overflow checks (C71) *)
Theorem C97_any_build d m b e : (msg_unmarshal d Debug b = Err e -> msg_unmarshal d m b = Err e) /\
  (msg_unmarshal d Debug b <> Panic -> msg_unmarshal d m b = Err e -> msg_unmarshal d Debug b = Err e).
Proof. destruct (V2ModeFacts.msg_same d m b) as [C|C]; split; intros; congruence. Qed.
Print Assumptions C97_any_build.

(* One packet for each sort: Delete Session Requests. *)
Lemma delete_listed : In (md_deletesessionreq, ly_deletesessionreq) gtpv2_messages.
Proof. unfold gtpv2_messages. repeat (first [left; reflexivity|right]). Qed.
Definition wrong_version : list N := [40; 36; 0; 8; 0; 0; 0; 1; 0; 0; 9; 0].
Definition wrong_type : list N := [72; 37; 0; 8; 0; 0; 0; 1; 0; 0; 9; 0].
Definition too_long : list N := [72; 36; 0; 9; 0; 0; 0; 1; 0; 0; 9; 0].
Definition cut_element : list N := [72; 36; 0; 14; 0; 0; 0; 1; 0; 0; 9; 0; 71; 0; 3; 0; 1; 97].
Example C97_header_case : bytes wrong_version /\ header_reports wrong_version HeaderVersionNotSupported /\
  msg_unmarshal md_deletesessionreq Debug wrong_version = Err HeaderVersionNotSupported.
Proof.
  assert (B : bytes wrong_version) by (repeat constructor). assert (R : header_reports wrong_version HeaderVersionNotSupported) by (apply hr_version; vm_compute; discriminate).
  split; [exact B|]. split; [exact R|]. apply (C97_header _ _ _ _ delete_listed B); [right; left; reflexivity|exact R].
Qed.
Example C97_type_case : bytes wrong_type /\ exists h, header_says wrong_type h /\ h2_msgtype h <> 36.
Proof.
  assert (B : bytes wrong_type) by (repeat constructor). split; [exact B|].
  apply (C97_type md_deletesessionreq _ _ delete_listed B). vm_compute. reflexivity.
Qed.
Example C97_length_case : bytes too_long /\ exists h, header_says too_long h /\ h2_msgtype h = 36 /\ nlen too_long < h2_length h + 4.
Proof.
  assert (B : bytes too_long) by (repeat constructor). split; [exact B|].
  apply (C97_length md_deletesessionreq _ _ delete_listed B). vm_compute. reflexivity.
Qed.
Example C97_element_case : bytes cut_element /\ exists h s e, header_says cut_element h /\ h2_msgtype h = 36 /\
  element_octets "DeleteSessionRequest" cut_element h s /\ stops_with s e.
Proof.
  assert (B : bytes cut_element) by (repeat constructor). split; [exact B|].
  apply (C97_element md_deletesessionreq _ _ delete_listed B). exists (IEInvalidLength 71). split; [exists 71; left; reflexivity|vm_compute; reflexivity].
Qed.
(* a Create Session Request without elements *)
Definition no_elements : list N := [72; 32; 0; 8; 0; 0; 0; 1; 0; 0; 9; 0].
Example C97_missing_case : In (md_createsessionreq, ly_createsessionreq) gtpv2_messages /\ bytes no_elements /\
  (exists t, msg_unmarshal md_createsessionreq Debug no_elements = Err (MessageMandatoryIEMissing t)) /\
  exists h s l f, header_says no_elements h /\ h2_msgtype h = 32 /\ element_octets "CreateSessionRequest" no_elements h s /\ octets_say s l /\
    In f ly_createsessionreq /\ missing f l.
Proof.
  assert (HI : In (md_createsessionreq, ly_createsessionreq) gtpv2_messages) by (unfold gtpv2_messages; repeat (first [left; reflexivity|right])).
  assert (B : bytes no_elements) by (repeat constructor). split; [exact HI|]. split; [exact B|].
  assert (M : exists t, msg_unmarshal md_createsessionreq Debug no_elements = Err (MessageMandatoryIEMissing t)) by (eexists; vm_compute; reflexivity).
  split; [exact M|]. apply (C97_missing _ _ _ HI B) in M. exact (proj2 (proj2 M)).
Qed.
