(* C76: which GTPv2-C values crash the sender. V2Encode.v models the encoders with the operations that can panic;
   [msg_marshal_checked d m x buffer] is what marshal does with the message x and the octets already in the buffer. *)
From Coq Require Import String Permutation.
From Verif Require Import Base BaseFacts Encode V2Base V2BaseFacts V2Common V2IeA V2IeB V2IeC V2IeD V2IeE V2IeF V2Decoder V2DecFacts V2Msg V2Encode.
From Verif Require Import V2MsgSpec V2MsgWire V2MsgLayouts.
From Verif Require V2DecMore V2DecLoop PropsV2Msg PropsV2Crash.
Notation length := List.length.
Local Open Scope N_scope.

(* The one element whose encoding panics: an F-Container of a kind nothing is known about, without any octets. *)
Definition empty_container (e : ie) : Prop := exists i, e = IE_Fcontainer i /\ ie_v i = FcUnknown [].
Lemma empty_container_dec e : {empty_container e} + {~ empty_container e}.
Proof.
  destruct e; try (right; intros (j & K & _); discriminate K).
  destruct (ie_v i) as [|o|o|o|o|o|o|[|z o]] eqn:E; try (right; intros (j & K & K2); injection K as <-; rewrite E in K2; discriminate K2).
  left. exists i. auto.
Defined.

Lemma tliv_safe m t len ins v : set_tliv_ie_length_checked m ([t] ++ enc16 len ++ [ins] ++ v) = Ok (tliv t len ins v).
Proof.
  unfold set_tliv_ie_length_checked. assert (L : length ([t] ++ enc16 len ++ [ins] ++ v) = (4 + length v)%nat) by reflexivity.
  rewrite set_size_ok; [reflexivity|unfold nlen; rewrite L; lia|rewrite L; lia].
Qed.
Lemma marshal_safe {A} m T (f : mode -> A -> res (list N)) g x : f m (ie_v x) = Ok (g (ie_v x)) -> marshal_checked m T f x = Ok (marshal_ie T g x).
Proof. intros E. unfold marshal_checked. rewrite E. cbn [bind]. apply tliv_safe. Qed.
(* the marks of the presence reporting areas *)
Lemma put_last {E} (p : list N) x y : put (E:=E) (p ++ [x]) (length p) y = Ok (p ++ [y]).
Proof.
  unfold put. rewrite app_length. cbn [length]. replace (length p <? length p + 1)%nat with true by (symmetry; apply Nat.ltb_lt; lia). f_equal.
  induction p as [|z p IH]; [reflexivity|]. cbn [app length set_nth]. f_equal. exact IH.
Qed.
Lemma at_last {E} (p : list N) x : at_ (E:=E) (p ++ [x]) (length p) = Ok x.
Proof. unfold at_. rewrite nth_error_app2 by lia. rewrite Nat.sub_diag. reflexivity. Qed.
Definition area_flag (a : presence_area) : N := match a with Inapra _ => 8 | Ipra _ => 1 | Opra _ => 2 end.
Definition area_id (a : presence_area) : list N := match a with Inapra j | Ipra j | Opra j => enc_be 3 j end.
Lemma area_split a : area_octets a = area_id a ++ [area_flag a].
Proof. destruct a; reflexivity. Qed.
Lemma mark_one m p a : mark_last m (p ++ area_octets a) = Ok (p ++ area_id a ++ [N.lor (area_flag a) 4], length (p ++ area_id a)).
Proof.
  unfold mark_last. rewrite area_split, app_assoc. unfold sub_usize, nlen. rewrite app_length. cbn [length].
  replace (1 <=? N.of_nat (length (p ++ area_id a) + 1)) with true by (symmetry; apply N.leb_le; lia). cbn [bind].
  replace (N.to_nat (N.of_nat (length (p ++ area_id a) + 1) - 1)) with (length (p ++ area_id a)) by lia.
  rewrite at_last. cbn [bind]. rewrite put_last. cbn [bind]. rewrite <- app_assoc. reflexivity.
Qed.
Lemma mark_all m : forall l p a, exists b c, mark_areas m (p ++ area_id a ++ [N.lor (area_flag a) 4]) (length (p ++ area_id a)) l = Ok (b, c) /\
  (let? x := at_ b c in put b c (N.land x 11)) = Ok (E:=GTPV2Error) (p ++ presence_areas_enc (a :: l)).
Proof.
  induction l as [|k r IH]; intros p a.
  - eexists. eexists. split; [reflexivity|]. rewrite app_assoc, at_last. cbn [bind]. rewrite put_last, <- app_assoc. destruct a; reflexivity.
  - cbn [mark_areas]. rewrite mark_one. cbn [bind].
    destruct (IH (p ++ area_id a ++ [N.lor (area_flag a) 4]) k) as (b & c & E & F). exists b, c. split; [exact E|]. rewrite F. f_equal.
    rewrite <- app_assoc. f_equal. change (presence_areas_enc (a :: k :: r)) with (presence_area_enc a true ++ presence_areas_enc (k :: r)). f_equal. destruct a; reflexivity.
Qed.
Lemma prai_safe m x : PresenceReportingAreaInformation_marshal_checked m x = Ok (PresenceReportingAreaInformation_marshal x).
Proof.
  unfold PresenceReportingAreaInformation_marshal_checked, PresenceReportingAreaInformation_marshal, marshal_ie, PresenceReportingAreaInformation_value.
  assert (B : PresenceReportingAreaInformation_buffer m ([178] ++ enc16 (ie_length x) ++ [ie_ins x]) (ie_v x) =
    Ok (([178] ++ enc16 (ie_length x) ++ [ie_ins x]) ++ presence_areas_enc (pr_area (ie_v x) :: match pr_more (ie_v x) with Some l => l | None => [] end))).
  { unfold PresenceReportingAreaInformation_buffer. destruct (pr_more (ie_v x)) as [l|].
    - rewrite mark_one. cbn [bind]. destruct (mark_all m l ([178] ++ enc16 (ie_length x) ++ [ie_ins x]) (pr_area (ie_v x))) as (b & c & E & F). rewrite E. exact F.
    - reflexivity. }
  rewrite B. cbn [bind]. rewrite <- !app_assoc. apply tliv_safe.
Qed.
Lemma removelast_firstn (l : list N) : firstn (length l - 1) l = removelast l.
Proof. rewrite removelast_firstn_len. f_equal. lia. Qed.
Lemma rnc_safe m v : RncIdentifier_checked m v = Ok (RncIdentifier_enc v).
Proof.
  unfold RncIdentifier_checked, RncIdentifier_enc. assert (L : (1 <= length (Rai_enc (rn_rai v)))%nat) by (unfold Rai_enc; rewrite !app_length; cbn [length]; lia).
  unfold sub_usize, nlen. replace (1 <=? N.of_nat (length (Rai_enc (rn_rai v)))) with true by (symmetry; apply N.leb_le; lia). cbn [bind]. unfold slice.
  replace (N.to_nat (N.of_nat (length (Rai_enc (rn_rai v))) - 1)) with (length (Rai_enc (rn_rai v)) - 1)%nat by lia. cbn [Nat.leb andb skipn].
  replace (length (Rai_enc (rn_rai v)) - 1 <=? length (Rai_enc (rn_rai v)))%nat with true by (symmetry; apply Nat.leb_le; lia). cbn [bind].
  rewrite Nat.sub_0_r, removelast_firstn. reflexivity.
Qed.

(* Encoding an element panics if it is that element, and otherwise appends the octets of C58. *)
Theorem C76_element : forall m e, ie_marshal_checked m e = if empty_container_dec e then Panic else Ok (ie_marshal e).
Proof.
  intros m e. destruct (empty_container_dec e) as [(i & -> & E)|N0].
  - cbn [ie_marshal_checked]. unfold marshal_checked. rewrite E. reflexivity.
  - destruct e; cbn [ie_marshal_checked ie_marshal]; try reflexivity.
    + apply marshal_safe. unfold Fcontainer_checked, Fcontainer_value. destruct (ie_v i) as [|o|o|o|o|o|o|o] eqn:E; try reflexivity.
      destruct o as [|z o]; [exfalso; apply N0; exists i; auto|]. reflexivity.
    + apply marshal_safe. unfold TargetIdentification_checked, TargetIdentification_value. destruct (ie_v i); try reflexivity; rewrite rnc_safe; reflexivity.
    + apply marshal_safe. unfold MbmsServiceArea_checked, MbmsServiceArea_value. destruct (Nat.eqb_spec (length (ie_v i)) 0) as [K|K]; [reflexivity|].
      unfold sub_usize, nlen. replace (1 <=? N.of_nat (length (ie_v i))) with true by (symmetry; apply N.leb_le; lia). reflexivity.
    + apply marshal_safe. unfold PresenceReportingAreaAction_checked, cap. rewrite !upto_min. reflexivity.
    + apply prai_safe.
    + apply marshal_safe. unfold MaxPacketLossRate_checked, MaxPacketLossRate_value. destruct (ml_dl (ie_v i)), (ml_ul (ie_v i)); reflexivity.
Qed.
Print Assumptions C76_element.

(* Lists of elements, in the order given. *)
Theorem C76_elements : forall m l, (encoder_checked m l = Panic <-> exists e, In e l /\ empty_container e) /\
  ((forall e, In e l -> ~ empty_container e) -> encoder_checked m l = Ok (encoder l)).
Proof.
  intros m l.
  assert (S : (forall e, In e l -> ~ empty_container e) -> encoder_checked m l = Ok (encoder l)).
  { induction l as [|e l IH]; intros H; [reflexivity|]. cbn [encoder_checked]. rewrite C76_element. destruct (empty_container_dec e) as [K|_]; [exfalso; exact (H e (or_introl eq_refl) K)|].
    cbn [bind]. rewrite IH by (intros e' I'; apply H; right; exact I'). reflexivity. }
  split; [|exact S]. split.
  - intros P. destruct (Exists_dec empty_container l empty_container_dec) as [K|K]; [apply Exists_exists in K; exact K|].
    rewrite S in P; [discriminate P|]. intros e I' C. apply K, Exists_exists. exists e. auto.
  - clear S. intros (e & I' & C). induction l as [|y l IH]; [destruct I'|]. cbn [encoder_checked]. rewrite C76_element. destruct (empty_container_dec y) as [K|K]; [reflexivity|].
    cbn [bind]. destruct I' as [->|I']; [contradiction|]. rewrite (IH I'). reflexivity.
Qed.
Print Assumptions C76_elements.
(* Every message, whatever its fields hold and whatever is in the buffer: encoding panics exactly if a field holds that
   element, and otherwise gives the octets of msg_marshal, in both build modes. *)
Theorem C76_message : forall d L m x buffer, In (d, L) gtpv2_messages -> length (msg_fields x) = length L ->
  (msg_marshal_checked d m x buffer = Panic <-> exists field e, In field (msg_fields x) /\ In e field /\ empty_container e) /\
  ((forall field e, In field (msg_fields x) -> In e field -> ~ empty_container e) -> msg_marshal_checked d m x buffer = Ok (msg_marshal d x buffer)).
Proof.
  intros d L m x buffer H HL. pose proof (PropsV2Msg.tovec_perm d L (msg_fields x) H HL) as P. unfold msg_marshal_checked.
  assert (T : forall e, In e (tovec d (msg_fields x)) <-> exists field, In field (msg_fields x) /\ In e field).
  { intros e. transitivity (In e (concat (msg_fields x))); [split; apply Permutation_in; [exact P|apply Permutation_sym; exact P]|]. rewrite in_concat. reflexivity. }
  assert (S : forall o, set_msg_length_checked m (buffer ++ h2_marshal (msg_header x) ++ o) = Ok (set_msg_length (buffer ++ h2_marshal (msg_header x) ++ o))).
  { intros o. unfold set_msg_length_checked. assert (HH : (4 <= length (h2_marshal (msg_header x)))%nat) by (unfold h2_marshal; rewrite !app_length; cbn [length enc16]; lia).
    rewrite set_size_ok; [reflexivity| |]; unfold nlen; rewrite !app_length; lia. }
  destruct (C76_elements m (tovec d (msg_fields x))) as [K1 K2]. split.
  - split.
    + intros E. destruct (Exists_dec empty_container (tovec d (msg_fields x)) empty_container_dec) as [K|K].
      * apply Exists_exists in K as (e & I' & C). apply T in I' as (field & I1 & I2). exists field, e. auto.
      * rewrite K2 in E by (intros e I' C; apply K, Exists_exists; exists e; auto). cbn [bind] in E. rewrite S in E. discriminate E.
    + intros (field & e & I1 & I2 & C). rewrite (proj2 K1); [reflexivity|]. exists e. split; [apply T; exists field; auto|exact C].
  - intros N0. rewrite K2; [cbn [bind]; rewrite S; reflexivity|]. intros e I' C. apply T in I' as (field & I1 & I2). exact (N0 field e I1 I2 C).
Qed.
Print Assumptions C76_message.

(* What has been decoded can be encoded. *)
Lemma container_read m b x : Fcontainer_unmarshal m b = Ok x -> ie_v x <> FcUnknown [].
Proof.
  unfold Fcontainer_unmarshal, need. destruct (Nat.leb_spec 5 (length b)) as [L|L]; [|discriminate]. unfold hdr4.
  destruct (at_ b 1) as [l1| | |]; cbn [bind]; try discriminate. destruct (at_ b 2) as [l2| | |]; cbn [bind]; try discriminate. destruct (at_ b 3) as [l3| | |]; cbn [bind]; try discriminate.
  unfold checked, check_tliv_ie_buffer. destruct (N.eqb_spec (be16 l1 l2) 0) as [Z|Z]; cbn [bind]; [discriminate|].
  destruct (add16 m (be16 l1 l2) 4) as [s| | |]; cbn [bind]; try discriminate. destruct (N.to_nat s <=? length b)%nat; [|discriminate].
  destruct (at_ b 4) as [k| | |]; cbn [bind]; try discriminate.
  assert (S : forall o, slice (E:=GTPV2Error) b 4 (4 + N.to_nat (be16 l1 l2)) = Ok o -> o <> []).
  { intros o. unfold slice. destruct ((4 <=? 4 + N.to_nat (be16 l1 l2)) && (4 + N.to_nat (be16 l1 l2) <=? length b))%nat eqn:E; [|discriminate]. intros K. apply Ok_inj in K. intros ->.
    apply andb_true_iff in E as [_ E]. apply Nat.leb_le in E. apply (f_equal (@length N)) in K. rewrite firstn_length, skipn_length in K. cbn [length] in K. lia. }
  repeat match goal with |- context [if ?c then _ else _] => destruct c; cbn [bind] end;
    try match goal with |- context [slice b ?i ?j] => destruct (slice b i j) as [o| | |] eqn:E; cbn [bind] end; try discriminate;
    intros K; apply Ok_inj in K; subst x; cbn [ie_v std]; try discriminate.
  intros K. injection K as ->. exact (S [] eq_refl eq_refl).
Qed.
Lemma element_read dec m b e : decode_one dec m b = Ok e -> ~ empty_container e.
Proof.
  intros E (i & -> & V). destruct b as [|t q]; [discriminate E|]. destruct (V2DecMore.decode_one_post dec m (t :: q) _ E) as [C _]. cbn [nth] in C.
  destruct (N.eq_dec t 169) as [->|T]; [rewrite disp_169 in E by reflexivity; destruct (ActionIndication_unmarshal m (169 :: q)); discriminate E|].
  specialize (C T). cbn in C. subst t. rewrite disp_118 in E by reflexivity. destruct (Fcontainer_unmarshal m (118 :: q)) as [x| | |] eqn:F; cbn [lift bind] in E; try discriminate E.
  apply Ok_inj in E. injection E as <-. exact (container_read m _ x F V).
Qed.
Lemma elements_read one m : (forall b e, one b = Ok e -> ~ empty_container e) -> forall fuel b l, ie_loop one m fuel b = Ok l -> Forall (fun e => ~ empty_container e) l.
Proof.
  intros H. induction fuel as [|f IH]; intros [|t q] l E; cbn [ie_loop] in E; try discriminate; try (apply Ok_inj in E; subst; constructor).
  destruct (one (t :: q)) as [e| | |] eqn:E1; cbn [bind] in E; try discriminate. destruct (ie_len m e) as [n| | |]; cbn [bind] in E; try discriminate.
  destruct (ie_loop one m f (skipn n (t :: q))) as [r| | |] eqn:E2; cbn [bind] in E; try discriminate. apply Ok_inj in E. subst l. constructor; [exact (H _ _ E1)|exact (IH _ _ E2)].
Qed.
Theorem C76_decoded_elements : forall m m' b l, decoder m b = Ok l -> encoder_checked m' l = Ok (encoder l).
Proof.
  intros m m' b l E. apply C76_elements. apply Forall_forall. unfold decoder in E. cbn [decode_ies] in E. revert E. apply elements_read. intros c e. apply element_read.
Qed.
Print Assumptions C76_decoded_elements.
Lemma update_forall P : forall (l : list (list ie)) i v, Forall (Forall P) l -> Forall P v -> Forall (Forall P) (update l i v).
Proof. induction l as [|x l IH]; intros [|i] v H V; cbn [update]; [constructor..| |]; inversion H; subst; constructor; auto. Qed.
Lemma act_forall P r e st : Forall (Forall P) (st_slots st) -> P e -> Forall (Forall P) (st_slots (act r e st)).
Proof.
  intros H He. assert (N0 : Forall P (nth (r_slot r) (st_slots st) [])).
  { destruct (Nat.lt_ge_cases (r_slot r) (length (st_slots st))) as [K|K]; [|rewrite nth_overflow by exact K; constructor]. rewrite Forall_forall in H. apply H, nth_In, K. }
  unfold act. destruct (r_act r); repeat match goal with |- context [match ?c with _ => _ end] => destruct c eqn:? end; cbn [st_slots]; try exact H;
    apply update_forall; try exact H; try (repeat constructor; exact He); try (apply Forall_app; split; [assumption|repeat constructor; exact He]).
Qed.
Lemma run_forall P d : forall l st, Forall (Forall P) (st_slots st) -> Forall P l -> Forall (Forall P) (st_slots (fold_left (step d) l st)).
Proof.
  induction l as [|e l IH]; intros st H Hl; [exact H|]. cbn [fold_left]. inversion Hl; subst. apply IH; [|assumption]. unfold step. destruct (find _ (md_arms d)); [apply act_forall; assumption|exact H].
Qed.
Lemma inits_safe : forallb (fun p => forallb (forallb (fun e => if empty_container_dec e then false else true)) (md_init (fst p))) gtpv2_messages = true.
Proof. vm_compute. reflexivity. Qed.
Theorem C76_decoded_message : forall d L m m' b x buffer, In (d, L) gtpv2_messages -> msg_unmarshal d m b = Ok x ->
  msg_marshal_checked d m' x buffer = Ok (msg_marshal d x buffer).
Proof.
  intros d L m m' b x buffer H E.
  assert (I0 : Forall (Forall (fun e => ~ empty_container e)) (md_init d)).
  { pose proof inits_safe as S. rewrite forallb_forall in S. specialize (S _ H). cbn [fst] in S. rewrite forallb_forall in S. apply Forall_forall. intros f Hf. specialize (S f Hf).
    rewrite forallb_forall in S. apply Forall_forall. intros e He. specialize (S e He). destruct (empty_container_dec e); [discriminate S|assumption]. }
  assert (F : Forall (Forall (fun e => ~ empty_container e)) (msg_fields x)).
  { unfold msg_unmarshal in E. destruct (h2_unmarshal b) as [h| | |]; cbn [bind] in E; try discriminate. destruct (negb _); [discriminate|].
    destruct (md_start d) as [s|]; [|apply Ok_inj in E; subst x; exact I0]. destruct (_ <=? _)%nat; [|discriminate].
    destruct (slice b s _) as [o| | |]; cbn [bind] in E; try discriminate. destruct (decoder m o) as [l| | |] eqn:D; cbn [bind] in E; try discriminate.
    destruct (fromvec d l) as [y| | |] eqn:V; cbn [bind] in E; try discriminate. apply Ok_inj in E. subst x. cbn [msg_fields]. unfold fromvec in V.
    destruct (decide _ _); [discriminate|]. apply Ok_inj in V. subst y. apply run_forall; [exact I0|]. unfold decoder in D. cbn [decode_ies] in D. revert D. apply elements_read. intros c e. apply element_read. }
  apply (C76_message d L m' x buffer H).
  - pose proof (PropsV2Msg.C36_decoded_conforms d L m b x H E) as K. unfold conforms in K. clear - K. induction K; cbn [length]; congruence.
  - intros field e I1 I2. rewrite Forall_forall in F. specialize (F field I1). rewrite Forall_forall in F. exact (F e I2).
Qed.
Print Assumptions C76_decoded_message.

(* --- cases ---------------------------------------------------------------------------------------------------- *)
(* an Update Bearer Request with an F-Container: octets of a kind that is not known, and none *)
Definition bearer_request (o : list N) : message :=
  mkMsg (PropsV2Msg.w_hdr 97) (PropsV2Msg.fill ly_updatebearerreq [("bearer_ctxs", [PropsV2Msg.w_bearer]); ("nbifom", [IE_Fcontainer (mkIe 118 0 0 (FcUnknown o))])]%string).
Example C76_witness_crash : length (msg_fields (bearer_request [])) = length ly_updatebearerreq /\
  msg_marshal_checked V2MsgTables.md_updatebearerreq Release (bearer_request []) [] = Panic.
Proof. split; vm_compute; reflexivity. Qed.
Example C76_witness_container : exists field e, In field (msg_fields (bearer_request [])) /\ In e field /\ empty_container e.
Proof.
  apply (C76_message V2MsgTables.md_updatebearerreq ly_updatebearerreq Release (bearer_request []) []).
  - unfold gtpv2_messages; cbn [In]; repeat (first [left; reflexivity|right]).
  - apply C76_witness_crash.
  - apply C76_witness_crash.
Qed.
(* with one octet it is encoded, and decoded messages are encoded again *)
Example C76_witness_safe : exists o, msg_marshal_checked V2MsgTables.md_updatebearerreq Debug (bearer_request [7]) [1; 2] = Ok o /\ (12 < length o)%nat.
Proof. eexists. split; [vm_compute; reflexivity|cbn [length]; lia]. Qed.
Example C76_witness_decoded : exists x o, msg_unmarshal V2MsgTables.md_updatebearerreq Debug PropsV2Crash.complete_packet = Ok x /\
  msg_marshal_checked V2MsgTables.md_updatebearerreq Debug x [] = Ok o /\ (12 < length o)%nat.
Proof. eexists. eexists. split; [vm_compute; reflexivity|]. split; [vm_compute; reflexivity|cbn [length]; lia]. Qed.
(* areas: the mark is on all but the last *)
Example C76_witness_areas : ie_marshal_checked Debug (IE_PresenceReportingAreaInformation (mkIe 178 0 0 (mkPrai (Ipra 1) (Some [Opra 2; Inapra 3])))) =
  Ok [178; 0; 12; 0; 0; 0; 1; 5; 0; 0; 2; 6; 0; 0; 3; 8].
Proof. vm_compute. reflexivity. Qed.
