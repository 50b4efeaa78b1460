(* PropsV1Default.v - C70: the fields a sender of GTPv1-C or GTP-U leaves at their default. A message or element
   is built as [X { field: value, ..X::default() }]; what does the receiver get for the fields not given? *)
From Coq Require Import String Sorted.
From Verif Require Import Base BaseFacts DigitsFacts.
From Verif Require Import V1USpec V1UFacts V1CHdrFacts V1CIeFacts V1CWireSpec V1CWireFacts V1CMsgSpec V1CMsgFacts V1CMsgRead V1CExact V1CFourFacts V1CForwardSpec V1CMsgReadFacts V1CForward V1Defaults V1UMsgFacts.
From Verif Require PropsV1U.
From Verif Require Import PropsV1C.
Local Open Scope N_scope.
Notation length := List.length.

(* ------------------------------------------------------------------------- *)
(* The small specification *)

(* The kinds of element whose default() cannot be sent as it is. *)
Definition must_be_filled1 : list kind1 :=
  [K1_Imsi; K1_ChargingId; K1_Pco; K1_Msisdn; K1_Qos; K1_Tft; K1_TriggerId; K1_OmcId; K1_Imei].

(* The fields that must be given; any other field may be left at its default. *)
Definition must_be_given1 : list (list field1 * string) := [
  (CreatePDPContextRequest_L, "qos"); (UpdatePDPContextRequest_L, "qos"); (InitiatePDPContextActivationRequest_L, "qos");
  (PDUNotificationRequest_L, "imsi"); (PDUNotificationRequest_L, "teid_control");
  (PDUNotificationRejectRequest_L, "teid_control")]%string.

(* A value given for a field: an element of the field's code, with whatever lengths, or None *)
Definition given1 (f : field1) (v : option ie1) : Prop :=
  match v with
  | Some i => ie1_t i = f_code f /\ wf_ie1 (with_true_length i)
  | None => f_mandatory f = false
  end.
(* Every field of the message is given or left at what default() puts there. *)
Definition given_or_default1 (L : list field1) (dflt fs : list (option ie1)) : Prop :=
  length fs = length L /\
  forall j f v, nth_error L j = Some f -> nth_error fs j = Some v ->
    given1 f v \/ (nth_error dflt j = Some v /\ ~ In (L, f_name f) must_be_given1).

(* ------------------------------------------------------------------------- *)
(* Elements *)

(* default() is of its own kind and carries the type code of its kind. *)
Theorem C70_default_code : forall k, kind1_of (default1 k) = k /\ code_kind (ie1_t (default1 k)) = Some k.
Proof. destruct k; split; reflexivity. Qed.
Print Assumptions C70_default_code.

(* An element is received as it was built, whatever lengths it was built with. *)
Theorem C70_element_built : forall i m r, wf_ie1 (with_true_length i) -> (ie1_t i = 255 -> r = []) ->
  ie1_unmarshal (kind1_of i) m (ie1_marshal i ++ r) = Ok (with_true_length i).
Proof.
  intros i m r H Hr. rewrite <- true_length_octets, <- true_length_kind. apply ie1_roundtrip; [exact H|].
  intros A. apply Hr. rewrite <- true_length_t. exact (wf_alone _ H A).
Qed.
Print Assumptions C70_element_built.

Lemma default1_wf k : ~ In k must_be_filled1 -> wf_ie1 (with_true_length (default1 k)).
Proof.
  destruct k; intros H; try (exfalso; apply H; vm_compute; tauto); clear H;
  try (vm_compute; repeat split; solve [reflexivity|discriminate|lia|repeat constructor]); try (left; vm_compute; repeat split; reflexivity).
  split; [reflexivity|]. split; [reflexivity|]. split; [vm_compute; discriminate|]. split; [left; vm_compute; discriminate|vm_compute; reflexivity].
Qed.

(* The default elements themselves: these arrive ... *)
Theorem C70_default_arrives : forall k m r, ~ In k must_be_filled1 -> (k = K1_Pe -> r = []) ->
  ie1_unmarshal k m (ie1_marshal (default1 k) ++ r) = Ok (with_true_length (default1 k)).
Proof.
  intros k m r H Hr. pose proof (C70_element_built (default1 k) m r (default1_wf k H)) as E.
  rewrite (proj1 (C70_default_code k)) in E. apply E. intros Q. apply Hr.
  pose proof (proj2 (C70_default_code k)) as C. rewrite Q in C. injection C as <-. reflexivity.
Qed.
Print Assumptions C70_default_arrives.

(* ... these are refused, whatever follows them ... *)
Theorem C70_default_refused_refuted : forall k m r, In k [K1_ChargingId; K1_Pco; K1_Qos; K1_Tft; K1_TriggerId; K1_OmcId] ->
  exists e, ie1_unmarshal k m (ie1_marshal (default1 k) ++ r) = Err e.
Proof.
  intros k m r H. cbn [In] in H.
  repeat (destruct H as [<-|H]; [eexists; destruct m; reflexivity|]). destruct H.
Qed.
Print Assumptions C70_default_refused_refuted.

(* ... and a number is the default "0", or any other of less than fifteen digits, at the sender's risk: at the end of
   the packet an IMSI or IMEI is refused and an MSISDN brings the receiver down. *)
Theorem C70_short_number_refuted : forall m s n t, Forall digit_char s -> (length s <= 14)%nat ->
  ie1_unmarshal K1_Imsi m (ie1_marshal (I1_Imsi (mkTv 2 s))) = Err IEInvalidLength /\
  ie1_unmarshal K1_Imei m (ie1_marshal (I1_Imei (mkTlv 154 n s))) = Err IEInvalidLength /\
  (t < 8 -> ie1_unmarshal K1_Msisdn m (ie1_marshal (I1_Msisdn (mkTlv 134 n (mkMsisdn 1 t 1 s)))) = Panic).
Proof.
  intros m s n t Hs Hl. pose proof (tbcd_encode_length s Hs) as E.
  assert (B : (length (tbcd_encode s) <= 7)%nat) by (rewrite E; apply Nat.lt_succ_r, Nat.div_lt_upper_bound; lia).
  clear E Hl. cbn [ie1_marshal ie1_unmarshal]. repeat split.
  - unfold Imsi_unmarshal, tv_unmarshal, tv_marshal, Imsi_value. cbn [tv_t tv_v length].
    destruct (Nat.leb_spec 9 (S (length (tbcd_encode s)))) as [H|_]; [lia|reflexivity].
  - unfold Imei_unmarshal, tlv_marshal, Imei_value. cbn [tlv_t tlv_v tlv_length app enc16]. rewrite set_tlv_cons. cbn [app enc16 length].
    destruct (Nat.leb_spec 11 (S (S (S (length (tbcd_encode s)))))) as [H|_]; [lia|reflexivity].
  - intros Ht. unfold Msisdn_unmarshal, tlv_marshal, Msisdn_value. cbn [tlv_t tlv_v tlv_length app enc16 ms_ext ms_nature ms_plan ms_digits].
    rewrite set_tlv_cons. unfold var_unmarshal. cbn [app enc16 length Nat.leb]. unfold at_. cbn [nth_error bind].
    set (v := N.lor _ 1 :: tbcd_encode s).
    assert (Hv : 1 <= nlen v <= 8) by (subst v; unfold nlen; cbn [length]; lia).
    rewrite (N.mod_small (nlen v)) by lia. rewrite be16_enc by (unfold u16; lia).
    rewrite check_tlv_ok; [|lia|lia|subst v; unfold nlen; cbn [length]; lia]. cbn [bind]. subst v. cbn [nth_error bind].
    assert (Hp : N.land (N.lor (N.lor (N.shiftl 1 7 mod 256) (N.shiftl t 4 mod 256)) 1) 15 = 1).
    { assert (C : In t [0; 1; 2; 3; 4; 5; 6; 7]) by (cbn [In]; lia). cbn [In] in C.
      repeat (destruct C as [<-|C]; [vm_compute; reflexivity|]). destruct C. }
    rewrite Hp. cbn [N.eqb Pos.eqb orb]. unfold slice. cbn [length].
    destruct ((4 <=? 12)%nat && _) eqn:E; [|reflexivity]. exfalso. apply andb_prop in E as [_ E]. apply Nat.leb_le in E. lia.
Qed.
Print Assumptions C70_short_number_refuted.
Example C70_short_number_case : Forall digit_char [52; 57; 49; 55; 48] /\ default1 K1_Msisdn = I1_Msisdn (mkTlv 134 2 (mkMsisdn 1 1 1 [48])).
Proof. split; [repeat constructor; vm_compute; intuition discriminate|reflexivity]. Qed.

(* ------------------------------------------------------------------------- *)
(* Messages *)

(* The header in a message's default() has the type its own decoder asks for. *)
Theorem C70_default_header : forall code L T, In (code, L, T) messages1 -> c_msgtype (m_header (message1_default T)) = code.
Proof. intros code L T H. exact (tab_code code L T (messages1_checked _ _ _ H)). Qed.
Print Assumptions C70_default_header.


(* What a receiver makes of a message built in any way. The elements go out in the order of the fields; what counts is
   the type code each carries, not the field it was put into. *)
Definition carried (x : Msg1) : list (N * ie1) := map (fun i => (ie1_t i, i)) (present (with_true_lengths x)).
Definition extension_last (x : Msg1) : Prop := forall a i b, present x = a ++ i :: b -> ie1_t i = 255 -> b = [].

Lemma accepts_exact code L T (HI : In (code, L, T) messages1) m b h n l s : chdr_unmarshal m b = Ok h -> c_msgtype h = code ->
  add16 (E := GTPV1Error) m (c_length h) 8 = Ok s -> (N.to_nat s <= length b)%nat ->
  chdr_len m h = Ok n -> reads m b n l -> StronglySorted N.le (map fst l) ->
  Forall (fun t => In t (map f_code L)) (map fst l) ->
  (forall f, In f L -> f_mandatory f = true -> In (f_code f) (map fst l)) ->
  (forall t, (length (occ t l) <= 255)%nat) ->
  exists fs, msg1_unmarshal T m b = Ok (mkMsg1 h fs) /\ stored_exactly L l fs.
Proof.
  intros Hh E Hs Hle Hn Hrd Hss HF Hm Ho. pose proof (messages1_checked _ _ _ HI) as HT.
  destruct (book_ok code L T HT m l [] _ _ (init_state code L T HT) HF Ho) as (c & fs & Hb & Hst). cbn [app] in Hst.
  exists fs. split; [|exact (state_exact code L T HI l c fs Hst Hm)]. unfold msg1_unmarshal. rewrite Hh. cbn [bind].
  rewrite E, (tab_code code L T HT), N.eqb_refl. cbn [negb]. rewrite Hs. cbn [bind].
  destruct (Nat.leb_spec (N.to_nat s) (length b)); [|lia]. rewrite Hn. cbn [bind].
  rewrite (loop_complete code L T HT m b n l Hrd 0 _ _ (c, fs) (S (length b))).
  - cbn [bind fst snd]. replace (forallb _ _) with true; [reflexivity|]. symmetry. apply forallb_forall. intros t Ht.
    apply (book_counts T m _ _ _ _ _ Hb). right. destruct (tab_required code L T HT t Ht) as (f & Hf & <- & Hmf). auto.
  - constructor; [exact Hss|]. apply Forall_forall. intros t _. lia.
  - exact HF.
  - exact Hb.
  - destruct (reads_len _ _ _ _ Hrd) as [Hx| ->]; [lia|cbn; lia].
Qed.
Lemma map_fst_carried x : map fst (carried x) = map ie1_t (present x).
Proof. unfold carried. rewrite map_map. exact (present_true x). Qed.
Lemma true_present x : present (with_true_lengths x) = map with_true_length (present x).
Proof.
  unfold present, with_true_lengths. cbn [m_fields]. induction (m_fields x) as [|[i|] fs IH]; cbn [map option_map flat_map app]; [reflexivity| |exact IH].
  rewrite IH. reflexivity.
Qed.
Lemma alone_of l : Forall wf_ie1 l -> (forall a i b, l = a ++ i :: b -> ie1_t i = 255 -> b = []) -> alone_last l.
Proof.
  induction l as [|i l IH]; intros HF H; [exact I|]. inversion HF as [|? ? Hi HF']; subst. split.
  - intros A. exact (H [] i l eq_refl (wf_alone i Hi A)).
  - apply IH; [exact HF'|]. intros a j b E. apply (H (i :: a) j b). rewrite E. reflexivity.
Qed.
Lemma occ_short t l : (length (occ t l) <= length l)%nat.
Proof.
  unfold occ. rewrite map_length. induction l as [|a l IH]; cbn [filter length]; [lia|]. destruct (fst a =? t); cbn [length]; lia.
Qed.

(* Accepted exactly if the type codes ascend, are all known to the message, include those of the mandatory fields and
   not 149; and then the fields hold the elements of their code in order. *)
Theorem C70_what_arrives : forall code L T m x y, In (code, L, T) messages1 ->
  wf_chdr (m_header x) -> c_msgtype (m_header x) = code -> length (m_fields x) = length L ->
  (forall i, In (Some i) (m_fields x) -> wf_ie1 (with_true_length i)) -> extension_last x -> nlen (msg1_octets x) <= 65535 ->
  (msg1_unmarshal T m (msg1_marshal x []) = Ok y <->
   m_header y = chdr_with_length (m_header x) (nlen (msg1_octets x) - 8) /\
   ascending x /\ ~ has_code1 x 149 /\
   (forall t, has_code1 x t -> exists f, In f L /\ f_code f = t) /\
   (forall f, In f L -> f_mandatory f = true -> has_code1 x (f_code f)) /\
   stored_exactly L (carried x) (m_fields y)).
Proof.
  intros code L T m x y HI Hh Hc Hlen Hw He Hn. pose proof (messages1_checked _ _ _ HI) as HT.
  assert (Hwf : Forall wf_ie1 (present (with_true_lengths x))).
  { rewrite true_present. apply Forall_map, Forall_forall. intros i Hi. apply Hw, present_in, Hi. }
  assert (Hal : alone_last (present (with_true_lengths x))).
  { apply alone_of; [exact Hwf|]. rewrite true_present. intros a i b E Ht.
    destruct (map_eq_app _ _ _ _ E) as (a' & b' & E1 & E2 & E3).
    destruct b' as [|i' b']; [discriminate|]. cbn [map] in E3. injection E3 as E3 E4. rewrite <- E3, true_length_t in Ht.
    rewrite (He a' i' b' E1 Ht) in E4. symmetry. exact E4. }
  assert (Ho : forall t, (length (occ t (carried x)) <= 255)%nat).
  { intros t. pose proof (occ_short t (carried x)) as H1. unfold carried in H1 at 2. rewrite map_length, true_present, map_length in H1.
    assert (H2 : (length (present x) <= length (m_fields x))%nat).
    { unfold present. clear. induction (m_fields x) as [|[i|] fs IH]; cbn [flat_map app length]; lia. }
    pose proof (tab_len code L T HT). lia. }
  unfold msg1_marshal. rewrite <- octets_true in *. unfold msg1_octets in *. cbn [app m_header] in *.
  rewrite fields_elements in *. fold (present (with_true_lengths x)) in *. change (m_header (with_true_lengths x)) with (m_header x) in *.
  destruct (cframed m (m_header x) (elements (present (with_true_lengths x))) [] Hh) as (H1 & H2 & q & H3 & H4); [lia|].
  rewrite app_nil_r in H1. set (h := chdr_with_length _ _) in *.
  assert (Hs : ascending x -> ~ has_code1 x 149 ->
   (forall t, has_code1 x t -> exists f, In f L /\ f_code f = t) ->
   (forall f, In f L -> f_mandatory f = true -> has_code1 x (f_code f)) ->
   exists fs, msg1_unmarshal T m (set_length (chdr_marshal (m_header x) ++ elements (present (with_true_lengths x)))) = Ok (mkMsg1 h fs) /\
     stored_exactly L (carried x) fs).
  { intros Ha H149 Hk Hm. pose proof (chdr_marshal_ge8 (m_header x)) as H8.
    assert (Hnl : 8 <= nlen (chdr_marshal (m_header x) ++ elements (present (with_true_lengths x)))) by (unfold nlen; rewrite app_length; lia).
    refine (accepts_exact code L T HI m _ h _ (carried x) _ H1 Hc (add16_small m _ _ _) _ H2 _ _ _ _ Ho).
    - subst h. cbn [c_length chdr_with_length]. lia.
    - rewrite H3, !app_length, H4, <- app_length. subst h. cbn [c_length chdr_with_length]. unfold nlen in *. lia.
    - rewrite H3, <- H4. pose proof (reads_elements m q _ Hwf Hal) as R. rewrite present_true in R. specialize (R H149 []).
      cbn [app length] in R. rewrite Nat.add_0_r in R. exact R.
    - rewrite map_fst_carried. exact Ha.
    - rewrite map_fst_carried. apply Forall_forall. intros t Ht. destruct (Hk t Ht) as (f & Hf & <-). apply in_map, Hf.
    - rewrite map_fst_carried. exact Hm. }
  split.
  - intros Hok. destruct (msg1_accepted code L T HT m _ _ Hok) as (n & l & Hu & _ & _ & Hl & Hr & Hss & HF & Hm & _).
    rewrite H1 in Hu. apply Ok_inj in Hu. rewrite <- Hu, H2 in Hl. apply Ok_inj in Hl. subst n. rewrite H3, <- H4 in Hr.
    assert (H149 : ~ has_code1 x 149).
    { intros H149. unfold has_code1 in H149. rewrite <- present_true in H149. apply (reads_restriction m q _ Hwf Hal H149 [] l); [|exact Hss].
      cbn [app length]. rewrite Nat.add_0_r. exact Hr. }
    assert (El : l = carried x).
    { apply (reads_det _ _ _ _ Hr). pose proof (reads_elements m q _ Hwf Hal) as R. rewrite present_true in R. specialize (R H149 []).
      cbn [app length] in R. rewrite Nat.add_0_r in R. exact R. }
    subst l. rewrite map_fst_carried in *. split; [symmetry; exact Hu|].
    assert (Hk : forall t, has_code1 x t -> exists f, In f L /\ f_code f = t).
    { intros t Ht. rewrite Forall_forall in HF. specialize (HF t Ht). apply in_map_iff in HF as (f & E & Hf). eauto. }
    split; [exact Hss|]. split; [exact H149|]. split; [exact Hk|]. split; [exact Hm|].
    destruct (Hs Hss H149 Hk Hm) as (fs & E & Hst). rewrite Hok in E. apply Ok_inj in E. rewrite E. exact Hst.
  - intros (Hy & Ha & H149 & Hk & Hm & Hst). destruct (Hs Ha H149 Hk Hm) as (fs & E & Hst'). rewrite E.
    rewrite (stored_exactly_det code L T _ _ _ Hst' Hst), <- Hy. destruct y; reflexivity.
Qed.
Print Assumptions C70_what_arrives.

(* A message in which every field is given or left at its default is received with those values, if it can be sent
   at all (the exceptions are those of any message, C43). *)
Lemma left1 : forall code L T j f v, In (code, L, T) messages1 -> nth_error L j = Some f ->
  nth_error (map s_default (t_slots T)) j = Some v -> ~ In (L, f_name f) must_be_given1 -> given1 f v.
Proof.
  intros code L T j f v H Hf Hv Hn. unfold messages1 in H. cbn [In] in H.
  repeat (destruct H as [H|H];
    [injection H as <- <- <-;
     match type of Hf with nth_error ?l _ = _ => let l' := eval hnf in l in change l with l' in Hf end;
     repeat (lazymatch type of Hf with nth_error (_ :: _) _ = _ => idtac end; destruct j as [|j]; cbn [nth_error] in Hf;
       [injection Hf as <-; vm_compute in Hv; injection Hv as <-;
        first [reflexivity|exfalso; apply Hn; vm_compute; tauto
              |split; [reflexivity|vm_compute; repeat split; solve [reflexivity|discriminate|lia|repeat constructor]]]
       |]); destruct j; discriminate Hf|]).
  destruct H.
Qed.
Lemma given_wf code L T x : In (code, L, T) messages1 -> wf_chdr (m_header x) -> c_msgtype (m_header x) = code ->
  given_or_default1 L (map s_default (t_slots T)) (m_fields x) -> no_gap L (m_fields x) -> wf_msg1 code L (with_true_lengths x).
Proof.
  intros HI Hh Hc [Hl Hg] Hgap. split; [exact Hc|]. split; [exact Hh|]. cbn [with_true_lengths m_fields]. split.
  - apply Forall2_nth; [rewrite map_length; symmetry; exact Hl|]. intros j f v Hf Hv. rewrite nth_error_map in Hv.
    destruct (nth_error (m_fields x) j) as [u|] eqn:Hu; [|discriminate]. cbn [option_map] in Hv. injection Hv as <-.
    assert (G : given1 f u) by (destruct (Hg j f u Hf Hu) as [G|[G Hn]]; [exact G|exact (left1 code L T j f u HI Hf G Hn)]).
    destruct u as [i|]; cbn [option_map field_ok given1] in *; [|exact G]. rewrite true_length_t. exact G.
  - intros i j f g y Hij Hi Hj E Hy Hn. rewrite nth_error_map in Hy, Hn.
    destruct (nth_error (m_fields x) j) as [[u|]|] eqn:Eu; try discriminate. destruct (nth_error (m_fields x) i) as [[w|]|] eqn:Ew; try discriminate.
    exact (Hgap i j f g u Hij Hi Hj E Eu Ew).
Qed.
Theorem C70_message_built_partial : forall code L T m x, In (code, L, T) messages1 -> wf_chdr (m_header x) -> c_msgtype (m_header x) = code ->
  given_or_default1 L (m_fields (message1_default T)) (m_fields x) -> no_gap L (m_fields x) -> nlen (msg1_octets x) <= 65535 ->
  ~ has_code1 x 149 -> (has_code1 x 251 -> forall t, 148 <= t <= 218 -> ~ has_code1 x t) ->
  msg1_unmarshal T m (msg1_marshal x []) =
  Ok (mkMsg1 (chdr_with_length (m_header x) (nlen (msg1_octets x) - 8)) (map (option_map with_true_length) (m_fields x))).
Proof.
  intros code L T m x HI Hh Hc Hg Hgap Hn H149 Hgw. pose proof (given_wf code L T x HI Hh Hc Hg Hgap) as Hw.
  unfold msg1_marshal. rewrite <- octets_true. fold (msg1_marshal (with_true_lengths x) []).
  rewrite (msg1_roundtrip code L T (messages1_checked _ _ _ HI) m _ Hw); [reflexivity| | |rewrite octets_true; exact Hn].
  - apply (gw_ascending code L T _ HI Hw). unfold has_code1. rewrite present_true. exact Hgw.
  - unfold has_code1. rewrite present_true. exact H149.
Qed.
Print Assumptions C70_message_built_partial.

(* A message left entirely at its default is received if no field of it must be given ... *)
Theorem C70_default_message : forall code L T m, In (code, L, T) messages1 -> (forall n, ~ In (L, n) must_be_given1) ->
  exists y, msg1_unmarshal T m (msg1_marshal (message1_default T) []) = Ok y /\
    m_fields y = map (option_map with_true_length) (m_fields (message1_default T)).
Proof.
  intros code L T m H Hn. unfold messages1 in H. cbn [In] in H.
  repeat (destruct H as [H|H]; [injection H as <- <- <-;
    first [exfalso; solve [eapply Hn; unfold must_be_given1; cbn [In]; eauto 10]
          |eexists; split; [destruct m; vm_compute; reflexivity|vm_compute; reflexivity]]|]). destruct H.
Qed.
Print Assumptions C70_default_message.
(* ... and refused if there is one. *)
Theorem C70_default_message_refuted : forall code L T m n, In (code, L, T) messages1 -> In (L, n) must_be_given1 ->
  msg1_unmarshal T m (msg1_marshal (message1_default T) []) = Err MessageMandatoryIEMissing \/
  msg1_unmarshal T m (msg1_marshal (message1_default T) []) = Err MessageInvalidMessageFormat.
Proof.
  intros code L T m n H Hn. unfold messages1 in H. cbn [In] in H.
  repeat (destruct H as [H|H]; [injection H as <- <- <-;
    first [destruct m; solve [left; vm_compute; reflexivity|right; vm_compute; reflexivity]
          |exfalso; unfold must_be_given1 in Hn; cbn [In] in Hn; repeat (destruct Hn as [Hn|Hn]; [discriminate Hn|]); destruct Hn]|]). destruct H.
Qed.
Print Assumptions C70_default_message_refuted.

(* Teid::default() carries the code of a TEID for data. Put into [teid_control] with only the value changed, it is not
   received as TEID for control: it is lost if there is a TEID for data, and received as that if there is none. *)
Lemma teid_slots : forallb (fun e => let L := snd (fst e) in forallb (fun j =>
    match nth_error L j, nth_error L (S j) with
    | Some f, Some g => negb ((f_code f =? 16) && (f_code g =? 17)) ||
        ((rank L 16 j =? 0)%nat && (rank L 17 (S j) =? 0)%nat && negb (f_mandatory g))
    | _, _ => true
    end) (seq 0 (length L))) messages1 = true.
Proof. vm_compute. reflexivity. Qed.
Definition with_other_code (o : option ie1) : Prop := match o with Some i => ie1_t i <> 16 /\ ie1_t i <> 17 | None => True end.
Lemma occ_other t fs : (t = 16 \/ t = 17) -> Forall with_other_code fs ->
  occ t (map (fun i => (ie1_t i, i)) (flat_map (fun v => match v with Some i => [i] | None => [] end) (map (option_map with_true_length) fs))) = [].
Proof.
  intros Ht. induction 1 as [|o fs Ho HF IH]; [reflexivity|]. cbn [map]. destruct o as [i|]; cbn [option_map flat_map app]; [|exact IH].
  cbn [map]. unfold occ in *. cbn [filter fst]. destruct Ho as [H1 H2]. rewrite true_length_t. destruct (N.eqb_spec (ie1_t i) t) as [E|_]; [|exact IH].
  exfalso. destruct Ht; subst t; contradiction.
Qed.
Lemma nth_mid {A} (a : list A) x r : nth_error (a ++ x :: r) (length a) = Some x.
Proof. rewrite nth_error_app2, Nat.sub_diag by lia. reflexivity. Qed.
Lemma nth_mid2 {A} (a : list A) x y r : nth_error (a ++ x :: y :: r) (S (length a)) = Some y.
Proof. rewrite nth_error_app2 by lia. replace (S (length a) - length a)%nat with 1%nat by lia. reflexivity. Qed.
Theorem C70_control_teid_refuted : forall code Lp f g Lq T m h pre d v post y,
  let L := Lp ++ f :: g :: Lq in
  let x := mkMsg1 h (pre ++ d :: Some (I1_Teid (mkTv 16 v)) :: post) in
  In (code, L, T) messages1 -> f_code f = 16 -> f_code g = 17 -> length pre = length Lp -> length post = length Lq ->
  wf_chdr h -> c_msgtype h = code -> v < 4294967296 ->
  Forall with_other_code pre -> Forall with_other_code post -> (forall i, d = Some i -> ie1_t i = 16) ->
  (forall i, In (Some i) (pre ++ d :: post) -> wf_ie1 (with_true_length i)) -> extension_last x -> nlen (msg1_octets x) <= 65535 ->
  msg1_unmarshal T m (msg1_marshal x []) = Ok y ->
  nth_error (m_fields y) (S (length pre)) = Some None /\
  nth_error (m_fields y) (length pre) = Some (Some match d with Some i => with_true_length i | None => I1_Teid (mkTv 16 v) end).
Proof.
  intros code Lp f g Lq T m h pre d v post y L x HI Hf Hg Hp Hq Hh Hc Hv Hpre Hpost Hd Hw He Hn Hok.
  apply (C70_what_arrives code L T m x y HI) in Hok; try assumption.
  - destruct Hok as (_ & _ & _ & _ & _ & _ & Hst).
    assert (Hslot : rank L 16 (length pre) = 0%nat /\ rank L 17 (S (length pre)) = 0%nat /\ f_mandatory g = false).
    { pose proof teid_slots as H. rewrite forallb_forall in H. specialize (H _ HI). cbn [fst snd] in H. cbv zeta in H. rewrite forallb_forall in H.
      specialize (H (length pre)). rewrite Hp in *.
      assert (A1 : nth_error L (length Lp) = Some f) by apply nth_mid. assert (A2 : nth_error L (S (length Lp)) = Some g) by apply nth_mid2.
      rewrite A1, A2, Hf, Hg in H. cbn [N.eqb Pos.eqb andb negb orb] in H.
      specialize (H ltac:(apply in_seq; unfold L; rewrite app_length; cbn [length]; lia)).
      apply andb_prop in H as [H H3]. apply andb_prop in H as [H1 H2]. apply Nat.eqb_eq in H1, H2. destruct (f_mandatory g); [discriminate|]. auto. }
    destruct Hslot as (R1 & R2 & Hm).
    assert (O : forall t, t = 16 \/ t = 17 -> occ t (carried x) = if t =? 16 then match d with Some i => [with_true_length i; I1_Teid (mkTv 16 v)] | None => [I1_Teid (mkTv 16 v)] end else []).
    { intros t Ht. unfold carried, present, with_true_lengths, x. cbn [m_fields]. rewrite map_app, flat_map_app, map_app, occ_app, (occ_other t pre Ht Hpre). cbn [app map].
      cbn [flat_map option_map with_true_length]. rewrite map_app. cbn [app map]. rewrite occ_app.
      match goal with |- context [occ t (?a :: ?c)] => change (occ t (a :: c)) with (occ t ([a] ++ c)) end.
      rewrite occ_app, (occ_other t post Ht Hpost), app_nil_r, occ_one. cbn [ie1_t tv_t].
      destruct d as [i|]; cbn [option_map map].
      - rewrite occ_one, true_length_t, (Hd i eq_refl). destruct Ht as [-> | ->]; reflexivity.
      - destruct Ht as [-> | ->]; reflexivity. }
    split.
    + rewrite (Hst (S (length pre)) g); [|unfold L; rewrite Hp; apply nth_mid2]. rewrite Hg, R2, O, Hm by auto. reflexivity.
    + rewrite (Hst (length pre) f); [|unfold L; rewrite Hp; apply nth_mid]. rewrite Hf, R1, O by auto. cbn [N.eqb Pos.eqb].
      destruct d; reflexivity.
  - unfold x, L. cbn [m_fields]. rewrite !app_length. cbn [length]. lia.
  - intros i Hi. unfold x in Hi. cbn [m_fields] in Hi. apply in_app_iff in Hi. cbn [In] in Hi.
    destruct Hi as [Hi|[Hi|[Hi|Hi]]]; [apply Hw, in_app_iff; auto|apply Hw, in_app_iff; right; left; exact Hi| |apply Hw, in_app_iff; right; right; exact Hi].
    injection Hi as <-. cbn [with_true_length wf_ie1]. left. split; [reflexivity|exact Hv].
Qed.
Print Assumptions C70_control_teid_refuted.

(* A create request with only its sequence number, IMSI and quality of service given ... *)
Definition built_create : Msg1 := mkMsg1 (mkCHdr 16 0 0 (Some 7) None None)
  (set_field (set_field (m_fields (message1_default CreatePDPContextRequest_T)) 0 e_imsi) 17 e_qos).
Example C70_message_built_case : wf_chdr (m_header built_create) /\
  given_or_default1 CreatePDPContextRequest_L (m_fields (message1_default CreatePDPContextRequest_T)) (m_fields built_create) /\
  no_gap CreatePDPContextRequest_L (m_fields built_create) /\ nlen (msg1_octets built_create) = 49.
Proof.
  split; [repeat split|]. split; [|split; [apply no_gapb_ok; vm_compute; reflexivity|vm_compute; reflexivity]].
  split; [reflexivity|]. intros j f v Hf Hv.
  match type of Hf with nth_error ?l _ = _ => let l' := eval hnf in l in change l with l' in Hf end.
  repeat (lazymatch type of Hf with nth_error (_ :: _) _ = _ => idtac end; destruct j as [|j]; cbn [nth_error] in Hf;
    [injection Hf as <-; cbn [f_name];
     first [right; split; [exact Hv|unfold must_be_given1; cbn [In]; intros A; repeat (destruct A as [A|A]; [discriminate A|]); exact A]
           |left; vm_compute in Hv; injection Hv as <-; split; [reflexivity|];
            first [exact (proj1 (Forall_forall _ _) sample_elements e_imsi ltac:(cbn; tauto))|exact (proj1 (Forall_forall _ _) sample_elements e_qos ltac:(cbn; tauto))]]|]).
  destruct j; discriminate Hf.
Qed.
(* ... and two responses whose TEID for control was built with [Teid { teid: 7, ..Teid::default() }]. *)
Example C70_control_teid_case : forall m d, In d [None; Some (e_teid 16 9)] ->
  let x := mkMsg1 (mkCHdr 17 0 9 (Some 1) None None)
    (set_field (match d with Some i => set_field (m_fields (message1_default CreatePDPContextResponse_T)) 3 i | None => m_fields (message1_default CreatePDPContextResponse_T) end)
      4 (I1_Teid (mkTv 16 7))) in
  exists y, msg1_unmarshal CreatePDPContextResponse_T m (msg1_marshal x []) = Ok y /\ nth_error (m_fields y) 4 = Some None.
Proof. intros m d [<-|[<-|[]]]; eexists; (split; [destruct m; vm_compute; reflexivity|reflexivity]). Qed.

(* The four other messages *)
Theorem C70_default_others : forall m,
  Vns_unmarshal m (Vns_marshal Vns_default []) = Ok (chdr_with_length Vns_default 0) /\
  CEchoReq_unmarshal m (CEchoReq_marshal CEchoReq_default []) = Ok (mkCEchoReq (chdr_with_length (ceq_header CEchoReq_default) 0) None) /\
  CEchoResp_unmarshal m (CEchoResp_marshal CEchoResp_default []) = Ok (mkCEchoResp (chdr_with_length (cer_header CEchoResp_default) 2) (mkTv 14 0) None) /\
  CSup_unmarshal m (CSup_marshal CSup_default []) = Ok (mkCSup (chdr_with_length (cs_header CSup_default) 2) (mkTlv 141 0 [])).
Proof. intros [|]; repeat split. Qed.
Print Assumptions C70_default_others.

(* ------------------------------------------------------------------------- *)
(* GTP-U: the lengths in the header and in the elements are filled in on the way. *)
Definition true_pe (p : PrivateExtension) : PrivateExtension := mkPe (pe_t p) (nlen (pe_value p) + 2) (pe_id p) (pe_value p).
Definition true_gsn (g : GsnAddress) : GsnAddress := mkGsn (gsn_t g) (match gsn_ip g with V4 _ _ _ _ => 4 | V6 _ => 16 end) (gsn_ip g).
Definition true_ehtl (l : ExtensionHeaderTypeList) : ExtensionHeaderTypeList := mkEhtl (ehtl_t l) (nlen (ehtl_list l)) (ehtl_list l).

Lemma any_length h n p : set_length (hdr_marshal (with_length h n) ++ p) = set_length (hdr_marshal h ++ p).
Proof.
  rewrite !set_length_hdr. assert (E : nlen (hdr_marshal (with_length h n) ++ p) = nlen (hdr_marshal h ++ p)).
  { unfold nlen. rewrite !app_length, with_length_length. reflexivity. }
  rewrite E. reflexivity.
Qed.
Lemma true_pe_octets o : opt_bytes Pe_marshal (option_map true_pe o) = opt_bytes Pe_marshal o.
Proof. destruct o as [[t l i v]|]; [|reflexivity]. cbn [option_map opt_bytes]. unfold Pe_marshal, true_pe. cbn [pe_t pe_length pe_id pe_value app enc16]. rewrite !set_tlv_cons. reflexivity. Qed.
Lemma true_gsn_octets g : Gsn_marshal (true_gsn g) = Gsn_marshal g.
Proof. destruct g as [t l i]. unfold Gsn_marshal, true_gsn. cbn [gsn_t gsn_length gsn_ip app enc16]. rewrite !set_tlv_cons. reflexivity. Qed.
Lemma true_ehtl_octets l : Ehtl_marshal (true_ehtl l) = Ehtl_marshal l.
Proof. destruct l as [t n l]. reflexivity. Qed.
Lemma set_length_ge h p : 8 <= nlen (set_length (hdr_marshal h ++ p)).
Proof. rewrite set_length_hdr. unfold nlen. rewrite app_length, with_length_length. pose proof (hdr_marshal_ge8 h). lia. Qed.
Lemma sendable_any mt h p : wf_header h -> faithful_combination h -> msgtype h = mt -> nlen (set_length (hdr_marshal h ++ p)) <= 65535 ->
  sendable mt (with_length h (nlen (set_length (hdr_marshal h ++ p)) - 8)) (set_length (hdr_marshal h ++ p)).
Proof.
  intros (H1 & H2 & H3 & H4) Hf Ht Hn. pose proof (set_length_ge h p) as H8. split; [|split; [exact Hf|split; [exact Ht|cbn [with_length h_length]; lia]]].
  split; [|split; [exact H2|split; [exact H3|exact H4]]]. cbn [with_length h_length]. unfold u16. lia.
Qed.

Theorem C70_echo_request_end_marker_built : forall m x mt, (mt = 1 \/ mt = 254) ->
  wf_header (sm_header x) -> faithful_combination (sm_header x) -> msgtype (sm_header x) = mt ->
  wf_opt (fun p => wf_pe (true_pe p)) (sm_private_ext x) -> 8 < nlen (Simple_marshal x []) <= 65535 ->
  Simple_unmarshal mt m (Simple_marshal x []) =
  Ok (mkSimple (with_length (sm_header x) (nlen (Simple_marshal x []) - 8)) (option_map true_pe (sm_private_ext x))).
Proof.
  intros m [h p] mt Hmt Hw Hf Ht Hp Hn. cbn [sm_header sm_private_ext] in *.
  pose proof (sendable_any mt h (opt_bytes Pe_marshal p) Hw Hf Ht (proj2 Hn)) as Hs.
  change (set_length _) with (Simple_marshal (mkSimple h p) []) in Hs. set (n := nlen _ - 8) in *.
  assert (E : Simple_marshal (mkSimple h p) [] = Simple_marshal (mkSimple (with_length h n) (option_map true_pe p)) []).
  { unfold Simple_marshal. cbn [app sm_header sm_private_ext]. rewrite any_length, true_pe_octets. reflexivity. }
  assert (Hp' : wf_opt wf_pe (option_map true_pe p)) by (destruct p; exact Hp).
  assert (Hn' : 0 < n) by (subst n; lia). clearbody n. rewrite E in Hs |- *.
  destruct Hmt as [-> | ->].
  - exact (PropsV1U.C05_echo_request_roundtrip m (mkSimple (with_length h n) (option_map true_pe p)) Hs Hn' Hp').
  - exact (PropsV1U.C05_end_marker_roundtrip m (mkSimple (with_length h n) (option_map true_pe p)) Hs Hn' Hp').
Qed.
Print Assumptions C70_echo_request_end_marker_built.

Theorem C70_echo_response_built : forall m x,
  wf_header (er_header x) -> faithful_combination (er_header x) -> msgtype (er_header x) = 2 -> wf_rec (er_recovery x) ->
  wf_opt (fun p => wf_pe (true_pe p)) (er_private_ext x) -> nlen (EchoResponse_marshal x []) <= 65535 ->
  EchoResponse_unmarshal m (EchoResponse_marshal x []) =
  Ok (mkEchoResp (with_length (er_header x) (nlen (EchoResponse_marshal x []) - 8)) (er_recovery x) (option_map true_pe (er_private_ext x))).
Proof.
  intros m [h r p] Hw Hf Ht Hr Hp Hn. cbn [er_header er_recovery er_private_ext] in *.
  pose proof (sendable_any 2 h (Rec_marshal r ++ opt_bytes Pe_marshal p) Hw Hf Ht Hn) as Hs.
  change (set_length _) with (EchoResponse_marshal (mkEchoResp h r p) []) in Hs. set (n := nlen _ - 8) in *.
  assert (E : EchoResponse_marshal (mkEchoResp h r p) [] = EchoResponse_marshal (mkEchoResp (with_length h n) r (option_map true_pe p)) []).
  { unfold EchoResponse_marshal. cbn [app er_header er_recovery er_private_ext]. rewrite any_length, true_pe_octets. reflexivity. }
  assert (Hp' : wf_opt wf_pe (option_map true_pe p)) by (destruct p; exact Hp).
  clearbody n. rewrite E in Hs |- *. exact (PropsV1U.C05_echo_response_roundtrip m (mkEchoResp (with_length h n) r (option_map true_pe p)) Hs Hr Hp').
Qed.
Print Assumptions C70_echo_response_built.

Theorem C70_error_indication_built : forall m x,
  wf_header (ei_header x) -> faithful_combination (ei_header x) -> msgtype (ei_header x) = 26 ->
  wf_teid (ei_teid x) -> wf_gsn (true_gsn (ei_peer x)) ->
  wf_opt (fun p => wf_pe (true_pe p)) (ei_private x) -> nlen (ErrorIndication_marshal x []) <= 65535 ->
  ErrorIndication_unmarshal m (ErrorIndication_marshal x []) =
  Ok (mkErrInd (with_length (ei_header x) (nlen (ErrorIndication_marshal x []) - 8)) (ei_teid x) (true_gsn (ei_peer x)) (option_map true_pe (ei_private x))).
Proof.
  intros m [h t g p] Hw Hf Ht Hte Hg Hp Hn. cbn [ei_header ei_teid ei_peer ei_private] in *.
  pose proof (sendable_any 26 h (Teid_marshal t ++ Gsn_marshal g ++ opt_bytes Pe_marshal p) Hw Hf Ht Hn) as Hs.
  change (set_length _) with (ErrorIndication_marshal (mkErrInd h t g p) []) in Hs. set (n := nlen _ - 8) in *.
  assert (E : ErrorIndication_marshal (mkErrInd h t g p) [] = ErrorIndication_marshal (mkErrInd (with_length h n) t (true_gsn g) (option_map true_pe p)) []).
  { unfold ErrorIndication_marshal. cbn [app ei_header ei_teid ei_peer ei_private]. rewrite any_length, true_pe_octets, true_gsn_octets. reflexivity. }
  assert (Hp' : wf_opt wf_pe (option_map true_pe p)) by (destruct p; exact Hp).
  assert (Hn' : n <= 65527) by (subst n; lia).
  clearbody n. rewrite E in Hs |- *. exact (PropsV1U.C05_error_indication_roundtrip m (mkErrInd (with_length h n) t (true_gsn g) (option_map true_pe p)) Hs Hn' Hte Hg Hp').
Qed.
Print Assumptions C70_error_indication_built.

Theorem C70_supported_extension_headers_built : forall m x,
  wf_header (sn_header x) -> faithful_combination (sn_header x) -> msgtype (sn_header x) = 31 ->
  V1USpec.wf_ehtl (true_ehtl (sn_list x)) -> nlen (SupExtNotif_marshal x []) <= 65535 ->
  SupExtNotif_unmarshal m (SupExtNotif_marshal x []) =
  Ok (mkSup (with_length (sn_header x) (nlen (SupExtNotif_marshal x []) - 8)) (true_ehtl (sn_list x))).
Proof.
  intros m [h l] Hw Hf Ht Hl Hn. cbn [sn_header sn_list] in *.
  pose proof (sendable_any 31 h (Ehtl_marshal l) Hw Hf Ht Hn) as Hs.
  change (set_length _) with (SupExtNotif_marshal (mkSup h l) []) in Hs. set (n := nlen _ - 8) in *.
  assert (E : SupExtNotif_marshal (mkSup h l) [] = SupExtNotif_marshal (mkSup (with_length h n) (true_ehtl l)) []).
  { unfold SupExtNotif_marshal. cbn [app sn_header sn_list]. rewrite any_length, true_ehtl_octets. reflexivity. }
  assert (Hn' : n <= 65527) by (subst n; lia).
  clearbody n. rewrite E in Hs |- *. exact (PropsV1U.C05_supported_ext_headers_roundtrip m (mkSup (with_length h n) (true_ehtl l)) Hs Hn' Hl).
Qed.
Print Assumptions C70_supported_extension_headers_built.

(* The message of examples/sending_msg.rs: built with the lengths of default(), among them 4 for an IPv6 address. *)
Definition example_message : ErrorIndication :=
  mkErrInd (mkHdr 26 (h_length hdr_default) 4001 (Some 2000) (npdu_number hdr_default)
     (Some [EH_UDPPort (mkNumExt (ne_type UDPPort_default) (ne_length UDPPort_default) 6511)]))
   (mkTeid (te_t teid_default) 5000) (mkGsn (gsn_t gsn_default) (gsn_length gsn_default) (V6 [0;255;0;255;0;255;0;255;0;255;0;255;0;255;0;255])) None.
Example C70_example_message : gsn_length (ei_peer example_message) = 4 /\ wf_header (ei_header example_message) /\
  faithful_combination (ei_header example_message) /\ wf_teid (ei_teid example_message) /\ wf_gsn (true_gsn (ei_peer example_message)) /\
  nlen (ErrorIndication_marshal example_message []) = 40.
Proof.
  split; [reflexivity|]. split; [split; [reflexivity|split; [reflexivity|split]]|split; [left; discriminate|split; [split; reflexivity|split; [split; [reflexivity|split; reflexivity]|vm_compute; reflexivity]]]].
  - intros s H. injection H as <-. reflexivity.
  - intros l H. injection H as <-. constructor; [|constructor]. split; [left; reflexivity|]. split; reflexivity.
Qed.

(* The default messages: two arrive, and four are refused. *)
Theorem C70_default_u : forall m,
  EchoResponse_unmarshal m (EchoResponse_marshal EchoResponse_default []) = Ok (mkEchoResp (with_length (er_header EchoResponse_default) 2) rec_default None) /\
  ErrorIndication_unmarshal m (ErrorIndication_marshal ErrorIndication_default []) = Ok (mkErrInd (with_length (ei_header ErrorIndication_default) 12) teid_default gsn_default None).
Proof. intros [|]; split; reflexivity. Qed.
Print Assumptions C70_default_u.
Theorem C70_default_u_refuted : forall m,
  EchoRequest_unmarshal m (Simple_marshal EchoRequest_default []) = Err HeaderInvalidLength /\
  EndMarker_unmarshal m (Simple_marshal EndMarker_default []) = Err HeaderInvalidLength /\
  Gpdu_unmarshal m (Gpdu_marshal Gpdu_default []) = Err HeaderInvalidLength /\
  SupExtNotif_unmarshal m (SupExtNotif_marshal SupExtNotif_default []) = Err MessageMandatoryIEMissing.
Proof. intros [|]; repeat split. Qed.
Print Assumptions C70_default_u_refuted.

(* The length octet of a container extension header is not filled in: with the 1 of default() only a container of two
   octets is received, and any other content is never what a receiver decodes. *)
Definition container_of (e : ExtensionHeader) : option BlobExt :=
  match e with
  | EH_RanContainer x | EH_XwRanContainer x | EH_NrRanContainer x | EH_PduSessionContainer x => Some x
  | _ => None
  end.
Definition fits_default (e : ExtensionHeader) : Prop :=
  match container_of e with Some x => be_length x = 1 -> nlen (be_container x) = 2 | None => True end.
Lemma blob_fits t m b x : Blob_unmarshal t m b = Ok x -> be_length x = 1 -> nlen (be_container x) = 2.
Proof.
  unfold Blob_unmarshal, ext_checked. intros H Hl. apply bind_ok in H as (l & H1 & H). destruct (l =? 0); [discriminate|].
  apply bind_ok in H as (s & H2 & H). destruct (N.to_nat s <=? length b)%nat eqn:E; [|discriminate].
  apply bind_ok in H as (c & H3 & H). apply Ok_inj in H. subst x. cbn [be_length be_container] in *. subst l.
  assert (s = 4) as -> by (destruct m; vm_compute in H2; congruence).
  apply Nat.leb_le in E. rewrite slice_ok in H3 by (cbn; lia). apply Ok_inj in H3. subst c. unfold nlen.
  rewrite firstn_length, skipn_length. change (N.to_nat 4) with 4%nat in *. lia.
Qed.
Lemma ext_fits m b e : ext_unmarshal m b = Ok e -> fits_default e.
Proof.
  unfold ext_unmarshal. intros H. apply bind_ok in H as (t & _ & H).
  repeat match type of H with (if ?c then _ else _) = Ok _ => destruct c end;
    try (apply Ok_inj in H; subst e; exact I); apply bind_ok in H as (x & Hx & H); apply Ok_inj in H; subst e; try exact I;
    intros Hl; exact (blob_fits _ _ _ _ Hx Hl).
Qed.
Lemma loop_fits m : forall fuel b p d l, ext_loop m fuel b p d = Ok l -> Forall fits_default d -> Forall fits_default l.
Proof.
  induction fuel as [|fuel IH]; intros b p d l H Hd; [discriminate|]. cbn [ext_loop] in H.
  apply bind_ok in H as (r & _ & H). apply bind_ok in H as (e & He & H). apply ext_fits in He.
  destruct e; [apply Ok_inj in H; subst l; exact Hd|..]; apply bind_ok in H as (n & _ & H);
    apply (IH _ _ _ _ H), Forall_app; (split; [exact Hd|constructor; [exact He|constructor]]).
Qed.
Lemma optional_fits m b mt n td np ex h l : hdr_optional m b mt n td np ex = Ok h -> extension_headers h = Some l -> Forall fits_default l.
Proof.
  unfold hdr_optional. intros H Hl. apply bind_ok in H as (o & _ & H). destruct (4 <=? length o)%nat; [|discriminate].
  apply bind_ok in H as (s1 & _ & H). apply bind_ok in H as (s2 & _ & H). apply bind_ok in H as (np' & _ & H). destruct ex.
  - apply bind_ok in H as (r & _ & H). apply bind_ok in H as (i & Hi & H). apply Ok_inj in H. subst h. cbn [extension_headers] in Hl.
    injection Hl as <-. exact (loop_fits m _ _ _ _ _ Hi (Forall_nil _)).
  - apply Ok_inj in H. subst h. discriminate Hl.
Qed.
Theorem C70_container_refuted : forall m h l e x, extension_headers h = Some l -> In e l -> container_of e = Some x ->
  be_length x = 1 -> nlen (be_container x) <> 2 -> forall b, hdr_unmarshal m b <> Ok h.
Proof.
  intros m h l e x Hl He Hc H1 H2 b H.
  assert (F : Forall fits_default l).
  { unfold hdr_unmarshal in H. destruct (8 <=? length b)%nat; [|discriminate]. apply bind_ok in H as (b0 & _ & H).
    destruct (_ && _); [|discriminate]. apply bind_ok in H as (mt & _ & H). apply bind_ok in H as (l1 & _ & H). apply bind_ok in H as (l2 & _ & H).
    destruct (be16 l1 l2 =? 0); [discriminate|]. do 4 (apply bind_ok in H as (? & _ & H)).
    unfold hdr_flags in H.
    repeat match type of H with match ?c with _ => _ end = Ok _ => destruct c end;
      try (apply Ok_inj in H; subst h; discriminate Hl); exact (optional_fits _ _ _ _ _ _ _ _ _ H Hl). }
  rewrite Forall_forall in F. specialize (F e He). unfold fits_default in F. rewrite Hc in F. exact (H2 (F H1)).
Qed.
Print Assumptions C70_container_refuted.
(* A PDU session container of two octets is received, and one of six, which needs the length 2, is not: its last four
   octets are taken for the next extension header or for the payload. *)
Example C70_container_case : forall m c, In c [[16; 5]; [16; 5; 0; 0; 0; 0]] ->
  let h := mkHdr 255 0 7 (Some 1) None (Some [EH_PduSessionContainer (mkBlobExt (be_type PduSessionContainer_default) (be_length PduSessionContainer_default) c)]) in
  exists g, Gpdu_unmarshal m (Gpdu_marshal (mkGpdu h [69; 0]) []) = Ok g /\
    gp_tpdu g = if nlen c =? 2 then [69; 0] else [0; 0; 0; 0; 69; 0].
Proof. intros m c [<-|[<-|[]]]; eexists; (split; [destruct m; vm_compute; reflexivity|reflexivity]). Qed.
(* The other extension headers arrive as default() leaves them, and take the octets their length says. *)
Theorem C70_default_extension : forall m e r, In e
  [EH_PDCPPDUNumber PDCPPDUNumber_default; EH_UDPPort UDPPort_default; EH_LongPDCPPDUNumber LongPDCPPDUNumber_default; EH_Sci Sci_default] ->
  ext_unmarshal m (ext_marshal e ++ r) = Ok e /\ ext_len m e = Ok (length (ext_marshal e)).
Proof. intros m e r H. cbn [In] in H. repeat (destruct H as [<-|H]; [destruct m; split; reflexivity|]). destruct H. Qed.
Print Assumptions C70_default_extension.
Theorem C70_default_extension_c : forall m e r, In e
  [CPDCPPDUNumber_default; CSuspendRequest_default; CSuspendResponse_default;
   CMBMSSupportIndication_default; CMSInfoChangeReporting_default] ->
  cext_unmarshal m (cext_marshal e ++ r) = Ok e /\ cext_len m e = Ok (length (cext_marshal e)).
Proof. intros m e r H. cbn [In] in H. repeat (destruct H as [<-|H]; [destruct m; split; reflexivity|]). destruct H. Qed.
Print Assumptions C70_default_extension_c.
