(* PropsV2Exact.v - C65, continued: for elements that are neither groups nor MM contexts the condition of V2ForwardSpec.v is exact.
   An element that does not meet it is lost, or spoils what follows it. *)
From Verif Require Import Base BaseFacts Digits DigitsFacts Labels LabelsFacts LabelsLen V2ForwardSpec V2MsgReadSpec V2Forward V2ForwardC V2ListFacts V2DecMore V2DecFacts V2IeFacts V2Cursor.
From Verif Require V2DecLoop V2OwnFacts V2CrashMm V2CommonFacts V2Volume PropsV2Ie PropsV2Forward.
Local Open Scope N_scope.
Notation length := List.length.

(* An element arrives wherever it is put: in front of any elements that arrive (C18), the next receiver has it (with the lengths of
   the octets sent) and has the ones behind it. *)
Definition arrives (e : ie) : Prop := forall m after, Forall (fun x => ie_wf x /\ routed x) after ->
  decoder m (encoder (e :: after)) = Ok (again e :: after).
Definition set_apart (e : ie) : Prop :=
  match e with
  | IE_LoadControlInfo _ | IE_OverloadControlInfo _ | IE_RemoteUeContext _ | IE_PC5QosParameters _ | IE_PgwChangeInfo _ | IE_ScefPdnConnections _
  | IE_BearerContext _ | IE_V2xInformation _ | IE_PdnConnections _ | IE_MmContext _ | IE_Unknown _ => True
  | _ => False
  end.

(* --- what arriving says about one round of the decoder -------------------------------------------------------------- *)
Definition next : ie := IE_Recovery (mkIe 3 1 0 0).
Definition next_octets : list N := [3; 0; 1; 0; 0].
Lemma next_ok : ie_wf next /\ routed next.
Proof. split; [|exact I]. repeat split; try reflexivity; vm_compute; try reflexivity; discriminate. Qed.
Lemma round m b x l : b <> [] -> decoder m b = Ok (x :: l) -> decode_one (decoder m) m b = Ok x /\
  exists k f, ie_len m x = Ok k /\ ie_loop (decode_one (decoder m) m) m f (skipn k b) = Ok l.
Proof.
  intros N D. rewrite V2DecLoop.decoder_eq in D. destruct b as [|t b]; [congruence|]. cbn [length ie_loop] in D.
  destruct (decode_one (decoder m) m (t :: b)) as [e| | |]; try discriminate D. cbn [bind] in D.
  destruct (ie_len m e) as [k| | |] eqn:K; try discriminate D. cbn [bind] in D.
  destruct (ie_loop _ m (length b) _) as [r| | |] eqn:R; try discriminate D. cbn [bind] in D. apply Ok_inj in D. injection D as -> ->.
  split; [reflexivity|]. exists k, (length b). split; assumption.
Qed.
Lemma round2 m f b x l : ie_loop (decode_one (decoder m) m) m f b = Ok (x :: l) -> decode_one (decoder m) m b = Ok x.
Proof.
  intros D. destruct b as [|t b]; [destruct f; discriminate D|]. destruct f as [|f]; [discriminate D|]. cbn [ie_loop] in D.
  destruct (decode_one (decoder m) m (t :: b)) as [e| | |]; try discriminate D. cbn [bind] in D.
  destruct (ie_len m e) as [k| | |] eqn:K; try discriminate D. cbn [bind] in D.
  destruct (ie_loop _ m f _) as [r| | |] eqn:R; try discriminate D. cbn [bind] in D. apply Ok_inj in D. injection D as -> ->. reflexivity.
Qed.
Lemma loop_nil one m f b : ie_loop one m f b = Ok [] -> b = [].
Proof.
  destruct b as [|t b]; [reflexivity|]. destruct f as [|f]; [discriminate|]. cbn [ie_loop]. destruct (one _); cbn [bind]; try discriminate.
  destruct (ie_len _ _); cbn [bind]; try discriminate. destruct (ie_loop _ _ _ _); cbn [bind]; discriminate.
Qed.
Lemma next_long m b : decode_one (decoder m) m b = Ok next -> (5 <= length b)%nat.
Proof.
  intros D. pose proof (decode_one_post (decoder m) m b next D) as [C _].
  assert (T : nth 0 b 0 = 3).
  { destruct (N.eq_dec (nth 0 b 0) 169) as [E|E]; [|exact (C E)].
    destruct b as [|t b]; [discriminate E|]. cbn [nth] in E. subst t. rewrite disp_169 in D by reflexivity. unfold lift in D.
    destruct (ActionIndication_unmarshal m _); discriminate D. }
  destruct b as [|t b]; [discriminate T|]. cbn [nth] in T. subst t. rewrite disp_3 in D by reflexivity. unfold lift, Recovery_unmarshal, need in D.
  destruct (Nat.leb_spec 5 (length (3 :: b))); [assumption|discriminate D].
Qed.
Lemma arrives_says e m : ie_marshal e <> [] -> arrives e ->
  decode_one (decoder m) m (ie_marshal e) = Ok (again e) /\
  decode_one (decoder m) m (ie_marshal e ++ next_octets) = Ok (again e) /\
  ie_len m (again e) = Ok (length (ie_marshal e)).
Proof.
  intros N A. pose proof (A m [] (Forall_nil _)) as D0. pose proof (A m [next] ltac:(constructor; [exact next_ok|constructor])) as D1.
  unfold encoder in D0, D1. cbn [map concat] in D0, D1. rewrite app_nil_r in D0, D1.
  change (ie_marshal next) with next_octets in D1.
  apply round in D0 as (O0 & k & f & K & L0); [|exact N].
  apply round in D1 as (O1 & k' & f' & K' & L1); [|destruct (ie_marshal e); [congruence|discriminate]].
  rewrite K in K'. apply Ok_inj in K'. subst k'. apply loop_nil in L0. apply round2 in L1. apply next_long in L1.
  split; [exact O0|]. split; [exact O1|]. rewrite K. f_equal.
  apply (f_equal (@length _)) in L0. rewrite skipn_length in L0, L1. rewrite app_length in L1. cbn [length next_octets] in L0, L1. lia.
Qed.

(* --- inversions ------------------------------------------------------------------------------------------------------ *)
Lemma lift_inv {A} (c : A -> ie) r z : lift c r = Ok z -> exists i, r = Ok i /\ z = c i.
Proof. unfold lift. destruct r; try discriminate. cbn [bind]. intros E. apply Ok_inj in E. subst. eauto. Qed.
Lemma need_inv {A} b n e (k : res A) x : need b n e k = Ok x -> (n <= length b)%nat /\ k = Ok x.
Proof. unfold need. destruct (Nat.leb_spec n (length b)); [auto|discriminate]. Qed.
Lemma checked_inv {A} m l b e (k : res A) x : checked m l b e k = Ok x -> l <> 0 /\ k = Ok x.
Proof.
  unfold checked, check_tliv_ie_buffer. destruct (N.eqb_spec l 0); [discriminate|]. destruct (add16 m l 4); try discriminate. cbn [bind].
  destruct (_ <=? _)%nat; [auto|discriminate].
Qed.
Lemma be16_len n : n <= 65535 -> be16 ((n mod 65536) / 256 mod 256) ((n mod 65536) mod 256) = n.
Proof. intros H. unfold be16. lia. Qed.
Lemma bind_inv {A B} (r : res A) (k : A -> res B) x : bind r k = Ok x -> exists a, r = Ok a /\ k a = Ok x.
Proof. destruct r; try discriminate. cbn [bind]. eauto. Qed.
Lemma end16_inv m l k e : l <= 65531 -> k <= 4 -> end16 m l k = Ok e -> e = N.to_nat (l + k).
Proof. intros H K E. rewrite end16_ok in E by lia. apply Ok_inj in E. congruence. Qed.
Lemma size_value t l i v : nlen (tliv t l i v) <= 65535 -> nlen v <= 65531.
Proof. unfold nlen. rewrite tliv_length. lia. Qed.

(* --- the kinds, one by one --------------------------------------------------------------------------------------------- *)
Ltac opened D mar dsp := unfold ie_marshal, mar, marshal_ie in D; rewrite tliv_eq in D; cbn [app] in D; rewrite dsp in D by reflexivity;
  apply lift_inv in D as (? & D & EQ); cbn [again] in EQ; injection EQ as <-.
Lemma imsi_exact x m : nlen (ie_marshal (IE_Imsi x)) <= 65535 -> decode_one (decoder m) m (ie_marshal (IE_Imsi x)) = Ok (again (IE_Imsi x)) -> ie_v x <> [].
Proof.
  intros S D E. opened D Imsi_marshal disp_1. unfold Imsi_unmarshal in D. rewrite E in D. apply need_inv in D as [L _]. change (5 <= 4)%nat in L. lia.
Qed.
Lemma msisdn_exact x m : nlen (ie_marshal (IE_Msisdn x)) <= 65535 -> decode_one (decoder m) m (ie_marshal (IE_Msisdn x)) = Ok (again (IE_Msisdn x)) -> ie_v x <> [].
Proof.
  intros S D E. opened D Msisdn_marshal disp_76. unfold Msisdn_unmarshal in D. rewrite E in D. apply need_inv in D as [_ D]. rewrite hdr4_cons in D.
  apply checked_inv in D as [D _]. apply D. reflexivity.
Qed.
Lemma altimsi_exact x m : nlen (ie_marshal (IE_AlternativeImsi x)) <= 65535 -> decode_one (decoder m) m (ie_marshal (IE_AlternativeImsi x)) = Ok (again (IE_AlternativeImsi x)) -> ie_v x <> [].
Proof.
  intros S D E. opened D AlternativeImsi_marshal disp_219. unfold AlternativeImsi_unmarshal in D. rewrite E in D. apply need_inv in D as [L _]. change (5 <= 4)%nat in L. lia.
Qed.
(* 12 octets are passed over: eight of digits *)
Lemma mei_exact x m : nlen (ie_marshal (IE_Mei x)) <= 65535 -> decode_one (decoder m) m (ie_marshal (IE_Mei x)) = Ok (again (IE_Mei x)) ->
  ie_len m (again (IE_Mei x)) = Ok (length (ie_marshal (IE_Mei x))) -> (length (ie_v x) = 15 \/ length (ie_v x) = 16)%nat.
Proof.
  intros S D K. cbn [again ie_len] in K. unfold Mei_len, len_const in K. apply Ok_inj in K.
  unfold ie_marshal, Mei_marshal, marshal_ie in K. rewrite tliv_length in K. unfold Mei_value in K.
  opened D Mei_marshal disp_75. unfold Mei_unmarshal in D. apply need_inv in D as [_ D]. rewrite hdr4_cons in D.
  apply checked_inv in D as [_ D]. apply bind_inv in D as (e & _ & D). apply bind_inv in D as (s & _ & D). apply Ok_inj in D.
  unfold std, true_length in D. injection D as _ _ _ D.
  assert (G : Forall digit_char (ie_v x)).
  { rewrite <- D. unfold tbcd_decode. generalize (concat (map (fun x => [N.land x 15; N.shiftr x 4]) s)). intros l. induction l as [|d l IH]; [constructor|].
    cbn [filter_map]. unfold from_digit at 1. destruct (N.ltb_spec d 10); [|exact IH]. constructor; [unfold digit_char; lia|exact IH]. }
  pose proof (tbcd_encode_length _ G) as T. lia.
Qed.
Lemma ldn_exact x m : nlen (ie_marshal (IE_Ldn x)) <= 65535 -> decode_one (decoder m) m (ie_marshal (IE_Ldn x)) = Ok (again (IE_Ldn x)) -> ascii (ie_v x).
Proof.
  intros S D. apply size_value in S. opened D Ldn_marshal disp_151. unfold Ldn_unmarshal in D. apply need_inv in D as [_ D]. rewrite hdr4_cons in D.
  rewrite be16_len in D by lia. apply checked_inv in D as [_ D]. apply bind_inv in D as (s & Hs & D). apply Ok_inj in D. unfold std, true_length in D. injection D as _ _ _ D.
  apply V2DecLoop.slice_len in Hs as [L _]. rewrite D in L. apply utf8_len. unfold Ldn_value, nlen in L. lia.
Qed.
Lemma whole {E} a b c d (v : list N) : @slice E (a :: b :: c :: d :: v) 4 (4 + N.to_nat (nlen v)) = Ok v.
Proof. rewrite <- (app_nil_r v) at 1. apply slice4. unfold nlen. rewrite Nat2N.id. reflexivity. Qed.
Lemma apn_exact x m : nlen (ie_marshal (IE_Apn x)) <= 65535 -> decode_one (decoder m) m (ie_marshal (IE_Apn x)) = Ok (again (IE_Apn x)) -> ascii (ie_v x).
Proof.
  intros S D. apply size_value in S. opened D Apn_marshal disp_71. unfold Apn_unmarshal in D. apply need_inv in D as [_ D]. rewrite hdr4_cons in D.
  rewrite be16_len in D by lia. apply checked_inv in D as [_ D]. rewrite whole in D. cbn [bind] in D. apply bind_inv in D as (n & Hn & D). apply Ok_inj in D.
  unfold std, true_length in D. injection D as _ _ _ D. subst n. apply labels_kept in Hn. exact Hn.
Qed.
Lemma fqdn_exact x m : nlen (ie_marshal (IE_Fqdn x)) <= 65535 -> decode_one (decoder m) m (ie_marshal (IE_Fqdn x)) = Ok (again (IE_Fqdn x)) -> ascii (ie_v x).
Proof.
  intros S D. apply size_value in S. opened D Fqdn_marshal disp_136. unfold Fqdn_unmarshal in D. apply need_inv in D as [_ D]. rewrite hdr4_cons in D.
  rewrite be16_len in D by lia. apply checked_inv in D as [_ D]. rewrite whole in D. cbn [bind] in D. apply bind_inv in D as (n & Hn & D). apply Ok_inj in D.
  unfold std, true_length in D. injection D as _ _ _ D. subst n. apply labels_kept in Hn. exact Hn.
Qed.
Lemma pgwfqdn_exact x m : nlen (ie_marshal (IE_PgwFqdn x)) <= 65535 -> decode_one (decoder m) m (ie_marshal (IE_PgwFqdn x)) = Ok (again (IE_PgwFqdn x)) -> ascii (ie_v x).
Proof.
  intros S D. apply size_value in S. opened D PgwFqdn_marshal disp_215. unfold PgwFqdn_unmarshal in D. apply need_inv in D as [_ D]. rewrite hdr4_cons in D.
  rewrite be16_len in D by lia. apply checked_inv in D as [_ D]. rewrite whole in D. cbn [bind] in D. apply bind_inv in D as (n & Hn & D). apply Ok_inj in D.
  unfold std, true_length in D. apply (f_equal ie_v) in D. cbn [ie_v std] in D. subst n. apply labels_kept in Hn. exact Hn.
Qed.
Lemma arc_exact x m : nlen (ie_marshal (IE_ApnRelativeCapacity x)) <= 65535 -> decode_one (decoder m) m (ie_marshal (IE_ApnRelativeCapacity x)) = Ok (again (IE_ApnRelativeCapacity x)) ->
  ascii (arc_name (ie_v x)).
Proof.
  intros S D. apply size_value in S. opened D ApnRelativeCapacity_marshal disp_184. unfold ApnRelativeCapacity_unmarshal in D. apply need_inv in D as [_ D]. rewrite hdr4_cons in D.
  rewrite be16_len in D by lia. apply checked_inv in D as [_ D]. apply bind_inv in D as (c & _ & D). cbv zeta in D. apply bind_inv in D as (s & Hs & D).
  apply bind_inv in D as (n & Hn & D). apply Ok_inj in D. unfold std, true_length in D. apply (f_equal ie_v) in D. cbn [ie_v std] in D.
  assert (n = arc_name (ie_v x)) by (rewrite <- D; reflexivity). subst n.
  unfold ApnRelativeCapacity_value in Hs. rewrite slice_ok in Hs by (cbn [length]; rewrite nlen_cons; unfold nlen; lia).
  apply Ok_inj in Hs. cbn [skipn] in Hs. rewrite firstn_all2 in Hs by (rewrite nlen_cons; unfold nlen; lia). subst s. exact (labels_kept _ Hn).
Qed.

Lemma amm_len b k o k' : amm_field b k = Ok (o, k') -> (k < length b)%nat /\ match o with None => k' = (k + 2)%nat | Some s => k' = (k + 1 + length s)%nat /\ (k' <= length b)%nat end.
Proof.
  unfold amm_field. intros H. apply bind_inv in H as (l & Hl & H). assert (K : (k < length b)%nat).
  { apply nth_error_Some. unfold at_ in Hl. destruct (nth_error b k); [discriminate|discriminate Hl]. }
  split; [exact K|]. cbv zeta in H. destruct (Nat.ltb_spec 0 (N.to_nat l)); [|apply Ok_inj in H; injection H as <- <-; reflexivity].
  destruct (Nat.leb_spec (k + 1 + N.to_nat l) (length b)); [|discriminate H]. apply bind_inv in H as (s & Hs & H). apply Ok_inj in H. injection H as <- <-.
  apply V2DecLoop.slice_len in Hs as [L _]. lia.
Qed.
Lemma amm_opt_len o : length (amm_opt o) = match o with None => 1%nat | Some s => S (length s) end.
Proof. destruct o; reflexivity. Qed.
Lemma addmm_exact x m : nlen (ie_marshal (IE_AdditionalMmContextForSrvcc x)) <= 65535 ->
  decode_one (decoder m) m (ie_marshal (IE_AdditionalMmContextForSrvcc x)) = Ok (again (IE_AdditionalMmContextForSrvcc x)) ->
  there (am_classmark2 (ie_v x)) /\ there (am_classmark3 (ie_v x)).
Proof.
  intros S D. opened D AdditionalMmContextForSrvcc_marshal disp_159. unfold AdditionalMmContextForSrvcc_unmarshal in D. apply need_inv in D as [_ D]. rewrite hdr4_cons in D.
  set (b := 159 :: _) in D. assert (L : length b = (4 + length (AdditionalMmContextForSrvcc_value (ie_v x)))%nat) by reflexivity.
  apply bind_inv in D as ([c2 k2] & F2 & D). apply bind_inv in D as ([c3 k3] & F3 & D). apply bind_inv in D as ([cl kl] & Fl & D). apply Ok_inj in D.
  unfold std, true_length in D. apply (f_equal ie_v) in D. cbn [ie_v std] in D. apply amm_len in F2 as [_ F2]. apply amm_len in F3 as [_ F3]. apply amm_len in Fl as [Gl Fl].
  unfold AdditionalMmContextForSrvcc_value in L. rewrite !app_length, !amm_opt_len in L.
  destruct (ie_v x) as [v2 v3 vl]. injection D as <- <- <-. cbn [am_classmark2 am_classmark3 am_codecs] in *. unfold there.
  destruct c2, c3, cl; split; intros C; try discriminate C; lia.
Qed.
Lemma pext_exact x m : nlen (ie_marshal (IE_PrivateExtension x)) <= 65535 -> decode_one (decoder m) m (ie_marshal (IE_PrivateExtension x)) = Ok (again (IE_PrivateExtension x)) ->
  pe_value (ie_v x) <> [].
Proof.
  intros S D E. opened D PrivateExtension_marshal disp_255. unfold PrivateExtension_unmarshal, PrivateExtension_value in D. rewrite E in D.
  apply need_inv in D as [L _]. change (7 <= 6)%nat in L. lia.
Qed.
Lemma prai_exact x m : ie_len m (again (IE_PresenceReportingAreaInformation x)) = Ok (length (ie_marshal (IE_PresenceReportingAreaInformation x))) ->
  exists a, pr_more (ie_v x) = Some [a].
Proof.
  intros K. cbn [again ie_len] in K. unfold PresenceReportingAreaInformation_len, len_const in K. apply Ok_inj in K.
  unfold ie_marshal, PresenceReportingAreaInformation_marshal, marshal_ie in K. rewrite tliv_length in K. unfold PresenceReportingAreaInformation_value in K.
  assert (P : forall l a, length (presence_areas_enc (a :: l)) = (4 * S (length l))%nat).
  { assert (A : forall a c, length (presence_area_enc a c) = 4%nat) by (intros [] c; reflexivity).
    induction l as [|b l IH]; intros a; [apply A|]. change (presence_areas_enc (a :: b :: l)) with (presence_area_enc a true ++ presence_areas_enc (b :: l)).
    rewrite app_length, A, IH. cbn [length]. lia. }
  destruct (pr_more (ie_v x)) as [[|a [|b l]]|]; rewrite P in K; cbn [length] in K; try lia. exists a. reflexivity.
Qed.
Lemma plmn3 p : length (plmn_enc p) = 3%nat. Proof. reflexivity. Qed.
Lemma uci_exact x m : decode_one (decoder m) m (ie_marshal (IE_Uci x)) = Ok (again (IE_Uci x)) -> uc_csgid (ie_v x) < 2 ^ 27.
Proof.
  intros D. opened D Uci_marshal disp_145. unfold Uci_unmarshal in D. apply need_inv in D as [_ D]. rewrite hdr4_cons in D.
  apply bind_inv in D as (c & Hc & D). apply bind_inv in D as (p & _ & D). apply bind_inv in D as (y & _ & D). apply Ok_inj in D.
  unfold std, true_length in D. apply (f_equal ie_v) in D. cbn [ie_v std] in D. assert (E : uc_csgid (ie_v x) = c) by (rewrite <- D; reflexivity).
  assert (B : N.land (uc_csgid (ie_v x)) 134217727 < 2 ^ 27).
  { change 134217727 with (N.ones 27). rewrite N.land_ones. apply N.mod_lt. lia. }
  unfold Uci_value in Hc. do 4 rewrite be_at_cons in Hc. rewrite be_at_skip in Hc by (rewrite plmn3; lia). rewrite plmn3 in Hc. cbn [Nat.sub] in Hc.
  rewrite be_at_enc in Hc by lia. apply Ok_inj in Hc. rewrite E, <- Hc. exact B.
Qed.
Lemma twan_exact x m : decode_one (decoder m) m (ie_marshal (IE_TwanId x)) = Ok (again (IE_TwanId x)) -> False.
Proof.
  intros D. unfold ie_marshal, TwanId_marshal, marshal_ie in D. rewrite tliv_eq in D. rewrite disp_169 in D by reflexivity. apply lift_inv in D as (? & _ & E). discriminate E.
Qed.
Lemma traceref_exact x m : decode_one (decoder m) m (ie_marshal (IE_TraceReference x)) = Ok (again (IE_TraceReference x)) -> False.
Proof.
  intros D. unfold ie_marshal, TraceReference_marshal, marshal_ie in D. rewrite tliv_eq in D. rewrite disp_83 in D by reflexivity. apply lift_inv in D as (? & _ & E). discriminate E.
Qed.
(* which of the two forms of an RNC identity is read is decided by what follows *)
Lemma orelse_inv {A} (r : res A) e x : orelse r e = Ok x -> r = Ok x.
Proof. destruct r; try discriminate. intros H. exact H. Qed.
Lemma from4 {E} a b c d p r n : n = (4 + length p)%nat -> @slice_from E (a :: b :: c :: d :: p ++ r) n = Ok r.
Proof. intros ->. apply (V2CommonFacts.slice_from_app (a :: b :: c :: d :: p)). reflexivity. Qed.
Lemma from1 {E} a r : @slice_from E (a :: r) 1 = Ok r.
Proof. reflexivity. Qed.
Lemma from40 {E} a b c d r : @slice_from E (a :: b :: c :: d :: r) 4 = Ok r.
Proof. reflexivity. Qed.
Lemma source_exact x m : decode_one (decoder m) m (ie_marshal (IE_SourceIdentification x) ++ next_octets) = Ok (again (IE_SourceIdentification x)) ->
  ie_len m (again (IE_SourceIdentification x)) = Ok (length (ie_marshal (IE_SourceIdentification x))) -> source_again (si_source (ie_v x)).
Proof.
  intros D K. destruct (si_source (ie_v x)) as [r|c|] eqn:Q; [|exact I|].
  - opened D SourceIdentification_marshal disp_129. unfold SourceIdentification_unmarshal in D. apply need_inv in D as [_ D]. rewrite hdr4_cons in D.
    apply bind_inv in D as (c & _ & D). apply bind_inv in D as (cell & _ & D). apply bind_inv in D as (t & Ht & D). apply bind_inv in D as (s & Hs & D). apply Ok_inj in D.
    unfold true_length in D. apply (f_equal ie_v) in D. cbn [ie_v std] in D. assert (E : s = St_Rnc r) by (rewrite <- Q, <- D; reflexivity). subst s.
    apply orelse_inv in Hs. unfold SourceIdentification_value in Ht. rewrite Q in Ht. cbn [source_type_to source_type_enc] in Ht.
    rewrite <- !app_assoc in Ht. rewrite from4 in Ht by reflexivity.
    cbn [app] in Ht. apply Ok_inj in Ht. subst t. unfold source_type_dec in Hs. rewrite at_0 in Hs. cbn [bind app] in Hs.
    rewrite from1 in Hs. cbn [bind N.eqb] in Hs. change (1 =? 0) with false in Hs. change (1 =? 1) with true in Hs. cbv iota in Hs.
    apply bind_inv in Hs as (i & Hi & Hs). apply Ok_inj in Hs. injection Hs as ->. apply orelse_inv in Hi. unfold SourceRncIdentifier_dec in Hi.
    set (t := SourceRncIdentifier_enc r ++ next_octets) in Hi. assert (L : (7 <= length t)%nat).
    { unfold t, SourceRncIdentifier_enc. rewrite !app_length, plmn3. cbn [length next_octets]. lia. }
    destruct (Nat.ltb_spec (length t) 6); [lia|]. destruct (Nat.leb_spec 7 (length t)); [|lia].
    apply bind_inv in Hi as (p & _ & Hi). apply bind_inv in Hi as (i & _ & Hi). apply bind_inv in Hi as (e & _ & Hi). apply Ok_inj in Hi. subst r. discriminate.
  - cbn [again ie_len] in K. unfold SourceIdentification_len, len_const in K. apply Ok_inj in K. cbn [true_length ie_v] in K. rewrite Q in K.
    unfold ie_marshal, SourceIdentification_marshal, marshal_ie in K. rewrite tliv_length in K. unfold SourceIdentification_value in K. rewrite Q in K. exfalso. change (14%nat = S (S (S (S (length (CellIdentifier_enc (si_target (ie_v x)) ++ [2]))))) ) in K. rewrite app_length in K. change (length (CellIdentifier_enc (si_target (ie_v x)))) with 8%nat in K. cbn [length] in K. lia.
Qed.
Lemma target_exact x m : decode_one (decoder m) m (ie_marshal (IE_TargetIdentification x) ++ next_octets) = Ok (again (IE_TargetIdentification x)) ->
  ie_len m (again (IE_TargetIdentification x)) = Ok (length (ie_marshal (IE_TargetIdentification x))) -> target_again (ie_v x).
Proof.
  intros D K. cbn [again ie_len] in K. unfold TargetIdentification_len, len_const in K. apply Ok_inj in K. cbn [true_length ie_v] in K.
  unfold ie_marshal, TargetIdentification_marshal, marshal_ie in K. rewrite tliv_length in K. unfold TargetIdentification_value in K.
  destruct (ie_v x) as [r| | | | | | | | |g|] eqn:Q; try exact I.
  - opened D TargetIdentification_marshal disp_121. unfold TargetIdentification_unmarshal in D. apply need_inv in D as [_ D]. rewrite hdr4_cons in D.
    apply bind_inv in D as (t & Ht & D). apply bind_inv in D as (s & Hs & D). apply Ok_inj in D.
    unfold true_length in D. apply (f_equal ie_v) in D. cbn [ie_v std] in D. rewrite Q in D. subst s.
    apply orelse_inv in Hs. unfold TargetIdentification_value in Ht. rewrite Q in Ht. cbn [target_type_to target_type_enc app] in Ht.
    rewrite from40 in Ht. apply Ok_inj in Ht. subst t.
    unfold target_type_dec in Hs. rewrite at_0 in Hs. cbn [bind] in Hs. rewrite from1 in Hs. cbn [bind] in Hs.
    change (0 =? 0) with true in Hs. cbv iota in Hs. unfold tt_of in Hs. apply bind_inv in Hs as (i & Hi & Hs). apply Ok_inj in Hs. injection Hs as ->.
    apply orelse_inv in Hi. unfold RncIdentifier_dec in Hi. set (t := RncIdentifier_enc r ++ next_octets) in Hi. assert (L : (10 <= length t)%nat).
    { unfold t, RncIdentifier_enc, Rai_enc. rewrite !app_length, removelast_len, !app_length, plmn3, !enc_be_length. cbn [length next_octets enc_be]. lia. }
    destruct (Nat.ltb_spec (length t) 10); [lia|]. rewrite andb_false_r in Hi. destruct (Nat.leb_spec 10 (length t)); [|lia].
    apply bind_inv in Hi as (p & _ & Hi). apply bind_inv in Hi as (q & _ & Hi). apply bind_inv in Hi as (i & _ & Hi). apply bind_inv in Hi as (e & _ & Hi). apply Ok_inj in Hi.
    subst r. discriminate.
  - exfalso. opened D TargetIdentification_marshal disp_121. unfold TargetIdentification_unmarshal in D. apply need_inv in D as [_ D]. rewrite hdr4_cons in D.
    apply bind_inv in D as (t & Ht & D). apply bind_inv in D as (s & Hs & D). apply Ok_inj in D.
    unfold true_length in D. apply (f_equal ie_v) in D. cbn [ie_v std] in D. rewrite Q in D. subst s.
    apply orelse_inv in Hs. unfold TargetIdentification_value in Ht. rewrite Q in Ht. cbn [target_type_to target_type_enc app] in Ht.
    rewrite from40 in Ht. apply Ok_inj in Ht. subst t.
    unfold target_type_dec in Hs. rewrite at_0 in Hs. cbn [bind] in Hs. rewrite from1 in Hs. cbn [bind] in Hs.
    do 8 (match type of Hs with context [8 =? ?n] => change (8 =? n) with false in Hs end). change (8 =? 8) with true in Hs. cbv iota in Hs.
    unfold tt_of in Hs. apply bind_inv in Hs as (i & Hi & Hs). apply Ok_inj in Hs. injection Hs as ->. apply orelse_inv in Hi. unfold EnGNbIdentifier_dec in Hi.
    apply need_inv in Hi as [_ Hi]. apply bind_inv in Hi as (y & _ & Hi). apply bind_inv in Hi as (i & _ & Hi). apply bind_inv in Hi as (p & _ & Hi).
    destruct (bit y 64); [|discriminate Hi]. apply need_inv in Hi as [_ Hi]. apply bind_inv in Hi as (tac & _ & Hi). destruct (bit y 128); [|discriminate Hi].
    apply need_inv in Hi as [_ Hi]. apply bind_inv in Hi as (e & He & Hi). apply Ok_inj in Hi. apply V2DecLoop.slice_len in He as [L _]. subst g.
    cbn [target_type_size EnGNbIdentifier_size eg_tac eg_etac target_type_enc length] in K. unfold EnGNbIdentifier_enc in K. cbn [eg_plmn eg_tac eg_etac eg_id opt_octets] in K.
    rewrite !app_length, plmn3 in K. unfold opt_be in K. rewrite !enc_be_length in K. cbn [length] in K. unfold lt in *. lia.
  - exfalso. cbn in K. lia.
Qed.
(* the list of PLMNs is read to the end of the buffer, whatever its number *)
Lemma at_inv {E} b i x : @at_ E b i = Ok x -> (i < length b)%nat /\ nth_error b i = Some x.
Proof.
  unfold at_. destruct (nth_error b i) eqn:E1; intros H; [|discriminate H]. apply Ok_inj in H. subst. split; [|reflexivity].
  apply nth_error_Some. congruence.
Qed.
Lemma plmns_len f b : forall c l, (c <= length b)%nat -> mdt_plmns_loop f b c = Ok l -> length b = (c + 3 * length l)%nat.
Proof.
  induction f as [|f IH]; intros c l C H; cbn [mdt_plmns_loop] in H; (destruct (Nat.ltb_spec c (length b)); [|apply Ok_inj in H; subst l; cbn [length]; lia]); [discriminate H|].
  apply need_inv in H as [L H]. apply bind_inv in H as (p & _ & H). apply bind_inv in H as (r & R & H). apply Ok_inj in H. subst l.
  apply IH in R; [|exact L]. cbn [length]. lia.
Qed.
Definition one_if {A} (o : option A) : nat := if is_some o then 1 else 0.
Lemma opt_at_len f b c o c' : opt_at f b c = Ok (o, c') -> c' = (c + one_if o)%nat.
Proof.
  unfold opt_at. destruct (f && _)%bool; intros H.
  - apply bind_inv in H as (x & _ & H). apply Ok_inj in H. injection H as <- <-. cbn. lia.
  - apply Ok_inj in H. injection H as <- <-. cbn. lia.
Qed.
Lemma mdt_len m b x l : MdtConfiguration_unmarshal m b = Ok x -> md_plmns (ie_v x) = Some l ->
  length b = (17 + length (opt_octets (md_area (ie_v x))) + one_if (md_rrm (ie_v x)) + one_if (md_lte (ie_v x)) + one_if (md_pos (ie_v x)) + 3 * length l)%nat.
Proof.
  intros D Q. unfold MdtConfiguration_unmarshal in D. apply need_inv in D as [L D]. destruct b as [|t [|l1 [|l2 [|ins b]]]]; try (cbn in L; lia). rewrite hdr4_cons in D.
  set (s := t :: _) in *. apply bind_inv in D as (j & _ & D). apply bind_inv in D as (ms & _ & D). apply bind_inv in D as (tr & _ & D). apply bind_inv in D as (i & _ & D).
  apply bind_inv in D as (a & _ & D). apply bind_inv in D as (rp & _ & D). apply bind_inv in D as (rq & _ & D). apply bind_inv in D as (al & _ & D).
  apply bind_inv in D as ([area c] & Ha & D). apply bind_inv in D as (f & _ & D). cbv zeta in D.
  apply bind_inv in D as ([rrm c1] & O1 & D). apply bind_inv in D as ([lte c2] & O2 & D). apply bind_inv in D as ([pos c3] & O3 & D).
  apply bind_inv in D as (pl & P & D). apply Ok_inj in D. subst x. cbn [ie_v std md_plmns md_area md_rrm md_lte md_pos] in *.
  apply opt_at_len in O1. apply opt_at_len in O2. apply opt_at_len in O3. subst pl.
  assert (C : c = (15 + length (opt_octets area))%nat).
  { destruct (al =? 0); [apply Ok_inj in Ha; injection Ha as <- <-; reflexivity|]. apply bind_inv in Ha as (sl & Hs & Ha). apply Ok_inj in Ha. injection Ha as <- <-.
    apply V2DecLoop.slice_len in Hs as [G _]. cbn [opt_octets]. lia. }
  destruct (_ =? 1); [|discriminate P]. apply bind_inv in P as (n & Hn & P). apply at_inv in Hn as [Hn _]. destruct (n <? 16); [|discriminate P].
  apply need_inv in P as [_ P]. apply bind_inv in P as (l' & P & E). apply Ok_inj in E. injection E as ->. apply plmns_len in P; lia.
Qed.
Lemma mdt_exact x m : decode_one (decoder m) m (ie_marshal (IE_MdtConfiguration x)) = Ok (again (IE_MdtConfiguration x)) ->
  decode_one (decoder m) m (ie_marshal (IE_MdtConfiguration x) ++ next_octets) = Ok (again (IE_MdtConfiguration x)) -> md_plmns (ie_v x) = None.
Proof.
  intros D1 D2. destruct (md_plmns (ie_v x)) as [l|] eqn:Q; [exfalso|reflexivity].
  opened D1 MdtConfiguration_marshal disp_162. opened D2 MdtConfiguration_marshal disp_162.
  pose proof (mdt_len _ _ _ l D1 Q) as L1. pose proof (mdt_len _ _ _ l D2 Q) as L2. cbn [length] in L1, L2. rewrite app_length in L2. cbn [length next_octets] in L2.
  unfold true_length in L1, L2. cbn [ie_v] in L1, L2. unfold MdtConfiguration_value in L1, L2. cbn [length app] in *. lia.
Qed.
Lemma many_len {A} (dec : list N -> res A) s e n b : forall c xs c', many_checked dec s e n b c = Ok (xs, c') -> length xs = n /\ c' = (c + s * length xs)%nat.
Proof.
  induction n as [|n IH]; intros c xs c' H; cbn [many_checked] in H; [apply Ok_inj in H; injection H as <- <-; cbn [length]; split; lia|].
  apply need_inv in H as [_ H]. apply bind_inv in H as (t & _ & H). apply bind_inv in H as (x & _ & H). apply bind_inv in H as ([ys k] & R & H). apply Ok_inj in H. injection H as <- <-.
  apply IH in R as [R1 R2]. cbn [length]. split; lia.
Qed.
Lemma land_le a n : (N.to_nat (N.land a (N.ones n)) <= N.to_nat (N.ones n))%nat.
Proof. rewrite N.land_ones, N.ones_equiv. pose proof (N.mod_lt a (2 ^ n) ltac:(apply N.pow_nonzero; lia)). lia. Qed.
Lemma enc_all_is {A} (enc : A -> list N) k xs : (forall x, length (enc x) = k) -> length (enc_all enc xs) = (k * length xs)%nat.
Proof. intros H. unfold enc_all. induction xs as [|x xs IH]; [cbn; lia|]. cbn [map concat length]. rewrite app_length, IH, H. lia. Qed.
Lemma ten_parts (a : N) p1 p2 p3 p4 p5 p6 p7 p8 p9 r :
  a :: p1 ++ p2 ++ p3 ++ p4 ++ p5 ++ p6 ++ p7 ++ p8 ++ p9 ++ r = (a :: p1 ++ p2 ++ p3 ++ p4 ++ p5 ++ p6 ++ p7 ++ p8 ++ p9) ++ r.
Proof. cbn [app]. rewrite <- !app_assoc. reflexivity. Qed.
Lemma praa_exact x m : decode_one (decoder m) m (ie_marshal (IE_PresenceReportingAreaAction x)) = Ok (again (IE_PresenceReportingAreaAction x)) ->
  (length (pa_ext (ie_v x)) <= 63)%nat.
Proof.
  intros D. opened D PresenceReportingAreaAction_marshal disp_177. unfold PresenceReportingAreaAction_unmarshal in D. cbv zeta in D. apply need_inv in D as [_ D]. rewrite hdr4_cons in D.
  apply checked_inv in D as [_ D]. apply bind_inv in D as (y & _ & D). apply bind_inv in D as (pr & _ & D).
  apply bind_inv in D as (n8 & H8 & D). apply bind_inv in D as (n9 & _ & D). apply bind_inv in D as (n10 & _ & D). apply bind_inv in D as (n11 & _ & D).
  apply bind_inv in D as (n12 & _ & D). apply bind_inv in D as (n13 & _ & D). apply need_inv in D as [_ D].
  apply bind_inv in D as ([tai c1] & M1 & D). apply bind_inv in D as ([mac c2] & M2 & D). apply bind_inv in D as ([home c3] & M3 & D).
  apply bind_inv in D as ([ecgi c4] & M4 & D). apply bind_inv in D as ([rai c5] & M5 & D). apply bind_inv in D as ([sai c6] & M6 & D).
  apply bind_inv in D as ([cgi c7] & M7 & D). apply bind_inv in D as (ext & P & D). apply Ok_inj in D. unfold true_length in D. apply (f_equal ie_v) in D. cbn [ie_v std] in D.
  apply many_len in M1 as [A1 B1]. apply many_len in M2 as [A2 B2]. apply many_len in M3 as [A3 B3]. apply many_len in M4 as [A4 B4].
  apply many_len in M5 as [A5 B5]. apply many_len in M6 as [A6 B6]. apply many_len in M7 as [A7 B7].
  set (v := ie_v x) in *.
  assert (S8 : n8 <= 255).
  { unfold PresenceReportingAreaAction_value in H8. cbv zeta in H8. apply Ok_inj in H8. subst n8. unfold nlen. rewrite !firstn_length. lia. }
  assert (T15 : (length tai <= 15)%nat).
  { rewrite A1, N.shiftr_div_pow2. change (2 ^ 4) with 16. pose proof (N.div_le_mono n8 255 16 ltac:(lia) S8) as G. change (255 / 16) with 15 in G. lia. }
  pose proof (land_le n8 4) as R15. pose proof (land_le n9 6) as R9. pose proof (land_le n10 6) as R10. pose proof (land_le n11 6) as R11.
  pose proof (land_le n12 6) as R12. pose proof (land_le n13 6) as R13. change (N.ones 4) with 15 in R15. change (N.ones 6) with 63 in R9, R10, R11, R12, R13.
  rewrite <- A5 in R15. rewrite <- A2 in R9. rewrite <- A3 in R10. rewrite <- A4 in R11. rewrite <- A6 in R12. rewrite <- A7 in R13.
  change (N.to_nat 15) with 15%nat in R15. change (N.to_nat 63) with 63%nat in R9, R10, R11, R12, R13.
  destruct (Nat.leb_spec c7 (length (177 :: (nlen (PresenceReportingAreaAction_value v) mod 65536 / 256) mod 256 :: (nlen (PresenceReportingAreaAction_value v) mod 65536) mod 256 :: ie_ins x :: PresenceReportingAreaAction_value v))) as [_|_];
    [|apply Ok_inj in P; subst ext; rewrite <- D; cbn; lia].
  apply bind_inv in P as (k & Hk & P). apply bind_inv in P as ([ext' c8] & M8 & P). apply Ok_inj in P. subst ext'. apply many_len in M8 as [A8 _].
  apply at_inv in Hk as [_ Hk].
  assert (E : k = nlen (firstn 63 (pa_ext v))).
  { assert (V : exists pre rest, PresenceReportingAreaAction_value v = pre ++ nlen (firstn 63 (pa_ext v)) :: rest /\ (4 + length pre)%nat = c7).
    { assert (Q1 : pa_tai v = tai) by (rewrite <- D; reflexivity). assert (Q2 : pa_macro v = mac) by (rewrite <- D; reflexivity).
      assert (Q3 : pa_home v = home) by (rewrite <- D; reflexivity). assert (Q4 : pa_ecgi v = ecgi) by (rewrite <- D; reflexivity).
      assert (Q5 : pa_rai v = rai) by (rewrite <- D; reflexivity). assert (Q6 : pa_sai v = sai) by (rewrite <- D; reflexivity).
      assert (Q7 : pa_cgi v = cgi) by (rewrite <- D; reflexivity).
      unfold PresenceReportingAreaAction_value. cbv zeta. rewrite Q1, Q2, Q3, Q4, Q5, Q6, Q7. rewrite !(firstn_all2 (n := 15)) by lia.
      rewrite (firstn_all2 (n := 63) mac) by lia. rewrite (firstn_all2 (n := 63) home) by lia. rewrite (firstn_all2 (n := 63) ecgi) by lia.
      rewrite (firstn_all2 (n := 63) sai) by lia. rewrite (firstn_all2 (n := 63) cgi) by lia.
      exists (N.lor (flag (pa_inapra v) 8) (pa_action v) :: enc_be 3 (pa_prai v) ++ [16 * nlen tai + nlen rai; nlen mac; nlen home; nlen ecgi; nlen sai; nlen cgi] ++
        enc_all Tai_enc tai ++ enc_all MacroEnbId_enc mac ++ enc_all MacroEnbId_enc home ++ enc_all Ecgi_enc ecgi ++ enc_all Rai_enc rai ++ enc_all Sai_enc sai ++ enc_all Cgi_enc cgi),
        (enc_all ExtMacroEnbId_enc (firstn 63 (pa_ext v))). split; [apply ten_parts|].
      cbn [length]. rewrite !app_length. rewrite (enc_all_is Tai_enc 5) by reflexivity. rewrite !(enc_all_is MacroEnbId_enc 6) by reflexivity.
      rewrite (enc_all_is Ecgi_enc 7) by reflexivity. rewrite (enc_all_is Rai_enc 7) by reflexivity. rewrite (enc_all_is Sai_enc 7) by reflexivity.
      rewrite (enc_all_is Cgi_enc 7) by reflexivity. rewrite enc_be_length. cbn [length]. lia. }
    destruct V as (pre & rest & V & L). rewrite V in Hk at 3. rewrite <- L in Hk. cbn [plus nth_error] in Hk.
    rewrite nth_error_app2, Nat.sub_diag in Hk by lia. cbn [nth_error] in Hk. congruence. }
  rewrite <- D at 1. cbn [pa_ext]. rewrite A8, E. unfold nlen. rewrite firstn_length. lia.
Qed.
(* names of a node identifier: one octet of length, of the octets written *)
Lemma received_from m f : forall b l e, bytes b -> ie_loop (decode_one (decoder m) m) m f b = Ok l -> In e l ->
  exists s, bytes s /\ decode_one (decoder m) m s = Ok e.
Proof.
  induction f as [|f IH]; intros b l e B D I; (destruct b as [|t b]; [apply Ok_inj in D; subst l; destruct I|]); [discriminate D|]. cbn [ie_loop] in D.
  apply bind_inv in D as (x & X & D). apply bind_inv in D as (n & _ & D). apply bind_inv in D as (r & R & D). apply Ok_inj in D. subst l. destruct I as [<-|I].
  - exists (t :: b). split; assumption.
  - refine (IH _ _ _ _ R I). apply bytes_skipn, B.
Qed.
Lemma bytes_slice {E} b i j s : bytes b -> @slice E b i j = Ok s -> bytes s.
Proof. intros B H. unfold slice in H. destruct (_ && _)%bool; [|discriminate H]. apply Ok_inj in H. subst s. apply bytes_firstn, bytes_skipn, B. Qed.
Lemma lv_at_inv b c e s c' : lv_at b c e = Ok (s, c') -> exists l, nth_error b c = Some l /\ length s = N.to_nat l /\ slice (E:=GTPV2Error) b (c + 1) (c + 1 + N.to_nat l) = Ok s.
Proof.
  unfold lv_at. intros H. apply bind_inv in H as (l & Hl & H). apply at_inv in Hl as [_ Hl]. destruct (_ <=? _)%nat; [|discriminate H].
  apply bind_inv in H as (x & Hx & H). apply Ok_inj in H. injection H as <- _. exists l. split; [exact Hl|]. split; [|exact Hx]. apply V2DecLoop.slice_len in Hx as [G _]. lia.
Qed.
Lemma node_bytes m x s : bytes s -> decode_one (decoder m) m s = Ok (IE_NodeIdentifier x) -> bytes (ni_name (ie_v x)) /\ bytes (ni_realm (ie_v x)).
Proof.
  intros B D. pose proof (decode_one_post (decoder m) m s _ D) as [C _].
  assert (T : nth 0 s 0 = 176).
  { destruct (N.eq_dec (nth 0 s 0) 169) as [E|E]; [|exact (C E)].
    destruct s as [|t s]; [discriminate E|]. cbn [nth] in E. subst t. rewrite disp_169 in D by reflexivity. unfold lift in D.
    destruct (ActionIndication_unmarshal m _); discriminate D. }
  destruct s as [|t s]; [discriminate T|]. cbn [nth] in T. subst t. rewrite disp_176 in D by reflexivity. apply lift_inv in D as (y & D & E). injection E as <-.
  unfold NodeIdentifier_unmarshal in D. apply need_inv in D as [L D]. destruct s as [|l1 [|l2 [|ins s]]]; try (cbn in L; lia). rewrite hdr4_cons in D.
  apply checked_inv in D as [_ D]. apply bind_inv in D as (l & _ & D). cbv zeta in D. apply need_inv in D as [_ D]. apply bind_inv in D as (nm & Hn & D).
  apply bind_inv in D as ([re c] & Hr & D). apply Ok_inj in D. subst x. cbn [ie_v std ni_name ni_realm].
  apply lv_at_inv in Hr as (k & _ & _ & Hr). split; eapply bytes_slice; eassumption.
Qed.
Lemma utf8_fits s : bytes s -> N.of_nat (length s) = nlen (utf8 s) mod 256 -> ascii s.
Proof.
  intros B E. pose proof (utf8_twice s B) as T. destruct (utf8_len s) as [U1 U2]. apply U2. unfold nlen in E.
  assert (length s < 256)%nat by (pose proof (N.mod_lt (N.of_nat (length (utf8 s))) 256 ltac:(lia)); lia).
  destruct (N.lt_ge_cases (N.of_nat (length (utf8 s))) 256) as [L|L]; [rewrite N.mod_small in E by exact L; lia|].
  pose proof (N.div_mod (N.of_nat (length (utf8 s))) 256 ltac:(lia)) as V. rewrite <- E in V.
  lia.
Qed.
Lemma node_exact x m : bytes (ni_name (ie_v x)) -> bytes (ni_realm (ie_v x)) ->
  decode_one (decoder m) m (ie_marshal (IE_NodeIdentifier x)) = Ok (again (IE_NodeIdentifier x)) -> ascii (ni_name (ie_v x)) /\ ascii (ni_realm (ie_v x)).
Proof.
  intros B1 B2 D. opened D NodeIdentifier_marshal disp_176. unfold NodeIdentifier_unmarshal in D. apply need_inv in D as [_ D]. rewrite hdr4_cons in D.
  apply checked_inv in D as [_ D]. apply bind_inv in D as (l & Hl & D). cbv zeta in D. apply need_inv in D as [_ D]. apply bind_inv in D as (nm & Hn & D).
  apply bind_inv in D as ([re c] & Hr & D). apply Ok_inj in D. unfold true_length in D. apply (f_equal ie_v) in D. cbn [ie_v std] in D.
  assert (Q1 : ni_name (ie_v x) = nm) by (rewrite <- D; reflexivity). assert (Q2 : ni_realm (ie_v x) = re) by (rewrite <- D; reflexivity).
  apply Ok_inj in Hl. apply V2DecLoop.slice_len in Hn as [Hn _]. assert (A1 : ascii (ni_name (ie_v x))).
  { apply utf8_fits; [exact B1|]. rewrite Hl, Q1. lia. }
  split; [exact A1|]. apply utf8_fits; [exact B2|]. apply lv_at_inv in Hr as (k & Hk & G & _). rewrite Q2 at 1. rewrite G, N2Nat.id.
  assert (Ll : N.to_nat l = length (ni_name (ie_v x))) by (rewrite Q1; lia). rewrite Ll in Hk. cbn [plus nth_error] in Hk.
  unfold NodeIdentifier_value, lv in Hk. rewrite (utf8_ascii _ A1) in Hk. cbn [app nth_error] in Hk. rewrite nth_error_app2, Nat.sub_diag in Hk by lia. cbn [nth_error] in Hk. congruence.
Qed.

Theorem C65_exact : forall b l e, bytes b -> decoder Debug b = Ok l -> In e l -> ~ set_apart e ->
  ie_instance e < 16 -> nlen (ie_marshal e) <= 65535 -> (arrives e <-> survives e).
Proof.
  intros b l e B D I G S1 S2. split.
  - intros A. assert (N : ie_marshal e <> []).
    { intros Z. specialize (A Debug [] (Forall_nil _)). unfold encoder in A. cbn [map concat] in A. rewrite Z in A. discriminate A. }
    destruct (arrives_says e Debug N A) as (A1 & A2 & A3).
    destruct e; try (exact Logic.I); try (exfalso; apply G; exact Logic.I).
    all: first [ exact (imsi_exact _ _ S2 A1) | exact (msisdn_exact _ _ S2 A1) | exact (altimsi_exact _ _ S2 A1) | exact (mei_exact _ _ S2 A1 A3)
      | exact (apn_exact _ _ S2 A1) | exact (fqdn_exact _ _ S2 A1) | exact (pgwfqdn_exact _ _ S2 A1) | exact (ldn_exact _ _ S2 A1) | exact (arc_exact _ _ S2 A1)
      | exact (addmm_exact _ _ S2 A1) | exact (mdt_exact _ _ A1 A2) | exact (prai_exact _ _ A3) | exact (praa_exact _ _ A1) | exact (pext_exact _ _ S2 A1)
      | exact (source_exact _ _ A2 A3) | exact (target_exact _ _ A2 A3) | exact (uci_exact _ _ A1) | exact (twan_exact _ _ A1) | exact (traceref_exact _ _ A1)
      | rewrite V2DecLoop.decoder_eq in D; destruct (received_from _ _ _ _ _ B D I) as (s & Bs & Ds); destruct (node_bytes _ _ _ Bs Ds) as [N1 N2]; exact (node_exact _ _ N1 N2 A1) ].
  - intros A m after F. pose proof D as D'. apply decoder_iff in D'; [|exact B].
    pose proof (proj1 (Forall_forall _ _) (proj1 says_kept _ _ D' B) e I) as K. specialize (K ltac:(repeat split; assumption)).
    rewrite <- (PropsV2Ie.C18_ie_list_roundtrip m (again e :: after)) by (constructor; [exact K|exact F]).
    unfold encoder. cbn [map concat]. rewrite marshal_of_again. reflexivity.
Qed.
Print Assumptions C65_exact.

(* An IMSI arrives; an MDT configuration with a PLMN does not. *)
Example C65_exact_example : let e := IE_Imsi (mkIe 1 2 0 [49; 50; 51; 52]) in
  decoder Debug [1; 0; 2; 0; 33; 67] = Ok [e] /\ ~ set_apart e /\ arrives e.
Proof.
  cbv zeta. split; [vm_compute; reflexivity|]. split; [intros []|]. apply (C65_exact [1; 0; 2; 0; 33; 67] [IE_Imsi (mkIe 1 2 0 [49; 50; 51; 52])]).
  - repeat constructor.
  - vm_compute. reflexivity.
  - left. reflexivity.
  - intros [].
  - reflexivity.
  - vm_compute. discriminate.
  - discriminate.
Qed.
Example C65_exact_lost : exists b e, bytes b /\ decoder Debug b = Ok [e] /\ ~ set_apart e /\ ie_instance e < 16 /\ ~ arrives e.
Proof.
  exists [162; 0; 16; 0; 0; 1; 2; 3; 4; 5; 6; 7; 8; 9; 0; 8; 1; 33; 67; 101]. eexists. split; [repeat constructor|]. split; [vm_compute; reflexivity|].
  split; [intros []|]. split; [reflexivity|]. intros A. specialize (A Debug [next] ltac:(constructor; [exact next_ok|constructor])). vm_compute in A. discriminate A.
Qed.
