(* V1CMsgReadFacts.v - the GTPv1-C header, element list and message decoders read what V1CMsgReadSpec.v
   says. *)
From Verif Require Import BaseFacts Octets V1USpec V1UFacts V1USafety V1USafety2 V1CHdr V1CSpec V1CHdrFacts V1CHdrSafety
  V1CMsgFacts V1CMsgRead V1CExact V1CIeSafety V1CReadFacts.
From Verif Require Export V1CMsgReadSpec.
From Coq Require Import Sorted.
Local Open Scope N_scope.

(* ------------------------------------------------------------------------- *)
(* Extension headers *)

Lemma cext_meaning_ok m t l v r :
  t <> 0 -> 1 <= l <= 63 -> nlen v + 2 = 4 * l -> (1 <= length r)%nat ->
  cext_unmarshal m (t :: l :: v ++ r) = Ok (cext_meaning t l v) /\ cext_meaning t l v <> CX_NoMore /\
  cext_len m (cext_meaning t l v) = Ok (2 + length v)%nat.
Proof.
  intros Ht Hl Hv Hr. unfold nlen in Hv.
  assert (Hlen : ext_len_of m l = Ok (2 + length v)%nat).
  { unfold ext_len_of. rewrite mul8_small by lia. cbn [bind]. f_equal. lia. }
  assert (Hc : forall A (k : N -> N -> res A), ext_checked m (t :: l :: v ++ r) k = k l (l * 4)).
  { intros. apply ext_checked_ok; [lia|rewrite app_length; lia]. }
  assert (Hblob : forall ty, Blob_unmarshal ty m (t :: l :: v ++ r) = Ok (mkBlobExt ty l v)).
  { intros. unfold Blob_unmarshal. rewrite Hc.
    change (t :: l :: v ++ r) with ([t; l] ++ v ++ r).
    rewrite slice_app_mid; [reflexivity|reflexivity|cbn; lia]. }
  assert (Hn : exists a b w, v = a :: b :: w).
  { destruct v as [|a [|b v]]; cbn in Hv; try lia. eauto. }
  destruct Hn as (a & b & w & ->).
  assert (Hnum : forall ty, Num16_unmarshal ty m (t :: l :: (a :: b :: w) ++ r) = Ok (mkNumExt ty l (256 * a + b))).
  { intros. unfold Num16_unmarshal. rewrite Hc. cbn [app]. unfold at_. cbn [nth_error bind]. unfold be16. rewrite (N.mul_comm a). reflexivity. }
  unfold cext_meaning. cbn [nth]. unfold cext_unmarshal. unfold at_ at 1. cbn [nth_error bind].
  rewrite !Hnum. unfold Unknown_unmarshal, at_; cbn [nth_error bind]. rewrite Hblob. cbn [bind].
  unfold NO_MORE_EXTENSION_HEADERS, C_PDCP_PDU_NUMBER, C_SUSPEND_REQUEST, C_SUSPEND_RESPONSE, C_MBMS_SUPPORT_INDICATION,
    C_MS_INFO_CHANGE_REPORTING.
  destruct (N.eqb_spec t 0) as [E|_]; [contradiction|].
  repeat match goal with |- context [t =? ?k] => destruct (N.eqb_spec t k) as [->|_];
    [split; [reflexivity|split; [discriminate|exact Hlen]]|] end.
  split; [reflexivity|split; [discriminate|exact Hlen]].
Qed.
Lemma cchain_chain b l r : cchain_is b l r -> ext_chain b.
Proof. induction 1; constructor; assumption. Qed.
Lemma chain_cchain b : ext_chain b -> exists l r, cchain_is b l r.
Proof. induction 1 as [r|t l v r Ht Hl Hv Hr (xs & q & IH)]; eexists _, _; [apply cchain_end|apply cchain_more; eassumption]. Qed.
Lemma cchain_rest m b l r : cchain_is b l r -> exists n, cext_len_sum m l = Ok n /\ length b = (S n + length r)%nat.
Proof.
  induction 1 as [r|t l v q xs r Ht Hl Hv Hr (n & Hn & Hlt)].
  - exists 0%nat. split; reflexivity.
  - cbn [cext_len_sum]. destruct (cext_meaning_ok m t l v q Ht Hl Hv (chain_nonempty _ (cchain_chain _ _ _ Hr))) as (_ & _ & ->).
    rewrite Hn. cbn [bind]. eexists. split; [reflexivity|]. cbn [length]. rewrite app_length. lia.
Qed.
Lemma cext_loop_is m b l r : cchain_is b l r -> forall pre fuel data,
  (length b < fuel)%nat -> cext_loop m fuel (pre ++ b) (length pre) data = Ok (data ++ l).
Proof.
  induction 1 as [r|t l v q xs r Ht Hl Hv Hr IH]; intros pre fuel data Hf;
    (destruct fuel as [|fuel]; [lia|]); cbn [cext_loop];
    rewrite slice_from_ok, skipn_app_exact by (reflexivity || (rewrite app_length; lia)); cbn [bind].
  - rewrite app_nil_r. reflexivity.
  - destruct (cext_meaning_ok m t l v q Ht Hl Hv (chain_nonempty _ (cchain_chain _ _ _ Hr))) as (E1 & He & E2). rewrite E1. cbn [bind].
    set (e := cext_meaning t l v) in *. clearbody e.
    assert (HH : cext_loop m fuel (pre ++ t :: l :: v ++ q) (length pre + (2 + length v)) (data ++ [e]) = Ok (data ++ e :: xs)).
    { replace (pre ++ t :: l :: v ++ q) with ((pre ++ t :: l :: v) ++ q) by (rewrite <- app_assoc; reflexivity).
      replace (length pre + (2 + length v))%nat with (length (pre ++ t :: l :: v)) by (rewrite app_length; cbn; lia).
      cbn [length] in Hf. rewrite app_length in Hf. rewrite IH by lia. rewrite <- app_assoc. reflexivity. }
    destruct e; try (exfalso; apply He; reflexivity); rewrite E2; exact HH.
Qed.
Lemma c_unmarshal_ext_is m b l r : cchain_is b l r -> c_unmarshal_ext m b = Ok l.
Proof. intros H. exact (cext_loop_is m b l r H [] (S (length b)) [] ltac:(lia)). Qed.
Lemma c_unmarshal_ext_debug b l : c_unmarshal_ext Debug b = Ok l <-> exists r, cchain_is b l r.
Proof.
  split; [|intros (r & H); exact (c_unmarshal_ext_is _ _ _ _ H)]. intros H.
  destruct (chain_cchain b) as (l' & r & Hl'); [apply c_unmarshal_ext_debug_iff; eauto|].
  rewrite (c_unmarshal_ext_is _ _ _ _ Hl') in H. apply Ok_inj in H. subst. eauto.
Qed.

(* ------------------------------------------------------------------------- *)
(* The header *)

Lemma bit_of_testbit x n : bit_of x n = N.testbit x n.
Proof. unfold bit_of. rewrite N.testbit_eqb. reflexivity. Qed.

Lemma header_says_ok m b h p : header_says b h p -> chdr_unmarshal m b = Ok h /\ chdr_len m h = Ok p.
Proof.
  intros (b0 & l1 & l2 & t1 & t2 & t3 & t4 & r & Eb & Hv & H4 & Hl & Ht & Hs & Hn & He).
  rewrite !bit_of_testbit in *. destruct h as [mt len td sq np ex]. cbn [c_msgtype c_length c_teid c_sqn c_npdu c_ext] in *.
  subst len td. rewrite Eb. rewrite chdr_unmarshal_eq. rewrite N.shiftr_div_pow2. change (2 ^ 5) with 32. rewrite Hv, H4.
  change (1 =? 1) with true. cbn [andb]. rewrite <- Eb.
  assert (Es : read_sqn b (N.testbit b0 1) = Ok sq).
  { destruct (N.testbit b0 1); [|rewrite Hs; reflexivity]. destruct Hs as (s1 & s2 & r' & -> & ->). rewrite Eb.
    unfold read_sqn, be16. cbn. rewrite (N.mul_comm s1). reflexivity. }
  assert (En : read_npdu b (N.testbit b0 0) = Ok np).
  { destruct (N.testbit b0 0); [|rewrite Hn; reflexivity]. destruct Hn as (s1 & s2 & n & r' & -> & ->). rewrite Eb. reflexivity. }
  assert (Ex : read_ext m b (N.testbit b0 2) = Ok ex /\ chdr_len m (mkCHdr mt (256 * l1 + l2) (16777216 * t1 + 65536 * t2 + 256 * t3 + t4) sq np ex) = Ok p).
  { destruct (N.testbit b0 2).
    - destruct He as (s1 & s2 & n & r' & xs & q & -> & Hc & -> & ->). split.
      + unfold read_ext. rewrite slice_from_ok by (rewrite Eb; cbn; lia). cbn [bind]. rewrite Eb. cbn [skipn].
        pose proof (chain_nonempty _ (cchain_chain _ _ _ Hc)) as H1. cbn [length].
        destruct (Nat.ltb_spec (S (S (S (length r')))) 4); [lia|]. rewrite slice_from_ok by (cbn [length]; lia). cbn [bind skipn].
        rewrite (c_unmarshal_ext_is _ _ _ _ Hc). reflexivity.
      + unfold chdr_len. cbn [c_ext]. destruct (cchain_rest m _ _ _ Hc) as (k & -> & Hk). cbn [bind]. rewrite Eb. cbn [length].
        apply f_equal. lia.
    - destruct He as [-> ->]. split; [reflexivity|]. unfold chdr_len. cbn [c_ext c_sqn c_npdu].
      destruct (N.testbit b0 1) eqn:F1; [destruct Hs as (? & ? & ? & _ & ->); reflexivity|subst sq].
      destruct (N.testbit b0 0) eqn:F0; [destruct Hn as (? & ? & ? & ? & _ & ->); reflexivity|subst np; reflexivity]. }
  destruct Ex as [Ex Hp]. rewrite Es, En. cbn [bind]. rewrite Ex. cbn [bind]. split; [|exact Hp].
  unfold be16, be32. f_equal. f_equal; lia.
Qed.
Lemma header_says_debug b h : chdr_unmarshal Debug b = Ok h -> exists p, header_says b h p.
Proof.
  intros H. destruct (chdr_inv Debug b h H) as (b0 & l1 & l2 & t1 & t2 & t3 & t4 & r & Eb & H5 & H4 & Hl & Ht & Hs & Hn & He).
  rewrite N.shiftr_div_pow2 in H5. change (2 ^ 5) with 32 in H5.
  assert (Hs' : if N.testbit b0 1 then exists s1 s2 r', r = s1 :: s2 :: r' /\ c_sqn h = Some (256 * s1 + s2) else c_sqn h = None).
  { destruct (N.testbit b0 1); [|exact Hs]. destruct Hs as (s1 & s2 & E8 & E9 & Es). rewrite Eb in E8, E9.
    destruct r as [|x [|y r]]; cbn [nth_error] in E8, E9; try discriminate. injection E8 as ->. injection E9 as ->.
    exists s1, s2, r. split; [reflexivity|]. rewrite Es. unfold be16. f_equal. lia. }
  assert (Hn' : if N.testbit b0 0 then exists s1 s2 n r', r = s1 :: s2 :: n :: r' /\ c_npdu h = Some n else c_npdu h = None).
  { destruct (N.testbit b0 0); [|exact Hn]. destruct Hn as (n & E10 & En). rewrite Eb in E10.
    destruct r as [|x [|y [|z r]]]; cbn [nth_error] in E10; try discriminate. injection E10 as ->. eauto 10. }
  assert (G : forall p, (if N.testbit b0 2 then
       exists s1 s2 n r' xs q, r = s1 :: s2 :: n :: r' /\ cchain_is r' xs q /\ c_ext h = Some xs /\ p = (length b - length q)%nat
     else c_ext h = None /\ p = if N.testbit b0 1 || N.testbit b0 0 then 12%nat else 8%nat) -> header_says b h p).
  { intros p Hp. exists b0, l1, l2, t1, t2, t3, t4, r. rewrite !bit_of_testbit. split; [exact Eb|]. split; [exact H5|]. split; [exact H4|].
    split; [rewrite Hl; unfold be16; lia|]. split; [rewrite Ht; unfold be32; lia|]. auto. }
  destruct (N.testbit b0 2); [|eexists; apply G; split; [exact He|reflexivity]].
  destruct He as (xs & H12 & Hx & Ex). rewrite Eb in H12, Hx.
  destruct r as [|x [|y [|z r]]]; cbn [length] in H12; try lia. cbn [skipn] in Hx.
  apply c_unmarshal_ext_debug in Hx as (q & Hq). eexists. apply G. eauto 12.
Qed.
Theorem header_says_iff b h p : chdr_unmarshal Debug b = Ok h /\ chdr_len Debug h = Ok p <-> header_says b h p.
Proof.
  split; [|apply header_says_ok]. intros [H Hp]. destruct (header_says_debug b h H) as (p' & Hp').
  destruct (header_says_ok Debug _ _ _ Hp') as [_ E]. rewrite E in Hp. apply Ok_inj in Hp. subst p'. exact Hp'.
Qed.

(* ------------------------------------------------------------------------- *)
(* The elements *)

Definition codes_of (k : kind1) : list N :=
  match k with
  | K1_Cause => [1] | K1_Imsi => [2] | K1_Rai => [3] | K1_Reordering => [8] | K1_Recovery => [14] | K1_SelectionMode => [15]
  | K1_Teid => [16; 17] | K1_Teardown => [19] | K1_Nsapi => [20] | K1_ChargingChar => [26] | K1_TraceReference => [27]
  | K1_TraceType => [28] | K1_ChargingId => [127] | K1_Eua => [128] | K1_Apn => [131] | K1_Pco => [132] | K1_Gsn => [133]
  | K1_Msisdn => [134] | K1_Qos => [135] | K1_Tft => [137] | K1_TriggerId => [142] | K1_OmcId => [143] | K1_CommonFlags => [148]
  | K1_ApnRestriction => [149] | K1_RatType => [151] | K1_Uli => [152] | K1_Tz => [153] | K1_Imei => [154] | K1_Camel => [155]
  | K1_Ati => [162] | K1_MsInfoChange => [181] | K1_DirectTunnel => [182] | K1_CorrelationId => [183] | K1_BearerControlMode => [184]
  | K1_Earp => [191] | K1_ExtCommonFlags => [193] | K1_Uci => [194] | K1_CsgInfo => [195] | K1_Ambr => [198] | K1_Backoff => [202]
  | K1_Spi => [203] | K1_UliTs => [214] | K1_Cnose => [216] | K1_ExtCommonFlagsII => [218] | K1_Mueut => [223] | K1_Upfsif => [224]
  | K1_ChargingGw => [251] | K1_Pe => [255]
  end.
Lemma code_kind_codes t k : code_kind t = Some k -> In t (codes_of k).
Proof.
  unfold code_kind. repeat match goal with |- context [t =? ?n] => destruct (N.eqb_spec t n) as [->|_];
    [intros H; injection H as <-; cbn [codes_of In]; auto|] end. discriminate.
Qed.

Lemma len_u16_declared {A} m (x : Tlv A) s : tlv_length x = declared s -> (m = Debug \/ declared s <= 65532) ->
  forall n, len_u16 m x = Ok n <-> (if declared s <=? 65532 then Some (3 + declared s) else None) = Some (N.of_nat n).
Proof.
  intros E Hm n. unfold len_u16, add16, ov. rewrite E. destruct (N.leb_spec (declared s) 65532).
  - destruct (N.ltb_spec (declared s + 3) 65536); [|lia]. cbn [bind]. split; [intros H1; apply Ok_inj in H1; f_equal; lia|].
    intros H1. injection H1 as H1. apply f_equal. lia.
  - destruct Hm as [->|]; [|lia]. destruct (N.ltb_spec (declared s + 3) 65536); [lia|]. split; discriminate.
Qed.
Lemma ok_size (m : mode) k n : @Ok GTPV1Error nat k = Ok n <-> Some (N.of_nat k) = Some (N.of_nat n).
Proof. split; [intros H; apply Ok_inj in H; subst; reflexivity|intros H; injection H as H; apply f_equal; lia]. Qed.

Lemma fix_declared {A} T P (x : Tlv A) s : fix_says T P x s -> tlv_length x = declared s.
Proof. intros (_ & ty & a & b & v & r & -> & E & _). exact E. Qed.
Lemma var_declared {A} T k P (x : Tlv A) s : var_says T k P x s -> tlv_length x = declared s.
Proof. intros (_ & ty & a & b & v & r & -> & E & _). exact E. Qed.
Lemma msisdn_declared x s : msisdn_says x s -> tlv_length x = declared s.
Proof. intros (_ & ty & a & b & v & r & -> & _ & _ & _ & _ & _ & E & _). exact E. Qed.
Lemma pe_declared x s : pe_says x s -> tlv_length x = declared s.
Proof. intros (_ & ty & a & b & v & r & -> & _ & E & _). exact E. Qed.

Lemma next_after_iff m t i s : code_kind t = Some (kind1_of i) -> says1 i s -> (m = Debug \/ declared s <= 65532) ->
  forall n, ie1_len m i = Ok n <-> next_after t s = Some (N.of_nat n).
Proof.
  intros Hk Hi Hm n. apply code_kind_codes in Hk. destruct i; cbn [kind1_of codes_of In] in Hk; cbn [says1] in Hi;
  (repeat match goal with H : _ \/ _ |- _ => destruct H as [<-|H] end); try contradiction;
  unfold next_after; cbn [ie1_len];
  match goal with |- context [find ?f fixed_sizes] => let v := eval vm_compute in (find f fixed_sizes) in change (find f fixed_sizes) with v end;
  cbv iota;
  first [ apply ok_size; exact m
        | apply len_u16_declared; [first [eapply fix_declared, Hi | eapply var_declared, Hi | eapply msisdn_declared, Hi | eapply pe_declared, Hi]|exact Hm] ].
Qed.

(* ------------------------------------------------------------------------- *)
(* The elements and the message *)

Lemma bytes_skipn n b : bytes b -> bytes (skipn n b).
Proof. intros H. rewrite <- (firstn_skipn n b) in H. apply Forall_app in H as [_ H]. exact H. Qed.

Lemma reads_holds b p l : bytes b -> reads Debug b p l <-> holds b p l.
Proof.
  intros Hb. split.
  - induction 1 as [p Hp|p t k i n l Ht Hk Hi Hn Hr IH]; [constructor; exact Hp|].
    pose proof (kind1_unmarshal _ _ _ _ Hi) as Ek. subst k.
    assert (Hs : says1 i (skipn p b)) by (apply (says1_iff Debug); [apply bytes_skipn, Hb|left; reflexivity|exact Hi]).
    apply holds_more with (n := N.of_nat n); try assumption.
    + apply (next_after_iff Debug t i (skipn p b)); [exact Hk|exact Hs|left; reflexivity|exact Hn].
    + rewrite Nnat.Nat2N.id. exact IH.
  - induction 1 as [p Hp|p t i n l Ht Hk Hs Hn Hr IH]; [constructor; exact Hp|].
    apply reads_more with (k := kind1_of i) (n := N.to_nat n); try assumption.
    + apply says1_iff; [apply bytes_skipn, Hb|left; reflexivity|exact Hs].
    + apply (next_after_iff Debug t i (skipn p b)); [exact Hk|exact Hs|left; reflexivity|].
      rewrite Nnat.N2Nat.id. exact Hn.
Qed.

(* a mandatory field keeps its default only when it is not the first with its type *)
Definition zero_gsn : ie1 := I1_Gsn (mkTlv 133 4 (V4 0 0 0 0)).
Definition is_zero_gsn (o : option ie1) : bool :=
  match o with
  | Some (I1_Gsn (mkTlv t l (V4 a b c d))) => (t =? 133) && (l =? 4) && (a =? 0) && (b =? 0) && (c =? 0) && (d =? 0)
  | _ => false
  end.
Lemma is_zero_gsn_eq o : is_zero_gsn o = true -> o = Some zero_gsn.
Proof.
  unfold is_zero_gsn. destruct o as [i|]; [|discriminate]. destruct i as []; try discriminate.
  match goal with |- context [I1_Gsn ?y] => destruct y as [t l v] end. destruct v; [|discriminate]. intros H. rewrite !andb_true_iff, !N.eqb_eq in H.
  destruct H as [[[[[-> ->] ->] ->] ->] ->]. reflexivity.
Qed.
Definition defaults_ok (L : list field1) (T : table1) : bool :=
  forallb (fun j => match nth_error L j with
                    | Some f => negb (f_mandatory f) || (rank L (f_code f) j =? 0)%nat
                                || (f_code f =? 133) && match nth_error (map s_default (t_slots T)) j with Some o => is_zero_gsn o | None => false end
                    | None => true end) (seq 0 (length L)).
Lemma messages1_defaults : forallb (fun x => match x with (_, L, T) => defaults_ok L T end) messages1 = true.
Proof. vm_compute. reflexivity. Qed.

Lemma occ_in t l : In t (map fst l) -> exists i r, occ t l = i :: r.
Proof.
  induction l as [|[u i] l IH]; cbn [map fst In]; [contradiction|]. unfold occ. cbn [filter fst]. intros H.
  destruct (N.eqb_spec u t) as [E|E]; [eexists _, _; reflexivity|]. apply IH. destruct H as [H|H]; [contradiction|exact H].
Qed.

Lemma nth_error_same {A} : forall (a b : list A), (forall j, nth_error a j = nth_error b j) -> a = b.
Proof.
  induction a as [|x a IH]; intros [|y b] H; [reflexivity|discriminate (H 0%nat)|discriminate (H 0%nat)|].
  pose proof (H 0%nat) as H0. injection H0 as <-. f_equal. apply IH. intros j. exact (H (S j)).
Qed.

Section Whole.
Context (code : N) (L : list field1) (T : table1) (HI : In (code, L, T) messages1).
Let HT : check_table code L T = true := messages1_checked _ _ _ HI.

Lemma state_exact l c fs : state_ok L T l c fs ->
  (forall f, In f L -> f_mandatory f = true -> In (f_code f) (map fst l)) -> stored_exactly L l fs.
Proof.
  intros (_ & Hl & Hf) Hm. split; [exact Hl|]. intros j f Hj. rewrite (Hf j f Hj).
  destruct (nth_error (occ _ l) _) eqn:En; [reflexivity|].
  destruct (check_slots_nth _ _ _ _ _ (tab_slots code L T HT)) as [_ Hn]. destruct (Hn j f Hj) as (s & Hs & Hfact & _).
  destruct (f_mandatory f) eqn:Ef.
  - pose proof messages1_defaults as HD. rewrite forallb_forall in HD. specialize (HD _ HI). cbv beta iota in HD.
    unfold defaults_ok in HD. rewrite forallb_forall in HD.
    assert (Hjl : (j < length L)%nat) by (apply nth_error_Some; congruence).
    specialize (HD j ltac:(apply in_seq; lia)). rewrite Hj, Ef in HD. cbn [negb orb] in HD.
    apply orb_true_iff in HD as [HD|HD].
    + apply Nat.eqb_eq in HD. rewrite HD in En. destruct (occ_in _ _ (Hm f (nth_error_In _ _ Hj) Ef)) as (i & r & E).
      rewrite E in En. discriminate.
    + apply andb_prop in HD as [_ HD]. destruct (nth_error (map s_default (t_slots T)) j); [|discriminate]. apply is_zero_gsn_eq in HD. subst. reflexivity.
  - rewrite (map_nth_error s_default _ _ Hs). pose proof (sf_mand _ _ _ _ _ Hfact) as Hd. rewrite Ef in Hd. destruct (s_default s); [discriminate|reflexivity].
Qed.
Lemma stored_exactly_det l fs fs' : stored_exactly L l fs -> stored_exactly L l fs' -> fs = fs'.
Proof.
  intros [H1 H2] [H3 H4]. apply nth_error_same. intros j. destruct (nth_error L j) as [f|] eqn:Hj.
  - rewrite (H2 j f Hj), (H4 j f Hj). reflexivity.
  - assert (length L <= j)%nat by (apply nth_error_None; exact Hj).
    assert (nth_error fs j = None) as -> by (apply nth_error_None; lia). symmetry. apply nth_error_None. lia.
Qed.

Lemma message_says_iff b x : bytes b -> msg1_unmarshal T Debug b = Ok x <-> message_says code L b x.
Proof.
  intros Hby. split.
  - intros Hx. destruct (msg1_accepted code L T HT Debug b x Hx) as (n & l & Hh & Ht & (s & Hs & Hle) & Hn & Hr & Hss & HF & Hm & Ho & _).
    specialize (Ho eq_refl).
    exists n, l. split; [apply header_says_iff; auto|]. split; [apply reads_holds; assumption|]. split; [exact Ht|].
    pose proof (c_length_u16 Debug b _ Hby Hh) as Hu. unfold add16, ov in Hs.
    destruct (N.ltb_spec (c_length (m_header x) + 8) 65536); [|discriminate]. apply Ok_inj in Hs. subst s.
    split; [lia|]. split; [unfold nlen; lia|]. split; [exact Hss|]. split; [|split; [exact Hm|split; [exact Ho|]]].
    + intros t Ht'. rewrite Forall_forall in HF. specialize (HF t Ht'). apply in_map_iff in HF as (f & E & Hf). eauto.
    + destruct (book_ok code L T HT Debug l [] _ _ (init_state code L T HT) HF Ho) as (c & fs & Hb & Hst). cbn [app] in Hst.
      unfold msg1_unmarshal in Hx. rewrite Hh in Hx. cbn [bind] in Hx. rewrite Ht, (tab_code code L T HT), N.eqb_refl in Hx. cbn [negb] in Hx.
      rewrite add16_small in Hx by lia. cbn [bind] in Hx. destruct (Nat.leb_spec (N.to_nat (c_length (m_header x) + 8)) (length b)); [|lia].
      rewrite Hn in Hx. cbn [bind] in Hx.
      rewrite (loop_complete code L T HT Debug b n l Hr 0 _ _ (c, fs) (S (length b))) in Hx.
      * cbn [bind fst snd] in Hx. destruct (forallb _ _); [|discriminate]. apply Ok_inj in Hx. rewrite <- Hx. cbn [m_fields].
        eapply state_exact; eassumption.
      * constructor; [exact Hss|]. apply Forall_forall. intros t _. lia.
      * exact HF.
      * exact Hb.
      * destruct (reads_len _ _ _ _ Hr) as [E| ->]; [lia|cbn; lia].
  - intros (n & l & Hh & Hr & Ht & Hl & Hb & Hss & HF & Hm & Ho & Hst).
    apply header_says_iff in Hh as [Hh Hn]. apply reads_holds in Hr; [|exact Hby].
    assert (HF' : Forall (fun t => In t (map f_code L)) (map fst l)).
    { apply Forall_forall. intros t Ht'. destruct (HF t Ht') as (f & Hf & <-). apply in_map, Hf. }
    destruct (book_ok code L T HT Debug l [] _ _ (init_state code L T HT) HF' Ho) as (c & fs & Hbk & Hst'). cbn [app] in Hst'.
    assert (E : fs = m_fields x) by (eapply stored_exactly_det; [eapply state_exact; eassumption|exact Hst]). subst fs.
    unfold msg1_unmarshal. rewrite Hh. cbn [bind]. rewrite Ht, (tab_code code L T HT), N.eqb_refl. cbn [negb].
    rewrite add16_small by lia. cbn [bind]. unfold nlen in Hb. destruct (Nat.leb_spec (N.to_nat (c_length (m_header x) + 8)) (length b)); [|lia].
    rewrite Hn. cbn [bind].
    rewrite (loop_complete code L T HT Debug b n l Hr 0 _ _ (c, m_fields x) (S (length b))).
    + cbn [bind fst snd]. replace (forallb _ _) with true; [destruct x; reflexivity|]. symmetry. apply forallb_forall. intros t Ht'.
      apply (book_counts T Debug _ _ _ _ _ Hbk). right. destruct (tab_required code L T HT t Ht') as (f & Hf & <- & Hmf). auto.
    + constructor; [exact Hss|]. apply Forall_forall. intros t _. lia.
    + exact HF'.
    + exact Hbk.
    + destruct (reads_len _ _ _ _ Hr) as [E| ->]; [lia|cbn; lia].
Qed.
End Whole.

(* ------------------------------------------------------------------------- *)
(* The messages with a decoder of their own *)
Lemma at_inv {E} b p (x : N) : @at_ E b p = Ok x -> nth_error b p = Some x.
Proof. unfold at_. destruct (nth_error b p); [|discriminate]. intros H. apply Ok_inj in H. congruence. Qed.
Lemma slice_from_inv {E} (b : list N) p r : @slice_from E b p = Ok r -> (p <= length b)%nat /\ r = skipn p b.
Proof.
  destruct (Nat.leb_spec p (length b)) as [H|H]; intros Hr; [rewrite slice_from_ok in Hr by exact H; apply Ok_inj in Hr; auto|].
  exfalso. unfold slice_from in Hr. destruct (Nat.leb_spec p (length b)); [lia|discriminate].
Qed.
Lemma pe_fails r : bytes r -> (exists e, CPe_unmarshal Debug r = Err e) <-> no_extension r.
Proof.
  intros Hb. unfold CPe_unmarshal, var_unmarshal, no_extension, nlen.
  destruct (Nat.leb_spec 3 (length r)) as [H3|H3].
  - destruct r as [|t [|a [|c r]]]; cbn [length] in H3; try lia. cbn [at_ nth_error bind declared].
    assert (Ha : a < 256) by (inversion Hb as [|? ? _ H1]; inversion H1; assumption).
    assert (Hc : c < 256) by (inversion Hb as [|? ? _ H1]; inversion H1 as [|? ? _ H2]; inversion H2; assumption).
    rewrite be16_eq. unfold check_tlv_ie_buffer.
    destruct (N.eqb_spec (256 * a + c) 0) as [E0|E0]; cbn [bind]; [split; eauto|].
    unfold add16, ov. destruct (N.ltb_spec (256 * a + c + 3) 65536); cbn [bind]; [|split; [intros (e & He); discriminate|cbn [length]; lia]].
    destruct (Nat.leb_spec (N.to_nat (256 * a + c + 3)) (length (t :: a :: c :: r))) as [H4|H4].
    + split; [|cbn [length] in H4 |- *; lia]. intros (e & He). exfalso. cbn [length] in H4. unfold be16_at in He. destruct r as [|x r]; [cbn [length] in *; lia|]. cbn [at_ nth_error bind] in He.
      destruct r as [|y r]; cbn [at_ nth_error bind] in He; [discriminate|]. rewrite slice_from_ok in He by (cbn; lia). discriminate.
    + split; [|eauto]. intros _. right. right. lia.
  - split; [intros _; left; lia|eauto].
Qed.
Lemma trailer_iff o r : bytes r -> optional (CPe_unmarshal Debug r) = Ok o <-> trailer_says o r.
Proof.
  intros Hb. unfold optional. destruct o as [e|]; cbn [trailer_says].
  - rewrite <- (Pe_iff Debug) by (auto). destruct (CPe_unmarshal Debug r); split; intros H; try discriminate H; apply Ok_inj in H; congruence.
  - rewrite <- pe_fails by exact Hb. destruct (CPe_unmarshal Debug r); split; intros H; try discriminate H; try (destruct H as (? & H); discriminate H); eauto.
Qed.
Lemma version_not_supported_iff b h : Vns_unmarshal Debug b = Ok h <-> version_not_supported_says b h.
Proof.
  unfold Vns_unmarshal, version_not_supported_says, C_VERSION_NOT_SUPPORTED. split.
  - intros H. apply bind_ok in H as (h' & Hh & H). destruct (N.eqb_spec (c_msgtype h') 3) as [E|]; [|discriminate]. apply Ok_inj in H. subst h'.
    split; [exact E|]. apply header_says_debug, Hh.
  - intros (E & p & H). apply header_says_iff in H as [H _]. rewrite H. cbn [bind]. rewrite E, N.eqb_refl. reflexivity.
Qed.
Lemma echo_request_iff b x : bytes b -> CEchoReq_unmarshal Debug b = Ok x <-> echo_request_says b x.
Proof.
  intros Hb. unfold CEchoReq_unmarshal, echo_request_says, ECHO_REQUEST, nlen. split.
  - intros H. apply bind_ok in H as (h & Hh & H). destruct (N.eqb_spec (c_msgtype h) 1) as [E|]; [|discriminate].
    destruct (header_says_debug b h Hh) as (p & Hp). destruct (header_says_ok Debug _ _ _ Hp) as [_ El].
    assert (Hlt : (N.to_nat (c_length h) <? length b)%nat = (c_length h <? N.of_nat (length b))).
    { destruct (Nat.ltb_spec (N.to_nat (c_length h)) (length b)), (N.ltb_spec (c_length h) (N.of_nat (length b))); try reflexivity; lia. }
    rewrite Hlt in H. destruct (c_length h <? N.of_nat (length b)) eqn:Ec.
    + rewrite El in H. cbn [bind] in H. apply bind_ok in H as (r & Hr & H). apply slice_from_inv in Hr as [Hr ->].
      apply bind_ok in H as (o & Ho & H). apply Ok_inj in H. subst x. cbn [ceq_header ceq_pe]. split; [exact E|]. exists p. split; [exact Hp|].
      rewrite Ec. split; [exact Hr|]. apply trailer_iff; [apply bytes_skipn, Hb|exact Ho].
    + apply Ok_inj in H. subst x. cbn [ceq_header ceq_pe]. split; [exact E|]. exists p. rewrite Ec. auto.
  - intros (E & p & Hp & H). destruct (header_says_ok Debug _ _ _ Hp) as [Hh El]. rewrite Hh. cbn [bind]. rewrite E, N.eqb_refl.
    destruct x as [h o]. cbn [ceq_header ceq_pe] in *. destruct (N.ltb_spec (c_length h) (N.of_nat (length b))); destruct (Nat.ltb_spec (N.to_nat (c_length h)) (length b)); try lia.
    + destruct H as [H Ho]. rewrite El. cbn [bind]. rewrite slice_from_ok by exact H. cbn [bind].
      apply trailer_iff in Ho; [|apply bytes_skipn, Hb]. rewrite Ho. reflexivity.
    + subst o. reflexivity.
Qed.
Lemma skipn_cons_inv {A} (l : list A) p x y : skipn p l = x :: y -> nth_error l p = Some x /\ skipn (S p) l = y /\ (p < length l)%nat.
Proof.
  revert l. induction p as [|p IH]; intros [|a l] H; cbn [skipn] in *; try discriminate; [injection H as -> ->; cbn; repeat split; lia|].
  destruct (IH l H) as (H1 & H2 & H3). cbn [nth_error length]. repeat split; try assumption. lia.
Qed.
Lemma skipn_at {A} (l : list A) p x : nth_error l p = Some x -> skipn p l = x :: skipn (S p) l.
Proof. revert l. induction p as [|p IH]; intros [|a l] H; cbn in *; try discriminate; [congruence|]. apply IH, H. Qed.
Lemma echo_response_iff b x : bytes b -> CEchoResp_unmarshal Debug b = Ok x <-> echo_response_says b x.
Proof.
  intros Hb. unfold CEchoResp_unmarshal, echo_response_says, ECHO_RESPONSE, RECOVERY, nlen. split.
  - intros H. apply bind_ok in H as (h & Hh & H). destruct (N.eqb_spec (c_msgtype h) 2) as [E|]; [|discriminate].
    destruct (header_says_debug b h Hh) as (p & Hp). destruct (header_says_ok Debug _ _ _ Hp) as [_ El].
    destruct (Nat.ltb_spec (N.to_nat (c_length h) + 4) (length b)) as [Hlt|]; [|discriminate]. rewrite El in H. cbn [bind] in H.
    destruct (Nat.ltb_spec p (length b)) as [Hpl|]; [|discriminate]. apply bind_ok in H as (t & Ht & H). apply at_inv in Ht.
    destruct (N.eqb_spec t 14) as [->|]; [|discriminate]. rewrite slice_from_ok in H by lia. cbn [bind] in H.
    pose proof (skipn_at _ _ _ Ht) as Es. apply bind_ok in H as (rc & Hrc & H). unfold CRecovery_unmarshal, tv_unmarshal in Hrc.
    destruct (Nat.leb_spec 2 (length (skipn p b))) as [H2|]; [|discriminate]. apply bind_ok in Hrc as (v & Hv & Hrc). apply at_inv in Hv. apply Ok_inj in Hrc. subst rc.
    rewrite Es in Hv. cbn [nth_error] in Hv. destruct (skipn (S p) b) as [|v' r] eqn:Er; [discriminate|]. injection Hv as ->.
    assert (Er2 : skipn (p + 2) b = r) by (replace (p + 2)%nat with (S (S p)) by lia; eapply skipn_cons_inv, Er).
    assert (Hl : length (skipn p b) = (length b - p)%nat) by apply skipn_length. rewrite Es in Hl. cbn [length] in Hl.
    assert (Hx : cer_header x = h /\ cer_recovery x = mkTv 14 v /\ trailer_says (cer_pe x) r).
    { destruct (Nat.ltb_spec (p + 2) (length b)) as [Hp2|Hp2].
      - rewrite slice_from_ok in H by lia. cbn [bind] in H. apply bind_ok in H as (o & Ho & H). apply Ok_inj in H. subst x.
        cbn [cer_header cer_recovery cer_pe]. repeat split. rewrite Er2 in Ho. apply trailer_iff; [rewrite <- Er2; apply bytes_skipn, Hb|exact Ho].
      - apply Ok_inj in H. subst x. cbn [cer_header cer_recovery cer_pe]. repeat split. cbn [trailer_says]. left. unfold nlen. lia. }
    destruct Hx as (-> & Hrec & Htr). split; [exact E|]. split; [lia|]. exists p, v, r. split; [exact Hp|]. split; [rewrite Es; reflexivity|]. auto.
  - intros (E & Hlt & p & v & r & Hp & Es & Hrec & Htr). destruct (header_says_ok Debug _ _ _ Hp) as [Hh El]. rewrite Hh. cbn [bind]. rewrite E, N.eqb_refl.
    destruct (Nat.ltb_spec (N.to_nat (c_length (cer_header x)) + 4) (length b)); [|lia]. rewrite El. cbn [bind].
    destruct (skipn_cons_inv _ _ _ _ Es) as (Ht & Es1 & Hpl). destruct (skipn_cons_inv _ _ _ _ Es1) as (Hv & Es2 & Hpl2).
    destruct (Nat.ltb_spec p (length b)); [|lia]. unfold at_ at 1. rewrite Ht. cbn [bind]. rewrite N.eqb_refl, slice_from_ok by lia. cbn [bind].
    unfold CRecovery_unmarshal, tv_unmarshal. rewrite Es. destruct (Nat.leb_spec 2 (length (14 :: v :: r))); [|cbn [length] in *; lia].
    cbn [at_ nth_error bind]. replace (p + 2)%nat with (S (S p)) by lia. destruct x as [h rc o]. cbn [cer_header cer_recovery cer_pe] in *. subst rc. unfold RECOVERY.
    destruct (Nat.ltb_spec (S (S p)) (length b)) as [Hq|Hq].
    + rewrite slice_from_ok by lia. cbn [bind]. rewrite Es2. apply trailer_iff in Htr; [|rewrite <- Es2; apply bytes_skipn, Hb]. rewrite Htr. reflexivity.
    + destruct r as [|z r]; [|exfalso; apply (f_equal (@length N)) in Es2; rewrite skipn_length in Es2; cbn [length] in Es2; lia].
      destruct o as [e|]; [|reflexivity]. cbn [trailer_says] in Htr. destruct Htr as (_ & ty & a & c & i & j & Htr & _). discriminate.
Qed.
Lemma supported_headers_iff b x : bytes b -> CSup_unmarshal Debug b = Ok x <-> supported_headers_says b x.
Proof.
  intros Hb. unfold CSup_unmarshal, supported_headers_says, SUPPORTED_EXTENSION_HEADERS_NOTIFICATION, EXTENSION_HEADER_TYPE_LIST, nlen. split.
  - intros H. apply bind_ok in H as (h & Hh & H). destruct (N.eqb_spec (c_msgtype h) 31) as [E|]; [|discriminate]. cbn [negb] in H.
    destruct (header_says_debug b h Hh) as (p & Hp). destruct (header_says_ok Debug _ _ _ Hp) as [_ El].
    apply bind_ok in H as (tot & Htot & H). unfold add16, ov in Htot. destruct (N.ltb_spec (c_length h + 8) 65536); [|discriminate]. apply Ok_inj in Htot. subst tot.
    destruct (Nat.leb_spec (N.to_nat (c_length h + 8)) (length b)); [|discriminate]. rewrite El in H. cbn [bind] in H.
    destruct (Nat.eqb_spec p (length b)); [discriminate|]. apply bind_ok in H as (t & Ht & H). apply at_inv in Ht.
    destruct (N.eqb_spec t 141) as [->|]; [|discriminate]. apply bind_ok in H as (r & Hr & H). apply slice_from_inv in Hr as [Hr ->].
    rewrite (skipn_at _ _ _ Ht) in H. destruct (CEhtl_unmarshal Debug (141 :: skipn (S p) b)) as [i| | |] eqn:Ei; try discriminate. apply Ok_inj in H. subst x.
    unfold CEhtl_unmarshal in Ei. apply bind_ok in Ei as (l & Hl & Ei). apply at_inv in Hl. destruct (skipn (S p) b) as [|l' v] eqn:Es; [discriminate|]. injection Hl as ->.
    apply bind_ok in Ei as (s & Hs & Ei). unfold add8, ov in Hs. destruct (N.ltb_spec (l + 2) 256); [|discriminate]. apply Ok_inj in Hs. subst s.
    destruct (Nat.leb_spec (N.to_nat (l + 2)) (length (141 :: l :: v))) as [Hlv|]; [|discriminate]. rewrite slice_from_ok in Ei by (cbn; lia). cbn [bind skipn] in Ei. apply Ok_inj in Ei. subst i.
    cbn [cs_header cs_list]. cbn [length] in Hlv. split; [exact E|]. split; [lia|]. split; [lia|]. exists p, l, v.
    split; [exact Hp|]. split; [rewrite (skipn_at _ _ _ Ht), Es; reflexivity|]. split; [reflexivity|]. lia.
  - intros (E & Hl1 & Hl2 & p & l & v & Hp & Es & Hc & H1 & H2). destruct (header_says_ok Debug _ _ _ Hp) as [Hh El]. rewrite Hh. cbn [bind]. rewrite E. cbn [N.eqb Pos.eqb negb].
    rewrite add16_small by lia. cbn [bind]. destruct (Nat.leb_spec (N.to_nat (c_length (cs_header x) + 8)) (length b)); [|lia]. rewrite El. cbn [bind].
    destruct (skipn_cons_inv _ _ _ _ Es) as (Ht & Es1 & Hpl). destruct (Nat.eqb_spec p (length b)); [lia|]. unfold at_ at 1. rewrite Ht. cbn [bind].
    cbn [N.eqb Pos.eqb]. rewrite slice_from_ok by lia. cbn [bind]. rewrite Es. unfold CEhtl_unmarshal. cbn [at_ nth_error bind]. unfold add8, ov.
    destruct (N.ltb_spec (l + 2) 256); [|lia]. cbn [bind]. destruct (Nat.leb_spec (N.to_nat (l + 2)) (length (141 :: l :: v))) as [|Hlv]; [|cbn [length] in Hlv; lia].
    rewrite slice_from_ok by (cbn; lia). cbn [bind skipn]. destruct x as [h i]. cbn [cs_list cs_header] in *. subst i. reflexivity.
Qed.
