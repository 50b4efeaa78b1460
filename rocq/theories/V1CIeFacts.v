(* V1CIeFacts.v - the GTPv1-C information elements: decoding what was encoded, and the size
   reported by [len]. *)
From Verif Require Import BaseFacts DigitsFacts LabelsFacts V1USpec V1UFacts V1CSpec.
Local Open Scope N_scope.

Lemma tlv_octets {A} (value : A -> list N) x : tlv_length x = nlen (value (tlv_v x)) -> tlv_length x <= 65532 ->
  tlv_marshal value x
  = tlv_t x :: (tlv_length x / 256) mod 256 :: tlv_length x mod 256 :: value (tlv_v x).
Proof.
  intros Hl Hb. unfold tlv_marshal. cbn [app enc16]. rewrite set_tlv_cons. rewrite <- Hl.
  rewrite N.mod_small by lia. reflexivity.
Qed.

Lemma tv_rt {A} T n k (value : A -> list N) x r :
  tv_t x = T -> (n <= S (length (value (tv_v x))))%nat -> k (T :: value (tv_v x) ++ r) = Ok (tv_v x) ->
  tv_unmarshal T n k (tv_marshal value x ++ r) = Ok x.
Proof.
  destruct x as [t v]; cbn [tv_t tv_v]; intros -> Hn Hk. unfold tv_unmarshal, tv_marshal. cbn [tv_t tv_v app].
  destruct (Nat.leb_spec n (length (T :: value v ++ r))) as [_|H]; [|cbn [length] in H; rewrite app_length in H; lia].
  rewrite Hk. reflexivity.
Qed.

Lemma fixed_rt {A} T n k (value : A -> list N) x r :
  tlv_t x = T -> tlv_length x = nlen (value (tlv_v x)) -> tlv_length x <= 65532 ->
  (n <= 3 + length (value (tlv_v x)))%nat ->
  (forall a b, k (T :: a :: b :: value (tlv_v x) ++ r) = Ok (tlv_v x)) ->
  fixed_unmarshal T n k (tlv_marshal value x ++ r) = Ok x.
Proof.
  intros Ht Hl Hb Hn Hk. rewrite tlv_octets by assumption. destruct x as [t l v]; cbn [tlv_t tlv_length tlv_v] in *. subst t.
  unfold fixed_unmarshal. cbn [app].
  destruct (Nat.leb_spec n (length (T :: (l / 256) mod 256 :: l mod 256 :: value v ++ r))) as [_|H];
    [|cbn [length] in H; rewrite app_length in H; lia].
  unfold at_; cbn [nth_error bind]. rewrite Hk. cbn [bind]. rewrite be16_enc by (unfold u16; lia). reflexivity.
Qed.

Lemma var_rt {A} T k m (value : A -> list N) x r :
  tlv_t x = T -> tlv_length x = nlen (value (tlv_v x)) -> 1 <= tlv_length x <= 65532 ->
  (forall a b, k (tlv_length x) (T :: a :: b :: value (tlv_v x) ++ r) = Ok (tlv_v x)) ->
  var_unmarshal T k m (tlv_marshal value x ++ r) = Ok x.
Proof.
  intros Ht Hl Hb Hk. rewrite tlv_octets by (assumption || lia). destruct x as [t l v]; cbn [tlv_t tlv_length tlv_v] in *. subst t.
  unfold var_unmarshal. cbn [app length Nat.leb]. unfold at_; cbn [nth_error bind].
  rewrite be16_enc by (unfold u16; lia).
  rewrite check_tlv_ok by (cbn [length]; rewrite ?app_length; unfold nlen in *; lia). cbn [bind].
  rewrite Hk. reflexivity.
Qed.

Lemma blob_at_ok m T a b v r : 1 <= nlen v <= 65532 ->
  blob_at m (nlen v) (T :: a :: b :: v ++ r) = Ok v.
Proof.
  intros H. unfold blob_at. rewrite add16_small by lia. cbn [bind].
  change (T :: a :: b :: v ++ r) with ([T; a; b] ++ v ++ r). unfold nlen.
  rewrite slice_app_mid; [reflexivity|reflexivity|cbn; lia].
Qed.

Lemma number8_enc s : number8 s -> length (tbcd_encode s) = 8%nat /\ tbcd_decode (tbcd_encode s) = s.
Proof.
  intros [Hd Hl]. split.
  - rewrite tbcd_encode_length by exact Hd. destruct Hl as [-> | ->]; reflexivity.
  - rewrite tbcd_decode_encode. apply digits_only_filter, Hd.
Qed.

Lemma plmn_octets_length p : length (plmn_octets p) = 3%nat.
Proof. destruct p as [[a b] c]. reflexivity. Qed.
Lemma plmn_at_ok pre p r : plmn_ok p -> plmn_at (pre ++ plmn_octets p ++ r) (length pre) = Ok p.
Proof.
  destruct p as [[mcc mnc] three]. intros (A & B & C). unfold plmn_at, plmn_octets.
  rewrite (slice_app_mid pre _ r); [|reflexivity|rewrite mcc_mnc_length; lia]. cbn [bind].
  rewrite <- (app_nil_r (mcc_mnc_encode _ _ _)). apply plmn_exact; assumption.
Qed.
(* three octets that stand for the network *)
Lemma plmn_three p : exists a b c, plmn_octets p = [a; b; c].
Proof.
  pose proof (plmn_octets_length p) as H. destruct (plmn_octets p) as [|a [|b [|c [|]]]]; try discriminate H. eauto.
Qed.

Lemma flags_roundtrip n l : length l = n -> (n <= 8)%nat -> flags_of n (flags_octet l) = l.
Proof.
  intros <- Hn. do 9 (destruct l as [|[] l]; [vm_compute; reflexivity| |]); cbn [length] in Hn; try lia.
Qed.

Ltac unw H := unfold wf_tv, wf_tlv, fixed, any, octet in H; cbn [tv_t tv_v tlv_t tlv_length tlv_v] in H.
Ltac step := unfold be16_at, be24_at, be32_at, at_; cbn [nth_error bind Nat.add app];
  repeat (first [rewrite be16_enc by (assumption || lia) | rewrite be24_enc by (assumption || lia)
                |rewrite be32_enc by (assumption || lia)]; cbn [bind]).

Lemma earp_sweep : forallb (fun v => forallb (fun l => forallb (fun c =>
   let x := N.lor (N.lor ((N.shiftl c 6) mod 256) ((N.shiftl l 2) mod 256)) v in
   (N.land x 1 =? v) && (N.land (N.shiftr x 2) 15 =? l) && (N.land (N.shiftr x 6) 1 =? c)) (upto 2)) (upto 16)) (upto 2) = true.
Proof. vm_compute. reflexivity. Qed.
Lemma backoff_sweep : forallb (fun u => forallb (fun v =>
   let x := N.lor ((N.shiftl u 5) mod 256) (if v <? 127 then v else 127) in
   (N.shiftr x 5 =? u) && (N.land x 31 =? v)) (upto 32)) (upto 8) = true.
Proof. vm_compute. reflexivity. Qed.
Lemma msisdn_sweep : forallb (fun e => forallb (fun n => forallb (fun p =>
   let x := N.lor (N.lor ((N.shiftl e 7) mod 256) ((N.shiftl n 4) mod 256)) p in
   (N.land x 15 =? p) && (N.shiftr (N.land x 128) 7 =? e) && (N.shiftr (N.land x 112) 4 =? n)) (upto 16)) (upto 8)) (upto 2) = true.
Proof. vm_compute. reflexivity. Qed.
Lemma tz_sweep : forallb (fun a =>
   (N.land a 127 =? a) && (N.shiftr a 7 =? 0) && (N.land (N.lor 128 a) 127 =? a) && (N.shiftr (N.lor 128 a) 7 =? 1)) (upto 128) = true.
Proof. vm_compute. reflexivity. Qed.
Lemma low_sweep4 : forallb (fun v => N.land (N.lor 252 v) 3 =? v) (upto 4) = true.
Proof. vm_compute. reflexivity. Qed.
Lemma low_sweep8 : forallb (fun v => N.land v 7 =? v) (upto 8) = true.
Proof. vm_compute. reflexivity. Qed.
Lemma low_sweep16 : forallb (fun v => N.land v 15 =? v) (upto 16) = true.
Proof. vm_compute. reflexivity. Qed.

(* the dotted name: octets written *)
Lemma split_dot_concat s : nlen (concat (map (fun w => nlen w :: w) (split_dot s))) = nlen s + 1.
Proof.
  unfold nlen. induction s as [|c s IH]; [reflexivity|]. cbn [split_dot].
  destruct (c =? 46).
  - cbn [map concat app length]. lia.
  - pose proof (split_dot_nonempty s) as Hn. destruct (split_dot s) as [|w ws]; [contradiction|].
    cbn [map concat app length] in *. rewrite app_length in *. cbn [length] in *. lia.
Qed.
Lemma apn_size s : name_ok s -> nlen (labels_encode s) = name_size s.
Proof. intros H. rewrite labels_encode_eq by exact H. apply split_dot_concat. Qed.

Lemma eua_octets v : eua_ok v -> nlen (Eua_value v) = eua_size v.
Proof.
  unfold eua_ok, Eua_value, eua_size, nlen. destruct v as [o n [a|] [c|]]; cbn [eua_org eua_nbr eua_v4 eua_v6 opt_octets].
  - intros (-> & -> & Ha & Hc). cbn [length]. change (1 =? 0) with false. change (1 =? 1) with true. cbv iota. cbn [length].
    rewrite app_length. lia.
  - intros (-> & -> & Ha). change (1 =? 0) with false. change (1 =? 1) with true. cbv iota. cbn [length].
    rewrite app_length. cbn [length]. lia.
  - intros (-> & -> & Ha). change (1 =? 0) with false. change (1 =? 1) with true. cbv iota. cbn [length app]. lia.
  - intros [(-> & _)|(-> & _)]; reflexivity.
Qed.

Lemma ip_octets_size i : ip_ok i -> nlen (ip_octets i) = ip_size i.
Proof. unfold nlen. destruct i as [a b c d|o]; cbn [ip_ok ip_octets ip_size length]; [reflexivity|intros ->; reflexivity]. Qed.
Lemma ip_at_ok T a b i r : ip_ok i -> ip_at (ip_size i) (T :: a :: b :: ip_octets i ++ r) = Ok i.
Proof.
  destruct i as [x y z w|o]; cbn [ip_ok ip_size ip_octets]; intros H; unfold ip_at.
  - reflexivity.
  - change (16 =? 4) with false. change (16 =? 16) with true. cbv iota.
    destruct (Nat.leb_spec 19 (length (T :: a :: b :: o ++ r))) as [_|Hx];
      [|cbn [length] in Hx; rewrite app_length in Hx; lia].
    change (T :: a :: b :: o ++ r) with ([T; a; b] ++ o ++ r).
    rewrite slice_app_mid; [reflexivity|reflexivity|cbn; lia].
Qed.

Lemma eua_k m a b v r : eua_ok v ->
  (let l := eua_size v in let buf := 128 :: a :: b :: Eua_value v ++ r in
   forall x : Tlv EuaV, tlv_t x = 128 -> tlv_length x = l -> tlv_v x = v ->
   Eua_unmarshal m (tlv_marshal Eua_value x ++ r) = Ok x).
Proof.
  intros Hok l buf x Ht Hl Hv. unfold Eua_unmarshal. pose proof (eua_octets v Hok) as Hs.
  apply (var_rt END_USER_ADDRESS); [exact Ht|rewrite Hl, Hv; symmetry; exact Hs| |].
  - rewrite Hl. unfold l, eua_size. unfold eua_ok in Hok. destruct v as [o n [u|] [c|]]; cbn [eua_v4 eua_v6 opt_octets eua_org eua_nbr] in *;
      unfold nlen; cbn [length]; lia.
  - intros p q. rewrite Hl, Hv. unfold l, eua_size. clear Hs buf l x Ht Hl Hv.
    unfold eua_ok in Hok. destruct v as [o n [u|] [c|]]; cbn [eua_v4 eua_v6 opt_octets eua_org eua_nbr] in *; unfold Eua_value;
      cbn [eua_v4 eua_v6 opt_octets eua_org eua_nbr].
    + destruct Hok as (-> & -> & Hu & Hc). unfold nlen. rewrite Hu, Hc.
      do 4 (destruct u as [|? u]; [discriminate Hu|]). destruct u; [|discriminate Hu].
      do 16 (destruct c as [|? c]; [discriminate Hc|]). destruct c; [|discriminate Hc]. cbn [app].
      vm_compute. reflexivity.
    + destruct Hok as (-> & -> & Hu). unfold nlen. rewrite Hu.
      do 4 (destruct u as [|? u]; [discriminate Hu|]). destruct u; [|discriminate Hu]. cbn [app].
      vm_compute. reflexivity.
    + destruct Hok as (-> & -> & Hc). unfold nlen. rewrite Hc.
      do 16 (destruct c as [|? c]; [discriminate Hc|]). destruct c; [|discriminate Hc]. cbn [app].
      vm_compute. reflexivity.
    + destruct Hok as [(-> & [-> | ->])|(-> & [-> | [-> | ->]])]; vm_compute; reflexivity.
Qed.

(* Every element but the private extension decodes whatever follows it. *)
Definition decodes_alone (i : ie1) : Prop := match i with I1_Pe _ => True | _ => False end.

Lemma ie1_roundtrip m i r : wf_ie1 i -> (decodes_alone i -> r = []) ->
  ie1_unmarshal (kind1_of i) m (ie1_marshal i ++ r) = Ok i.
Proof.
  intros H Ha. destruct i as [x|x|x|x|x|x|x|x|x|x|x|x|x|x|x|x|x|x|x|x|x|x|x|x|x|x|x|x|x|x|x|x|x|x|x|x|x|x|x|x|x|x|x|x|x|x|x|x];
    cbn [kind1_of ie1_marshal ie1_unmarshal wf_ie1 decodes_alone] in *;
    match goal with |- bind ?u _ = _ => cut (u = Ok x); [intros ->; reflexivity|] end.
  - (* Cause *) unw H. apply tv_rt; [apply H|cbn; lia|reflexivity].
  - (* Imsi *) destruct H as [Ht Hv]. destruct (number8_enc _ Hv) as [L D].
    apply tv_rt; [exact Ht|unfold Imsi_value; lia|]. unfold Imsi_value.
    change (IMSI :: tbcd_encode (tv_v x) ++ r) with ([IMSI] ++ tbcd_encode (tv_v x) ++ r).
    rewrite slice_app_mid; [cbn [bind]; rewrite D; reflexivity|reflexivity|cbn [length]; lia].
  - (* Rai *) destruct H as [Ht [Hp Hl]]. destruct x as [t [p l rc]]; cbn in Ht, Hp, Hl. subst t.
    apply tv_rt; [reflexivity|cbn [tv_v]; unfold Rai_value; rewrite app_length, plmn_octets_length; cbn; lia|].
    unfold Rai_value; cbn [tv_v rai_plmn rai_lac rai_rac]. rewrite <- app_assoc.
    pose proof (plmn_at_ok [RAI] p ((enc16 l ++ [rc]) ++ r) Hp) as E. cbn [length app] in E. rewrite E. cbn [bind].
    destruct (plmn_three p) as (a & b & c & ->). cbn [app enc16]. step. reflexivity.
  - (* Reordering *) destruct x as [t v]; destruct H as [Ht _]; cbn in Ht; subst t. destruct v; reflexivity.
  - (* Recovery *) destruct x as [t v]; destruct H as [Ht _]; cbn in Ht; subst t. reflexivity.
  - (* SelectionMode *) destruct H as [Ht Hv]. apply tv_rt; [exact Ht|cbn; lia|]. cbn [SelectionMode_value app]. step.
    f_equal. apply N.eqb_eq. exact (sweep 4 _ low_sweep4 _ Hv).
  - (* Teid *) destruct x as [t v]. destruct H as [[Ht Hv]|[Ht Hv]]; cbn in Ht, Hv; subst t;
      unfold CTeid_unmarshal, tv_marshal, CTeid_value; cbn [tv_t tv_v app enc32 length Nat.leb]; step; reflexivity.
  - (* Teardown *) destruct x as [t v]; destruct H as [Ht _]; cbn in Ht; subst t. destruct v; reflexivity.
  - (* Nsapi *) destruct H as [Ht Hv]. apply tv_rt; [exact Ht|cbn; lia|]. cbn [Nsapi_value app]. step.
    f_equal. apply N.eqb_eq. exact (sweep 16 _ low_sweep16 _ Hv).
  - (* ChargingChar *) destruct H as [Ht Hv]. apply tv_rt; [exact Ht|cbn; lia|]. cbn [ChargingChar_value app]. step.
    f_equal. apply N.eqb_eq. exact (sweep 16 _ low_sweep16 _ Hv).
  - destruct H as [Ht Hv]. apply tv_rt; [exact Ht|cbn; lia|]. unfold Trace_value. cbn [app enc16]. step. reflexivity.
  - destruct H as [Ht Hv]. apply tv_rt; [exact Ht|cbn; lia|]. unfold Trace_value. cbn [app enc16]. step. reflexivity.
  - destruct H as [Ht [Hv Hz]]. apply tv_rt; [exact Ht|cbn; lia|]. unfold ChargingId_value. cbn [app enc32]. step.
    destruct (N.eqb_spec (tv_v x) 0); [contradiction|reflexivity].
  - (* Eua *) destruct H as (Ht & Hl & Hb & Hv). apply (eua_k m 0 0 (tlv_v x)); auto.
  - (* Apn *) destruct H as (Ht & Hl & Hb & Hv). unfold Apn_unmarshal. pose proof (apn_size _ Hv) as Hs.
    apply var_rt; [exact Ht|rewrite Hl; symmetry; exact Hs|rewrite Hl; unfold name_size in *; lia|].
    intros a b. rewrite Hl, <- Hs. unfold Apn_value.
    change (APN :: a :: b :: labels_encode (tlv_v x) ++ r) with ([APN; a; b] ++ labels_encode (tlv_v x) ++ r).
    rewrite slice_app_mid; [cbn [bind]; apply labels_roundtrip, Hv|reflexivity|unfold nlen; cbn [length]; lia].
  - (* Pco *) destruct H as (Ht & Hl & Hb & Hv). unfold some_octets in Hv.
    assert (1 <= nlen (tlv_v x)) by (unfold nlen; destruct (tlv_v x); [contradiction|cbn [length]; lia]).
    apply var_rt; [exact Ht|exact Hl|lia|]. intros a b. rewrite Hl. apply blob_at_ok. lia.
  - (* Gsn *) destruct H as (Ht & Hl & Hb & Hv). pose proof (ip_octets_size _ Hv) as Hs.
    apply var_rt; [exact Ht|unfold Ip_value; rewrite Hs; exact Hl|rewrite Hl; destruct (tlv_v x); cbn; lia|].
    intros a b. rewrite Hl. apply ip_at_ok, Hv.
  - (* Msisdn *) destruct H as (Ht & Hl & Hb & (He & Hn & Hp & Hd)). destruct (number8_enc _ Hd) as [L D].
    unfold fixed in *. destruct x as [t l v]; cbn [tlv_t tlv_length tlv_v] in *. subst t l.
    apply var_rt; [reflexivity|unfold nlen, Msisdn_value; cbn [length tlv_v tlv_length]; lia|cbn; lia|].
    intros a b. cbn [tlv_length tlv_v]. unfold Msisdn_value. cbn [app]. step.
    assert (Hp' : ms_plan v < 16) by (destruct Hp as [-> | ->]; lia).
    pose proof (sweep 16 _ (sweep 8 (fun n => forallb _ (upto 16))
       (sweep 2 (fun e => forallb _ (upto 8)) msisdn_sweep _ He) _ Hn) _ Hp') as E.
    cbv beta zeta in E. apply andb_prop in E as [E E3]. apply andb_prop in E as [E1 E2].
    apply N.eqb_eq in E1, E2, E3. rewrite E1, E2, E3.
    replace ((ms_plan v =? 1) || (ms_plan v =? 6)) with true by (destruct Hp as [-> | ->]; reflexivity).
    set (o := N.lor _ _). change (MSISDN :: a :: b :: o :: tbcd_encode (ms_digits v) ++ r)
      with ([MSISDN; a; b; o] ++ tbcd_encode (ms_digits v) ++ r).
    rewrite slice_app_mid; [|reflexivity|cbn [length]; lia]. cbn [bind]. rewrite D. destruct v; reflexivity.
  - (* Qos *) destruct H as (Ht & Hl & Hb & Hv). unfold qos_ok in Hv. destruct x as [t l [ar q]]; cbn [tlv_t tlv_length tlv_v qos_qos] in *.
    subst t l. apply var_rt; [reflexivity|unfold nlen, Qos_value; cbn [tlv_length tlv_v qos_arp qos_qos length]; lia|
      cbn [tlv_length]; lia|].
    intros a b. cbn [tlv_length tlv_v]. unfold Qos_value; cbn [qos_arp qos_qos app]. unfold nlen in *. step.
    rewrite add16_small by lia. cbn [bind].
    change (QOS :: a :: b :: ar :: q ++ r) with ([QOS; a; b; ar] ++ q ++ r).
    rewrite slice_app_mid; [|reflexivity|cbn [length]; lia]. cbn [bind].
    destruct (Nat.leb_spec 3 (length q)); [|lia]. destruct (Nat.leb_spec (length q) 255); [reflexivity|lia].
  - (* Tft *) destruct H as (Ht & Hl & Hb & Hv). unfold some_octets in Hv.
    assert (1 <= nlen (tlv_v x)) by (unfold nlen; destruct (tlv_v x); [contradiction|cbn [length]; lia]).
    apply var_rt; [exact Ht|exact Hl|lia|]. intros a b. rewrite Hl. apply blob_at_ok. lia.
  - destruct H as (Ht & Hl & Hb & Hv). unfold some_octets in Hv.
    assert (1 <= nlen (tlv_v x)) by (unfold nlen; destruct (tlv_v x); [contradiction|cbn [length]; lia]).
    apply var_rt; [exact Ht|exact Hl|lia|]. intros a b. rewrite Hl. apply blob_at_ok. lia.
  - destruct H as (Ht & Hl & Hb & Hv). unfold some_octets in Hv.
    assert (1 <= nlen (tlv_v x)) by (unfold nlen; destruct (tlv_v x); [contradiction|cbn [length]; lia]).
    apply var_rt; [exact Ht|exact Hl|lia|]. intros a b. rewrite Hl. apply blob_at_ok. lia.
  - (* CommonFlags *) destruct H as (Ht & Hl & Hb & Hv). unfold fixed in *.
    apply fixed_rt; [exact Ht|exact Hl|lia|cbn; lia|]. intros a b. unfold Flags_value. cbn [app]. step.
    rewrite flags_roundtrip by (exact Hv || lia). reflexivity.
  - (* ApnRestriction *) destruct H as (Ht & Hl & Hb & _). unfold fixed in *.
    apply fixed_rt; [exact Ht|exact Hl|lia|cbn; lia|]. intros a b. destruct (tlv_v x); reflexivity.
  - (* RatType *) destruct H as (Ht & Hl & Hb & _). unfold fixed in *.
    apply fixed_rt; [exact Ht|exact Hl|lia|cbn; lia|]. intros a b. destruct (tlv_v x); reflexivity.
  - (* Uli *) destruct H as (Ht & Hl & Hb & (Hp & Hlac & Hloc)). unfold fixed in *.
    destruct x as [t l [p lac loc]]; cbn [tlv_t tlv_length tlv_v uli_plmn uli_lac uli_loc] in *. subst t l.
    destruct (plmn_three p) as (o1 & o2 & o3 & Ep).
    apply fixed_rt; cbn [tlv_t tlv_length tlv_v]; [reflexivity| |lia| |];
      [unfold nlen, Uli_value; cbn [uli_plmn uli_lac uli_loc]; rewrite Ep; destruct loc; reflexivity
      |unfold Uli_value; cbn [uli_plmn uli_lac uli_loc]; rewrite Ep; destruct loc; cbn; lia|].
    intros a b. unfold Uli_value; cbn [uli_plmn uli_lac uli_loc].
    set (c := match loc with Ci _ => 0 | Sac _ => 1 | Rac _ => 2 end).
    set (body := match loc with Ci i => enc16 i | Sac i => enc16 i | Rac r0 => [r0; 255] end).
    pose proof (plmn_at_ok [ULI; a; b; c] p ((enc16 lac ++ body) ++ r) Hp) as E. cbn [length app] in E.
    cbn [app]. rewrite <- app_assoc.
    replace (at_ (ULI :: a :: b :: c :: plmn_octets p ++ (enc16 lac ++ body) ++ r) 3) with (@Ok GTPV1Error N c) by reflexivity.
    cbn [bind]. assert (Ec : (c <=? 2) = true) by (unfold c; destruct loc; reflexivity). rewrite Ec.
    rewrite E. cbn [bind]. rewrite Ep. unfold body, c. clear E Ec body c.
    destruct loc as [i|i|i]; cbn [app enc16]; step; rewrite ?be16_enc by assumption; reflexivity.
  - (* Tz *) destruct H as (Ht & Hl & Hb & (Hz & Hd)). unfold fixed in *.
    apply fixed_rt; [exact Ht|exact Hl|lia|cbn; lia|]. intros a b. destruct (tlv_v x) as [z d]; cbn [tz_zone tz_dst] in *.
    unfold Tz_value; cbn [tz_zone tz_dst app]. step.
    assert (Ed : N.land d 3 = d).
    { apply N.eqb_eq. refine (sweep 4 (fun d => N.land d 3 =? d) _ d Hd). reflexivity. }
    rewrite Ed.
    assert (Hab : Z.to_N (Z.abs z) < 128) by lia.
    pose proof (sweep 128 _ tz_sweep _ Hab) as E. cbv beta in E.
    apply andb_prop in E as [E E4]. apply andb_prop in E as [E E3]. apply andb_prop in E as [E1 E2].
    apply N.eqb_eq in E1, E2, E3, E4.
    destruct (Z.leb_spec 0 z).
    + replace (Z.abs z) with z in * by lia. rewrite E1, E2. change (0 =? 0) with true. cbv iota. repeat f_equal. lia.
    + replace (Z.abs z) with (- z)%Z in * by lia. rewrite E3, E4. change (1 =? 0) with false. change (1 =? 1) with true.
      cbv iota. repeat f_equal. lia.
  - (* Imei *) destruct H as (Ht & Hl & Hb & Hv). destruct (number8_enc _ Hv) as [L D]. unfold fixed in *.
    rewrite tlv_octets by (unfold Imei_value, nlen; rewrite ?L; (exact Hl || lia)).
    destruct x as [t l v]; cbn [tlv_t tlv_length tlv_v] in *. subst t l. unfold Imei_unmarshal, Imei_value. cbn [app].
    destruct (Nat.leb_spec 11 (length (154 :: (8 / 256) mod 256 :: 8 mod 256 :: tbcd_encode v ++ r))) as [_|Hx];
      [|cbn [length] in Hx; rewrite app_length in Hx; lia].
    match goal with |- context[slice ?l 3 11] =>
      replace l with ([154; (8 / 256) mod 256; 8 mod 256] ++ tbcd_encode v ++ r) by reflexivity end.
    rewrite slice_app_mid; [cbn [bind]; rewrite D; reflexivity|reflexivity|cbn [length]; lia].
  - (* Camel *) destruct H as (Ht & Hl & Hb & _).
    rewrite tlv_octets by (exact Hl || lia).
    destruct x as [t l v]; cbn [tlv_t tlv_length tlv_v] in *. subst t l. unfold Camel_unmarshal, Blob_value. cbn [app length Nat.leb].
    unfold at_; cbn [nth_error bind]. rewrite be16_enc by (unfold u16; lia). rewrite add16_small by lia. cbn [bind].
    destruct (Nat.leb_spec (N.to_nat (nlen v + 3)) (S (S (S (length (v ++ r)))))) as [_|Hx];
      [|rewrite app_length in Hx; unfold nlen in Hx; lia].
    match goal with |- context[slice (?a :: ?b :: ?c :: v ++ r)] =>
      change (a :: b :: c :: v ++ r) with ([a; b; c] ++ v ++ r) end.
    rewrite slice_app_mid; [reflexivity|reflexivity|unfold nlen; cbn [length]; lia].
  - (* Ati *) destruct H as (Ht & Hl & Hb & (Hr & Hs)). unfold fixed in *.
    apply fixed_rt; [exact Ht|exact Hl|lia|cbn; lia|]. intros a b. destruct (tlv_v x) as [rf s e d i c]; cbn [ati_ref ati_session] in *.
    unfold Ati_value; cbn [ati_ref ati_session ati_events ati_depth ati_ifs ati_ctl enc24 enc16 app]. step. reflexivity.
  - (* MsInfoChange *) destruct H as (Ht & Hl & Hb & Hv). unfold fixed in *.
    apply fixed_rt; [exact Ht|exact Hl|lia|cbn; lia|]. intros a b. unfold Octet_value. cbn [app]. step.
    destruct (N.leb_spec (tlv_v x) 2); [reflexivity|lia].
  - destruct H as (Ht & Hl & Hb & Hv). unfold fixed in *.
    apply fixed_rt; [exact Ht|exact Hl|lia|cbn; lia|]. intros a b. unfold Flags_value. cbn [app]. step.
    rewrite flags_roundtrip by (exact Hv || lia). reflexivity.
  - destruct H as (Ht & Hl & Hb & Hv). unfold fixed in *.
    apply fixed_rt; [exact Ht|exact Hl|lia|cbn; lia|]. intros a b. reflexivity.
  - destruct H as (Ht & Hl & Hb & Hv). unfold fixed in *.
    apply fixed_rt; [exact Ht|exact Hl|lia|cbn; lia|]. intros a b. unfold Octet_value. cbn [app]. step.
    destruct (N.leb_spec (tlv_v x) 1); [reflexivity|lia].
  - (* Earp *) destruct H as (Ht & Hl & Hb & (Hu & Hlv & Hc)). unfold fixed in *.
    apply fixed_rt; [exact Ht|exact Hl|lia|cbn; lia|]. intros a b. destruct (tlv_v x) as [u l c]; cbn [earp_vuln earp_level earp_cap] in *.
    unfold Earp_value; cbn [earp_vuln earp_level earp_cap app]. step.
    pose proof (sweep 2 _ (sweep 16 (fun l => forallb _ (upto 2))
       (sweep 2 (fun u => forallb _ (upto 16)) earp_sweep _ Hu) _ Hlv) _ Hc) as E.
    cbv beta zeta in E. apply andb_prop in E as [E E3]. apply andb_prop in E as [E1 E2].
    apply N.eqb_eq in E1, E2, E3. rewrite E1, E2, E3. reflexivity.
  - destruct H as (Ht & Hl & Hb & Hv). unfold fixed in *.
    apply fixed_rt; [exact Ht|exact Hl|lia|cbn; lia|]. intros a b. unfold Flags_value. cbn [app]. step.
    rewrite flags_roundtrip by (exact Hv || lia). reflexivity.
  - (* Uci *) destruct H as (Ht & Hl & Hb & (Hp & Hc)). unfold fixed in *.
    destruct x as [t l [p c am cm]]; cbn [tlv_t tlv_length tlv_v uci_plmn uci_csgid uci_mode uci_cmi] in *. subst t l.
    destruct (plmn_three p) as (o1 & o2 & o3 & Ep).
    assert (Em : N.land c 134217727 = c).
    { change 134217727 with (N.ones 27). rewrite N.land_ones. apply N.mod_small. exact Hc. }
    apply fixed_rt; cbn [tlv_t tlv_length tlv_v]; [reflexivity| |lia| |];
      [unfold nlen, Uci_value; cbn [uci_plmn]; rewrite Ep; reflexivity
      |unfold Uci_value; cbn [uci_plmn]; rewrite Ep; cbn; lia|].
    intros a b. unfold Uci_value; cbn [uci_plmn uci_csgid uci_mode uci_cmi]. rewrite Em.
    pose proof (plmn_at_ok [UCI; a; b] p ((enc32 c ++ [Uci_flags am cm]) ++ r) Hp) as E. cbn [length app] in E.
    rewrite <- app_assoc. rewrite E. cbn [bind]. rewrite Ep. cbn [app enc32].
    step. rewrite ?be32_enc by (unfold u32; lia). cbn [bind].
    destruct am, cm; reflexivity.
  - (* CsgInfo *) destruct H as (Ht & Hl & Hb & Hv). unfold fixed in *.
    apply fixed_rt; [exact Ht|exact Hl|lia|cbn; lia|]. intros a b. unfold Octet_value. cbn [app]. step.
    f_equal. apply N.eqb_eq. exact (sweep 8 _ low_sweep8 _ Hv).
  - (* Ambr *) destruct H as (Ht & Hl & Hb & (Hu & Hd)). unfold fixed in *.
    apply fixed_rt; [exact Ht|exact Hl|lia|cbn; lia|]. intros a b. destruct (tlv_v x) as [u d]; cbn [ambr_ul ambr_dl] in *.
    unfold Ambr_value; cbn [ambr_ul ambr_dl enc32 app]. step. reflexivity.
  - (* Backoff *) destruct H as (Ht & Hl & Hb & (Hu & Hd)). unfold fixed in *.
    apply fixed_rt; [exact Ht|exact Hl|lia|cbn; lia|]. intros a b. destruct (tlv_v x) as [u d]; cbn [bo_unit bo_value] in *.
    unfold Backoff_value; cbn [bo_unit bo_value app]. step.
    assert (Hu8 : u < 8) by lia.
    pose proof (sweep 32 _ (sweep 8 (fun u => forallb _ (upto 32)) backoff_sweep _ Hu8) _ Hd) as E.
    cbv beta zeta in E. apply andb_prop in E as [E1 E2]. apply N.eqb_eq in E1, E2. rewrite E1, E2.
    destruct (N.leb_spec u 4); [reflexivity|]. destruct Hu as [Hu|Hu]; [lia|]. rewrite Hu. reflexivity.
  - (* Spi *) destruct H as (Ht & Hl & Hb & _). unfold fixed in *.
    apply fixed_rt; [exact Ht|exact Hl|lia|cbn; lia|]. intros a b. destruct (tlv_v x); reflexivity.
  - (* UliTs *) destruct H as (Ht & Hl & Hb & Hv). unfold fixed in *.
    apply fixed_rt; [exact Ht|exact Hl|lia|cbn; lia|]. intros a b. unfold UliTs_value; cbn [enc32 app]. step. reflexivity.
  - (* Cnose *) destruct H as (Ht & Hl & Hb & _). unfold fixed in *.
    apply fixed_rt; [exact Ht|rewrite Hl; destruct (tlv_v x); reflexivity|lia|destruct (tlv_v x); cbn; lia|].
    intros a b. destruct (tlv_v x); reflexivity.
  - destruct H as (Ht & Hl & Hb & Hv). unfold fixed in *.
    apply fixed_rt; [exact Ht|exact Hl|lia|cbn; lia|]. intros a b. unfold Flags_value. cbn [app]. step.
    rewrite flags_roundtrip by (exact Hv || lia). reflexivity.
  - (* Mueut *) destruct H as (Ht & Hl & Hb & Hv). unfold fixed in *.
    apply fixed_rt; [exact Ht|exact Hl|lia|cbn; lia|]. intros a b. unfold Mueut_value; cbn [enc16 app]. step. reflexivity.
  - (* Upfsif *) destruct H as (Ht & Hl & Hb & _). unfold fixed in *.
    apply fixed_rt; [exact Ht|exact Hl|lia|cbn; lia|]. intros a b. destruct (tlv_v x); reflexivity.
  - (* ChargingGw *) destruct H as (Ht & Hl & Hb & Hv). pose proof (ip_octets_size _ Hv) as Hs.
    apply var_rt; [exact Ht|unfold Ip_value; rewrite Hs; exact Hl|rewrite Hl; destruct (tlv_v x); cbn; lia|].
    intros a b. rewrite Hl. apply ip_at_ok, Hv.
  - (* Pe *) rewrite (Ha I). destruct H as (Ht & Hl & Hb & Hv). destruct x as [t l [i v]]; cbn [tlv_t tlv_length tlv_v pev_value pev_id] in *.
    unfold pe_ok in Hv; cbn [pev_id] in Hv. subst t l.
    apply var_rt; [reflexivity|unfold nlen, CPe_value; cbn [tlv_length tlv_v pev_id pev_value enc16 app length]; lia
      |cbn [tlv_length]; lia|].
    intros a b. cbn [tlv_length tlv_v]. unfold CPe_value; cbn [pev_id pev_value enc16 app]. step.
    rewrite slice_from_ok by (cbn [length]; lia). cbn [skipn bind]. rewrite app_nil_r. reflexivity.
Qed.
