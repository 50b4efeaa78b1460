(* V1CWireFacts.v - every element is encoded as V1CWireSpec.v says, and [len] is the number
   of octets written. *)
From Verif Require Export OctetsFacts.
From Verif Require Import BaseFacts DigitsFacts LabelsFacts V1USpec V1UFacts V1CWireSpec V1CIeFacts.
Local Open Scope N_scope.

Lemma plmn_wire_ok p : plmn_ok p -> plmn_octets p = plmn_wire p.
Proof.
  destruct p as [[mcc mnc] three]. intros (A & B & C). unfold plmn_octets, plmn_wire. apply plmn_layout; [exact A|].
  destruct three; [exact B|]. destruct C as [C|C]; [discriminate|exact C].
Qed.
Lemma flags_wire_ok n l : n_flags n l -> n = 8%nat \/ n = 3%nat -> flags_octet l = flags_wire l.
Proof.
  unfold n_flags. intros H [-> | ->].
  - do 8 (destruct l as [|? l]; [discriminate H|]). destruct l; [|discriminate H].
    unfold flags_octet, flags_wire. cbn [map fold_left]. lia.
  - do 3 (destruct l as [|? l]; [discriminate H|]). destruct l; [|discriminate H].
    unfold flags_octet, flags_wire. cbn [map fold_left]. lia.
Qed.
Lemma earp_wire_sweep : forallb (fun v => forallb (fun l => forallb (fun c =>
   N.lor (N.lor ((N.shiftl c 6) mod 256) ((N.shiftl l 2) mod 256)) v =? 64 * c + 4 * l + v) (upto 2)) (upto 16)) (upto 2) = true.
Proof. vm_compute. reflexivity. Qed.
Lemma backoff_wire_sweep : forallb (fun u => forallb (fun v =>
   N.lor ((N.shiftl u 5) mod 256) (if v <? 127 then v else 127) =? 32 * u + v) (upto 32)) (upto 8) = true.
Proof. vm_compute. reflexivity. Qed.
Lemma msisdn_wire_sweep : forallb (fun e => forallb (fun n => forallb (fun p =>
   N.lor (N.lor ((N.shiftl e 7) mod 256) ((N.shiftl n 4) mod 256)) p =? e * 128 + n * 16 + p) (upto 16)) (upto 8)) (upto 2) = true.
Proof. vm_compute. reflexivity. Qed.
Lemma tz_wire_sweep : forallb (fun a => N.lor 128 a =? 128 + a) (upto 128) = true.
Proof. vm_compute. reflexivity. Qed.
Lemma sel_wire_sweep : forallb (fun a => N.lor 252 a =? 252 + a) (upto 4) = true.
Proof. vm_compute. reflexivity. Qed.

Definition tlv_kind (i : ie1) : bool := 128 <=? ie1_t i.

Lemma tv_wire {A} T (value : A -> list N) (P : A -> Prop) x w :
  wf_tv T P x -> T < 128 -> value (tv_v x) = w -> tv_marshal value x = ie1_wire (tv_t x) w.
Proof.
  intros [Ht _] HT <-. unfold tv_marshal, ie1_wire. rewrite Ht. destruct (N.ltb_spec T 128); [reflexivity|lia].
Qed.
Lemma tlv_wire {A} T (size : A -> N) (value : A -> list N) (P : A -> Prop) x w :
  wf_tlv T size P x -> 128 <= T -> value (tlv_v x) = w -> nlen w = size (tlv_v x) ->
  tlv_marshal value x = ie1_wire (tlv_t x) w.
Proof.
  intros (Ht & Hl & Hb & _) HT <- Hs. rewrite tlv_octets by congruence. unfold ie1_wire.
  destruct (N.ltb_spec (tlv_t x) 128); [lia|]. rewrite Hs, <- Hl. unfold oct2. cbn [app].
  rewrite (N.mod_small (tlv_length x / 256)) by lia. reflexivity.
Qed.

Lemma number8_octets s : number8 s -> tbcd_encode s = tbcd_octets s /\ length (tbcd_octets s) = 8%nat.
Proof. intros H. destruct (number8_enc s H) as [L _]. rewrite <- tbcd_octets_ok by apply H. auto. Qed.
Lemma plmn_wire_len p : plmn_ok p -> length (plmn_wire p) = 3%nat.
Proof. intros H. rewrite <- plmn_wire_ok by exact H. apply plmn_octets_length. Qed.

Lemma ie1_wire_ok i : wf_ie1 i -> ie1_marshal i = ie1_wire (ie1_t i) (ie1_value i).
Proof.
  intros H. destruct i as [x|x|x|x|x|x|x|x|x|x|x|x|x|x|x|x|x|x|x|x|x|x|x|x|x|x|x|x|x|x|x|x|x|x|x|x|x|x|x|x|x|x|x|x|x|x|x|x];
    cbn [ie1_marshal ie1_t ie1_value wf_ie1] in *.
  - eapply tv_wire; [exact H|lia|reflexivity].
  - eapply tv_wire; [exact H|lia|]. apply number8_octets, H.
  - eapply tv_wire; [exact H|lia|]. destruct H as [_ [Hp Hl]]. unfold Rai_value.
    rewrite plmn_wire_ok, enc16_oct by assumption. reflexivity.
  - eapply tv_wire; [exact H|lia|]. destruct (tv_v x); reflexivity.
  - destruct x as [t v]; destruct H as [Ht _]; cbn in Ht; subst t. reflexivity.
  - eapply tv_wire; [exact H|lia|]. destruct H as [_ Hv]. unfold SelectionMode_value. f_equal.
    apply N.eqb_eq. exact (sweep 4 _ sel_wire_sweep _ Hv).
  - destruct H as [H|H]; (eapply tv_wire; [exact H|lia|]); destruct H as [_ Hv]; apply enc32_oct, Hv.
  - eapply tv_wire; [exact H|lia|]. destruct (tv_v x); reflexivity.
  - eapply tv_wire; [exact H|lia|reflexivity].
  - eapply tv_wire; [exact H|lia|reflexivity].
  - eapply tv_wire; [exact H|lia|]. apply enc16_oct, H.
  - eapply tv_wire; [exact H|lia|]. apply enc16_oct, H.
  - eapply tv_wire; [exact H|lia|]. apply enc32_oct, H.
  - (* Eua *) assert (E : Eua_value (tlv_v x) = [240 + eua_org (tlv_v x); eua_nbr (tlv_v x)]
        ++ opt_octets (eua_v4 (tlv_v x)) ++ opt_octets (eua_v6 (tlv_v x))).
    { destruct H as (_ & _ & _ & Hv). unfold eua_ok in Hv. unfold Eua_value. destruct (tlv_v x) as [o n [a|] [c|]];
        cbn [eua_org eua_nbr eua_v4 eua_v6 opt_octets] in *.
      - destruct Hv as (-> & -> & _). reflexivity.
      - destruct Hv as (-> & -> & _). reflexivity.
      - destruct Hv as (-> & -> & _). reflexivity.
      - destruct Hv as [(-> & _)|(-> & _)]; reflexivity. }
    eapply tlv_wire; [exact H|lia|exact E|]. rewrite <- E. apply eua_octets, H.
  - (* Apn *) eapply tlv_wire; [exact H|lia|apply labels_encode_eq, H|apply split_dot_concat].
  - eapply tlv_wire; [exact H|lia|reflexivity|reflexivity].
  - eapply tlv_wire; [exact H|lia|reflexivity|apply ip_octets_size, H].
  - (* Msisdn *) destruct H as (Ht & Hl & Hb & Hv). pose proof Hv as (He & Hn & Hp & Hd). destruct (number8_octets _ Hd) as [E L].
    eapply tlv_wire; [split; [exact Ht|split; [exact Hl|split; [exact Hb|exact Hv]]]|lia| |].
    + unfold Msisdn_value. rewrite E. f_equal.
      assert (Hp' : ms_plan (tlv_v x) < 16) by (destruct Hp as [-> | ->]; lia).
      apply N.eqb_eq. exact (sweep 16 _ (sweep 8 (fun n => forallb _ (upto 16))
       (sweep 2 (fun e => forallb _ (upto 8)) msisdn_wire_sweep _ He) _ Hn) _ Hp').
    + unfold nlen, fixed. cbn [length]. rewrite L. reflexivity.
  - (* Qos *) eapply tlv_wire; [exact H|lia|reflexivity|]. unfold nlen. cbn [length]. lia.
  - eapply tlv_wire; [exact H|lia|reflexivity|reflexivity].
  - eapply tlv_wire; [exact H|lia|reflexivity|reflexivity].
  - eapply tlv_wire; [exact H|lia|reflexivity|reflexivity].
  - eapply tlv_wire; [exact H|lia| |reflexivity]. unfold Flags_value. f_equal. eapply flags_wire_ok; [apply H|auto].
  - eapply tlv_wire; [exact H|lia|reflexivity|reflexivity].
  - eapply tlv_wire; [exact H|lia|reflexivity|reflexivity].
  - (* Uli *) assert (E : Uli_value (tlv_v x) = ie1_value (I1_Uli x)).
    { destruct H as (_ & _ & _ & (Hp & Hlac & Hloc)). cbn [ie1_value]. unfold Uli_value.
      rewrite plmn_wire_ok by exact Hp. rewrite enc16_oct by exact Hlac. destruct (uli_loc (tlv_v x)); try rewrite enc16_oct by exact Hloc; reflexivity. }
    cbn [ie1_value] in E. eapply tlv_wire; [exact H|lia|exact E|]. rewrite <- E.
    destruct H as (_ & _ & _ & (Hp & Hlac & Hloc)). unfold nlen, Uli_value, fixed.
    destruct (plmn_three (uli_plmn (tlv_v x))) as (a & b & c & ->). destruct (uli_loc (tlv_v x)); reflexivity.
  - (* Tz *) eapply tlv_wire; [exact H|lia| |reflexivity]. destruct H as (_ & _ & _ & (Hz & Hd)). unfold Tz_value.
    destruct (tlv_v x) as [z d]; cbn [tz_zone tz_dst] in *.
    destruct (Z.leb_spec 0 z), (Z.ltb_spec z 0); try lia.
    + f_equal. rewrite Z.abs_eq by lia. lia.
    + f_equal. replace (Z.abs z) with (- z)%Z by lia. apply N.eqb_eq.
      refine (sweep 128 _ tz_wire_sweep _ _). lia.
  - (* Imei *) destruct (number8_octets (tlv_v x)) as [E L]; [apply H|].
    eapply tlv_wire; [exact H|lia|exact E|unfold nlen; rewrite L; reflexivity].
  - eapply tlv_wire; [exact H|lia|reflexivity|reflexivity].
  - (* Ati *) eapply tlv_wire; [exact H|lia| |reflexivity]. destruct H as (_ & _ & _ & (Hr & Hs)). unfold Ati_value.
    rewrite enc24_oct, enc16_oct by assumption. reflexivity.
  - eapply tlv_wire; [exact H|lia|reflexivity|reflexivity].
  - eapply tlv_wire; [exact H|lia| |reflexivity]. unfold Flags_value. f_equal. eapply flags_wire_ok; [apply H|auto].
  - eapply tlv_wire; [exact H|lia|reflexivity|reflexivity].
  - eapply tlv_wire; [exact H|lia|reflexivity|reflexivity].
  - (* Earp *) eapply tlv_wire; [exact H|lia| |reflexivity]. destruct H as (_ & _ & _ & (Hu & Hl & Hc)). unfold Earp_value. f_equal.
    apply N.eqb_eq. exact (sweep 2 _ (sweep 16 (fun l => forallb _ (upto 2))
       (sweep 2 (fun u => forallb _ (upto 16)) earp_wire_sweep _ Hu) _ Hl) _ Hc).
  - eapply tlv_wire; [exact H|lia| |reflexivity]. unfold Flags_value. f_equal. eapply flags_wire_ok; [apply H|auto].
  - (* Uci *) assert (E : Uci_value (tlv_v x) = ie1_value (I1_Uci x)).
    { destruct H as (_ & _ & _ & (Hp & Hc)). cbn [ie1_value]. unfold Uci_value.
      replace (N.land (uci_csgid (tlv_v x)) 134217727) with (uci_csgid (tlv_v x)).
      2:{ change 134217727 with (N.ones 27). rewrite N.land_ones. symmetry. apply N.mod_small. exact Hc. }
      rewrite plmn_wire_ok, enc32_oct by (assumption || (unfold u32; lia)).
      destruct (uci_mode (tlv_v x)), (uci_cmi (tlv_v x)); reflexivity. }
    cbn [ie1_value] in E. eapply tlv_wire; [exact H|lia|exact E|]. rewrite <- E. unfold nlen, Uci_value, fixed.
    destruct (plmn_three (uci_plmn (tlv_v x))) as (a & b & c & ->). reflexivity.
  - eapply tlv_wire; [exact H|lia|reflexivity|reflexivity].
  - eapply tlv_wire; [exact H|lia| |reflexivity]. destruct H as (_ & _ & _ & (Hu & Hd)). unfold Ambr_value.
    rewrite !enc32_oct by assumption. reflexivity.
  - (* Backoff *) eapply tlv_wire; [exact H|lia| |reflexivity]. destruct H as (_ & _ & _ & (Hu & Hv)). unfold Backoff_value. f_equal.
    assert (Hu8 : bo_unit (tlv_v x) < 8) by lia.
    apply N.eqb_eq. exact (sweep 32 _ (sweep 8 (fun u => forallb _ (upto 32)) backoff_wire_sweep _ Hu8) _ Hv).
  - eapply tlv_wire; [exact H|lia|reflexivity|reflexivity].
  - eapply tlv_wire; [exact H|lia| |reflexivity]. apply enc32_oct, H.
  - eapply tlv_wire; [exact H|lia| |destruct (tlv_v x); reflexivity]. destruct (tlv_v x); reflexivity.
  - eapply tlv_wire; [exact H|lia| |reflexivity]. unfold Flags_value. f_equal. eapply flags_wire_ok; [apply H|auto].
  - eapply tlv_wire; [exact H|lia| |reflexivity]. apply enc16_oct, H.
  - eapply tlv_wire; [exact H|lia|reflexivity|reflexivity].
  - eapply tlv_wire; [exact H|lia|reflexivity|apply ip_octets_size, H].
  - eapply tlv_wire; [exact H|lia| |].
    + destruct H as (_ & _ & _ & Hv). unfold CPe_value. rewrite enc16_oct by exact Hv. reflexivity.
    + unfold nlen, oct2. cbn [app length]. lia.
Qed.

(* [len] *)
Lemma len_u16_ok {A} m (x : Tlv A) : tlv_length x <= 65532 -> len_u16 m x = Ok (N.to_nat (tlv_length x) + 3)%nat.
Proof. intros H. unfold len_u16. rewrite add16_small by lia. cbn [bind]. f_equal. lia. Qed.

Lemma tlv_len {A} m (value : A -> list N) T size (P : A -> Prop) x :
  wf_tlv T size P x -> (forall v, P v -> nlen (value v) = size v) ->
  len_u16 m x = Ok (length (tlv_marshal value x)) /\ length (tlv_marshal value x) = (3 + length (value (tlv_v x)))%nat.
Proof.
  intros (Ht & Hl & Hb & HP) Hs. specialize (Hs _ HP). rewrite tlv_octets by congruence. cbn [length].
  rewrite len_u16_ok by congruence. split; [|lia]. f_equal. rewrite Hl, <- Hs. unfold nlen. lia.
Qed.

Definition misreported (i : ie1) : Prop := match i with I1_ApnRestriction _ => True | _ => False end.

Lemma ie1_len_ok m i : wf_ie1 i -> ~ misreported i -> ie1_len m i = Ok (length (ie1_marshal i)).
Proof.
  intros H Hm. pose proof (ie1_wire_ok i H) as E.
  destruct i as [x|x|x|x|x|x|x|x|x|x|x|x|x|x|x|x|x|x|x|x|x|x|x|x|x|x|x|x|x|x|x|x|x|x|x|x|x|x|x|x|x|x|x|x|x|x|x|x];
    try (exfalso; exact (Hm I)); cbn [wf_ie1 ie1_len] in *;
    try (cbn [ie1_marshal]; eapply tlv_len; [exact H|]; intros v Hv; try reflexivity).
  all: try (rewrite E; cbn [ie1_t ie1_value]; destruct H as (-> & H); cbn [N.ltb N.compare Pos.compare Pos.compare_cont];
            unfold ie1_wire; cbn [length app]; reflexivity).
  - rewrite E. cbn [ie1_t ie1_value]. destruct H as [-> H]. unfold ie1_wire. cbn [length]. change (2 <? 128) with true. cbv iota.
    cbn [length]. destruct (number8_octets _ H) as [_ ->]. reflexivity.
  - rewrite E. cbn [ie1_t ie1_value]. destruct H as [-> [H _]]. unfold ie1_wire. change (3 <? 128) with true. cbv iota.
    cbn [length]. rewrite app_length, plmn_wire_len by exact H. reflexivity.
  - rewrite E. cbn [ie1_t ie1_value]. destruct H as [[-> _]|[-> _]]; reflexivity.
  - apply eua_octets, Hv.
  - apply apn_size, Hv.
  - apply ip_octets_size, Hv.
  - destruct Hv as (_ & _ & _ & Hd). destruct (number8_enc _ Hd) as [L _]. unfold nlen, Msisdn_value, fixed. cbn [length]. rewrite L. reflexivity.
  - unfold nlen, Qos_value. cbn [length]. lia.
  - rewrite E. cbn [ie1_t ie1_value]. destruct H as (-> & _ & _ & (Hp & _)). unfold ie1_wire. change (152 <? 128) with false. cbv iota.
    unfold oct2. destruct (uli_loc (tlv_v x)); cbn [length app]; rewrite app_length, plmn_wire_len by exact Hp; reflexivity.
  - rewrite E. cbn [ie1_t ie1_value]. destruct H as (-> & _ & _ & H). unfold ie1_wire. change (154 <? 128) with false. cbv iota.
    unfold oct2. cbn [length app]. destruct (number8_octets _ H) as [_ ->]. reflexivity.
  - rewrite E. cbn [ie1_t ie1_value]. destruct H as (-> & _ & _ & (Hp & _)). unfold ie1_wire. change (194 <? 128) with false. cbv iota.
    unfold oct2. cbn [length app]. rewrite app_length, plmn_wire_len by exact Hp. reflexivity.
  - apply ip_octets_size, Hv.
  - unfold nlen, CPe_value. cbn [enc16 app length]. lia.
Qed.
