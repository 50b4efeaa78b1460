(* V1CMsgSafety.v - GTPv1-C message decoding on arbitrary octets: when it returns, and that
   it terminates. *)
From Verif Require Import BaseFacts Digits LabelsFacts V1USpec V1UFacts V1USafety2 V1CHdrSafety V1CSpec V1CSafeSpec V1CIeSafety V1CMsgSpec V1CMsgFacts V1CMsgRead.
Local Open Scope N_scope.

(* ------------------------------------------------------------------------- *)
(* No element decoder loops. *)
Definition nd {A} (r : res A) : Prop := r <> Diverge.
Lemma nd_bind {A B} (r : res A) (k : A -> res B) : nd r -> (forall x, nd (k x)) -> nd (bind r k).
Proof. unfold nd. intros Hr Hk. destruct r; cbn [bind]; [apply Hk|discriminate|discriminate|congruence]. Qed.
Lemma nd_at b i : nd (at_ b i). Proof. unfold nd, at_. destruct (nth_error b i); discriminate. Qed.
Lemma nd_slice b i j : nd (slice b i j). Proof. unfold nd, slice. destruct (_ && _); discriminate. Qed.
Lemma nd_slice_from b i : nd (slice_from b i). Proof. unfold nd, slice_from. destruct (_ <=? _)%nat; discriminate. Qed.
Lemma nd_add16 m a b : nd (add16 m a b). Proof. unfold nd, add16, ov. destruct (_ <? _), m; discriminate. Qed.
Lemma nd_add8 m a b : nd (add8 m a b). Proof. unfold nd, add8, ov. destruct (_ <? _), m; discriminate. Qed.
Lemma nd_ok {A} (x : A) : nd (Ok x). Proof. discriminate. Qed.
Lemma nd_err {A} e : nd (@Err GTPV1Error A e). Proof. discriminate. Qed.
Lemma nd_labels_loop : forall f d, (length d <= f)%nat -> nd (labels_loop f d).
Proof.
  induction f as [|f IH]; intros [|n r] Hf; try discriminate; cbn [length] in Hf; [lia|]. cbn [labels_loop].
  destruct (_ <=? _)%nat; [|discriminate]. apply nd_bind; [|intros; discriminate]. apply IH. rewrite skipn_length. lia.
Qed.
Lemma nd_labels d : nd (labels_decode d).
Proof. unfold labels_decode. apply nd_bind; [apply nd_labels_loop; lia|intros; discriminate]. Qed.
Lemma nd_mcc b : nd (mcc_mnc_decode b).
Proof. unfold mcc_mnc_decode. repeat (apply nd_bind; [apply nd_at|intros ?]). discriminate. Qed.
Ltac nds := repeat first
  [ apply nd_ok | apply nd_err | apply nd_at | apply nd_slice | apply nd_slice_from | apply nd_add16 | apply nd_add8 | apply nd_labels | apply nd_mcc
  | apply nd_bind; [|intros ?]
  | match goal with |- nd (if ?c then _ else _) => destruct c end ].
Lemma ie1_nd k m b : nd (ie1_unmarshal k m b).
Proof.
  destruct k; cbn [ie1_unmarshal]; apply nd_bind; try (intros ?; discriminate);
  cbv delta [Cause_unmarshal Imsi_unmarshal Rai_unmarshal Reordering_unmarshal CRecovery_unmarshal SelectionMode_unmarshal
    CTeid_unmarshal Teardown_unmarshal Nsapi_unmarshal ChargingChar_unmarshal TraceReference_unmarshal TraceType_unmarshal
    ChargingId_unmarshal Eua_unmarshal Apn_unmarshal Pco_unmarshal CGsn_unmarshal Msisdn_unmarshal Qos_unmarshal Tft_unmarshal
    TriggerId_unmarshal OmcId_unmarshal CommonFlags_unmarshal ApnRestriction_unmarshal RatType_unmarshal Uli_unmarshal
    Tz_unmarshal Imei_unmarshal Camel_unmarshal Ati_unmarshal MsInfoChange_unmarshal DirectTunnel_unmarshal
    CorrelationId_unmarshal BearerControlMode_unmarshal Earp_unmarshal ExtCommonFlags_unmarshal Uci_unmarshal CsgInfo_unmarshal
    Ambr_unmarshal Backoff_unmarshal Spi_unmarshal UliTs_unmarshal Cnose_unmarshal ExtCommonFlagsII_unmarshal Mueut_unmarshal
    Upfsif_unmarshal ChargingGw_unmarshal CPe_unmarshal tv_unmarshal fixed_unmarshal var_unmarshal check_tlv_ie_buffer
    blob_at ip_at be16_at be24_at be32_at plmn_at Restriction_dec Rat_dec bool_at3]; cbv beta zeta; nds.
Qed.
Lemma ie1_len_nd m i : nd (ie1_len m i).
Proof. destruct i; cbn [ie1_len]; unfold len_u16; nds. Qed.

(* The size of a decoded element is at least 2, unless 16-bit arithmetic wraps around. *)
Lemma len_u16_ge {A} m (x : Tlv A) n : len_u16 m x = Ok n -> m = Debug \/ tlv_length x <= 65532 -> (3 <= n)%nat.
Proof.
  unfold len_u16, add16, ov. intros H Hm. destruct (N.ltb_spec (tlv_length x + 3) 65536) as [Hl|Hl].
  - cbn [bind] in H. injection H as <-. lia.
  - destruct Hm as [->|]; [discriminate H|lia].
Qed.
Lemma ie1_len_ge_debug i n : ie1_len Debug i = Ok n -> (2 <= n)%nat.
Proof.
  destruct i; cbn [ie1_len]; intros H; try (injection H as <-; lia); apply len_u16_ge in H; auto; lia.
Qed.
(* the length field of a decoded element *)
Definition length_field (i : ie1) : option N :=
  match i with
  | I1_Eua x => Some (tlv_length x) | I1_Apn x => Some (tlv_length x) | I1_Pco x => Some (tlv_length x)
  | I1_Gsn x => Some (tlv_length x) | I1_Msisdn x => Some (tlv_length x) | I1_Qos x => Some (tlv_length x)
  | I1_Tft x => Some (tlv_length x) | I1_TriggerId x => Some (tlv_length x) | I1_OmcId x => Some (tlv_length x)
  | I1_CommonFlags x => Some (tlv_length x) | I1_Camel x => Some (tlv_length x) | I1_DirectTunnel x => Some (tlv_length x)
  | I1_ExtCommonFlags x => Some (tlv_length x) | I1_CsgInfo x => Some (tlv_length x) | I1_Backoff x => Some (tlv_length x)
  | I1_ExtCommonFlagsII x => Some (tlv_length x) | I1_ChargingGw x => Some (tlv_length x) | I1_Pe x => Some (tlv_length x)
  | _ => None
  end.
Lemma length_field_declared k m s i l : ie1_unmarshal k m s = Ok i -> length_field i = Some l -> l = declared s.
Proof.
  intros H Hl. destruct k; cbn [ie1_unmarshal] in H; apply bind_ok in H as (x & Hx & [= <-]); cbn [length_field] in Hl; try discriminate Hl;
    injection Hl as <-; try exact (var_declared _ _ _ _ _ Hx); try exact (fixed_declared _ _ _ _ _ Hx).
  unfold Camel_unmarshal in Hx. destruct (_ <=? _)%nat; [|discriminate].
  apply bind_ok in Hx as (a & Ha & H). apply bind_ok in H as (b & Hb & H). apply bind_ok in H as (n & _ & H).
  destruct (_ <=? _)%nat; [|discriminate]. apply bind_ok in H as (v & _ & [= <-]). cbn [tlv_length].
  destruct s as [|x0 [|x1 [|x2 s]]]; cbn in Ha, Hb; try discriminate. injection Ha as ->. injection Hb as ->. apply be16_eq.
Qed.
Lemma ie1_len_ge k m s i n : ie1_unmarshal k m s = Ok i -> ie1_len m i = Ok n -> m = Debug \/ declared s <= 65532 -> (2 <= n)%nat.
Proof.
  intros Hi Hn Hm. pose proof (fun l => length_field_declared k m s i l Hi) as Hd.
  destruct i; cbn [ie1_len] in Hn; try (injection Hn as <-; lia); cbn [length_field] in Hd; specialize (Hd _ eq_refl);
    apply len_u16_ge in Hn; try lia; rewrite Hd; exact Hm.
Qed.

Lemma nd_next m n : nd (next_count m n).
Proof. destruct n; cbn [next_count]; [apply nd_add8|discriminate]. Qed.
Lemma nd_arm_error e i n : nd (arm_error e i n).
Proof. destruct e; cbn [arm_error]; try discriminate; [destruct (_ =? _)|destruct n; [destruct (_ <? _)|]]; discriminate. Qed.

(* ------------------------------------------------------------------------- *)
(* Termination *)
Lemma loop_terminates T m b : (m = Debug \/ forall p, (8 <= p)%nat -> declared (skipn p b) <= 65532) ->
  forall fuel p inc c fs, (8 <= p)%nat -> (length b < fuel + p)%nat -> (0 < fuel)%nat -> nd (msg1_loop T m fuel b p inc c fs).
Proof.
  intros Hb. induction fuel as [|fuel IH]; intros p inc c fs Hp Hf Hz; [lia|]. cbn [msg1_loop].
  destruct (Nat.leb_spec (length b) p) as [|Hlt]; [discriminate|]. apply nd_bind; [apply nd_at|intros t].
  destruct (_ <? _); [discriminate|]. destruct (find_arm (t_arms T) t) as [a|]; [|discriminate].
  rewrite slice_from_ok by lia. cbn [bind].
  destruct (ie1_unmarshal (a_kind a) m (skipn p b)) as [i| | |] eqn:Ei; [| |discriminate|exfalso; exact (ie1_nd _ _ _ Ei)].
  - apply nd_bind; [apply nd_next|intros n]. destruct (ie1_len m i) as [l| | |] eqn:El; cbn [bind]; try discriminate; [|exfalso; exact (ie1_len_nd _ _ El)].
    assert (Hl : (2 <= l)%nat) by (eapply ie1_len_ge; [exact Ei|exact El|]; destruct Hb as [Hb|Hb]; [left; exact Hb|right; apply Hb; lia]).
    apply IH; lia.
  - apply nd_bind; [apply nd_arm_error|intros; discriminate].
Qed.
Lemma chdr_len_ge8 m h n : chdr_len m h = Ok n -> (8 <= n)%nat.
Proof.
  unfold chdr_len. destruct (c_ext h); [intros H; apply bind_ok in H as (s & _ & [= <-]); lia|].
  destruct (_ || _); intros [= <-]; lia.
Qed.
Lemma msg1_terminates T m b : nd (chdr_unmarshal m b) ->
  (m = Debug \/ forall p, (8 <= p)%nat -> declared (skipn p b) <= 65532) -> nd (msg1_unmarshal T m b).
Proof.
  intros Hh Hb. unfold msg1_unmarshal. apply nd_bind; [exact Hh|intros h]. destruct (negb _); [discriminate|].
  apply nd_bind; [apply nd_add16|intros s]. destruct (_ <=? _)%nat; [|discriminate].
  destruct (chdr_len m h) as [n| | |] eqn:En; cbn [bind]; try discriminate; [|exfalso; exact (chdr_len_never_diverges _ _ En)].
  apply nd_bind; [|intros r; destruct (forallb _ _); discriminate]. apply chdr_len_ge8 in En. apply loop_terminates; [exact Hb|lia|lia|lia].
Qed.

(* ------------------------------------------------------------------------- *)
(* No crash *)
Definition gsn_shaped (s : list N) : Prop :=
  (declared s = 4 \/ declared s = 16) /\ (3 + N.to_nat (declared s) <= length s)%nat.
Lemma gsn_shaped_ok m s : gsn_shaped s -> exists i, CGsn_unmarshal m s = Ok i.
Proof.
  intros [Hd Hl]. unfold CGsn_unmarshal, var_unmarshal.
  assert (H3 : (3 <= length s)%nat) by lia. destruct (Nat.leb_spec 3 (length s)); [|lia].
  destruct s as [|t [|a [|b s]]]; cbn [length] in H3; try lia. unfold at_. cbn [nth_error bind]. cbn zeta. rewrite be16_eq.
  change (256 * a + b) with (declared (t :: a :: b :: s)). remember (declared (t :: a :: b :: s)) as d eqn:Ed. clear Ed.
  rewrite check_tlv_ok by lia. cbn [bind]. unfold ip_at. destruct Hd as [-> | ->].
  - cbn [N.eqb Pos.eqb]. cbn [length] in Hl. change (N.to_nat 4) with 4%nat in Hl. do 4 open s Hl. eexists. reflexivity.
  - cbn [N.eqb Pos.eqb]. cbn [length] in Hl. change (N.to_nat 16) with 16%nat in Hl.
    destruct (Nat.leb_spec 19 (length (t :: a :: b :: s))) as [_|H']; [|cbn [length] in H'; lia].
    rewrite slice_ok by (cbn [length]; lia). eexists. reflexivity.
Qed.

Section Safe.
Context (code : N) (L : list field1) (T : table1) (HT : check_table code L T = true) (m : mode) (b : list N).
Context (Hharm : forall p, (8 <= p)%nat -> harmless (skipn p b)).
Context (Hdup : m = Debug -> (length b <= 518)%nat).
Context (Hgsn : forall a, In a (t_arms T) -> a_err a = EGsn -> a_type a = 133 /\
  forall p, (8 <= p)%nat -> nth_error b p = Some 133 -> gsn_shaped (skipn p b)).

Lemma loop_returns : forall fuel p inc c fs, (8 <= p)%nat -> (length b < fuel + p)%nat -> (0 < fuel)%nat ->
  (forall t n, c t = Some n -> (2 * N.to_nat n + 8 <= p)%nat) -> returns (msg1_loop T m fuel b p inc c fs).
Proof.
  induction fuel as [|fuel IH]; intros p inc c fs Hp Hf Hz Hc; [lia|]. cbn [msg1_loop].
  destruct (Nat.leb_spec (length b) p) as [|Hlt]; [exact I|].
  destruct (at_lt (E := GTPV1Error) b p Hlt) as (t & Et & Ht). rewrite Et. cbn [bind].
  destruct (_ <? _); [exact I|]. destruct (find_arm (t_arms T) t) as [a|] eqn:Ea; [|exact I].
  rewrite slice_from_ok by lia. cbn [bind].
  assert (Es : exists s, skipn p b = t :: s).
  { pose proof (nth_error_skipn b p 0) as E. rewrite Nat.add_0_r, Ht in E. destruct (skipn p b) as [|x s]; [discriminate|].
    cbn in E. injection E as ->. eauto. }
  destruct Es as (s & Es). pose proof (Hharm p Hp) as Hh.
  assert (Hfine : fine m (a_kind a) (t :: s)).
  { apply element_fine; [exact (find_arm_kind code L T HT t a Ea)|rewrite <- Es; exact Hh]. }
  rewrite Es. destruct Hfine as [Hr Hl]. destruct (ie1_unmarshal (a_kind a) m (t :: s)) as [i|e| |] eqn:Ei; try contradiction Hr.
  - destruct (Hl i eq_refl) as (n & En & Hn).
    assert (Hnc : exists x, next_count m (c t) = Ok x /\ (2 * N.to_nat x + 8 <= p + 2)%nat).
    { destruct (c t) as [x|] eqn:Ec; cbn [next_count]; [|exists 1; split; [reflexivity|lia]].
      specialize (Hc t x Ec). unfold add8, ov. destruct (N.ltb_spec (x + 1) 256) as [H|H]; [exists (x + 1); split; [reflexivity|lia]|].
      destruct m; [specialize (Hdup eq_refl); lia|]. eexists. split; [reflexivity|]. pose proof (N.mod_le (x + 1) 256 ltac:(lia)). lia. }
    destruct Hnc as (x & -> & Hx). cbn [bind]. rewrite En. cbn [bind]. apply IH; [lia|lia|lia|].
    intros u y. unfold put1. destruct (u =? t); [intros [= <-]; lia|intros Hy; specialize (Hc u y Hy); lia].
  - assert (Hok : exists e', arm_error (a_err a) inc (c t) = Ok e').
    { destruct (a_err a) eqn:Ee; cbn [arm_error]; try (eexists; reflexivity); [destruct (_ =? _); eexists; reflexivity|].
      destruct (find_arm_in T t a Ea) as [Hin Eat]. destruct (Hgsn a Hin Ee) as [E133 Hg].
      exfalso. rewrite E133 in Eat. subst t.
      destruct (gsn_shaped_ok m (133 :: s)) as (i & Hi). { rewrite <- Es. apply Hg; [lia|congruence]. }
      pose proof (find_arm_kind code L T HT 133 a Ea) as Hk. cbn in Hk. injection Hk as Hk. rewrite <- Hk in Ei.
      cbn [ie1_unmarshal] in Ei. rewrite Hi in Ei. discriminate Ei. }
    destruct Hok as (e' & ->). exact I.
Qed.

Context (Hchain : forall b0, nth_error b 0 = Some b0 -> N.testbit b0 2 = true -> (12 <= length b)%nat -> ext_chain (skipn 11 b)).
Context (Hlenf : declared (skipn 1 b) <= 65527).

Lemma msg1_returns : returns (msg1_unmarshal T m b).
Proof.
  unfold msg1_unmarshal. pose proof (chdr_returns m b Hchain) as Hh. destruct (chdr_unmarshal m b) as [h| | |] eqn:Eh; try contradiction Hh; [|exact I].
  cbn [bind]. destruct (negb _); [exact I|].
  assert (Hl : c_length h <= 65527).
  { apply chdr_inv in Eh as (b0 & l1 & l2 & t1 & t2 & t3 & t4 & r & -> & _ & _ & -> & _). cbn [skipn declared] in Hlenf. rewrite be16_eq. exact Hlenf. }
  rewrite add16_small by lia. cbn [bind]. destruct (_ <=? _)%nat; [|exact I].
  destruct (chdr_len_decoded m b h Eh Hchain) as (n & -> & Hn & _). cbn [bind].
  assert (Hr : returns (msg1_loop T m (S (length b)) b n 0 (fun _ => None) (map s_default (t_slots T)))).
  { apply loop_returns; [lia|lia|lia|discriminate]. }
  destruct (msg1_loop _ _ _ _ _ _ _ _) as [r| | |]; try contradiction Hr; [|exact I]. cbn [bind]. destruct (forallb _ _); exact I.
Qed.
End Safe.
