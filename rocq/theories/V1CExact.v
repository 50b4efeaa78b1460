(* V1CExact.v - exactly which well-formed GTPv1-C messages survive the round trip, the octets
   of the header, and what encoding does to a buffer that already holds octets. *)
From Verif Require Import BaseFacts V1USpec V1UFacts V1CHdrFacts V1CIeFacts V1CWireSpec V1CWireFacts V1CMsgSpec V1CMsgFacts V1CMsgRead.
From Coq Require Import Sorted.
From Coq Require String.
Local Open Scope N_scope.

Lemma cext_wire_ok e : wf_cext e -> cext_marshal e = cext_wire e.
Proof.
  destruct e as [|x|x|x|x|x|x]; cbn [wf_cext cext_marshal cext_wire]; intros H; try reflexivity;
    unfold Num16_marshal; rewrite enc16_oct by apply H; reflexivity.
Qed.
Lemma chdr_wire_ok h : wf_chdr h -> chdr_marshal h = chdr_wire h.
Proof.
  destruct h as [mt l t s n e]. intros (Hl & Ht & Hs & He). cbn [c_msgtype c_length c_teid c_sqn c_npdu c_ext] in *.
  assert (Hx : forall x, e = Some x -> map cext_marshal x = map cext_wire x).
  { intros x ->. apply map_ext_in. intros a Ha. apply cext_wire_ok. exact (proj1 (Forall_forall _ _) He a Ha). }
  unfold chdr_marshal, chdr_wire, c_flags, c_marshal_ext. cbn [c_msgtype c_length c_teid c_sqn c_npdu c_ext].
  rewrite (enc16_oct l Hl), (enc32_oct t Ht).
  destruct s as [s|], n as [n|], e as [e|]; cbn [is_some negb andb given or0];
    try rewrite (Hx e eq_refl); try rewrite (enc16_oct s Hs); try rewrite (enc16_oct 0) by reflexivity;
    cbn [app concat map]; rewrite ?app_nil_r; reflexivity.
Qed.

(* ------------------------------------------------------------------------- *)
Definition elements (l : list ie1) : list N := concat (map ie1_marshal l).
Lemma fields_elements fs :
  concat (map (opt_bytes ie1_marshal) fs) = elements (flat_map (fun v => match v with Some i => [i] | None => [] end) fs).
Proof.
  induction fs as [|[i|] fs IH]; [reflexivity| |]; cbn [map concat flat_map opt_bytes app]; rewrite IH; reflexivity.
Qed.

(* every element but the last can be followed by others *)
Fixpoint alone_last (l : list ie1) : Prop :=
  match l with [] => True | i :: r => (decodes_alone i -> r = []) /\ alone_last r end.

Lemma reads_elements m q : forall l, Forall wf_ie1 l -> alone_last l -> ~ In 149 (map ie1_t l) -> forall pre,
  reads m (q ++ pre ++ elements l) (length q + length pre) (map (fun i => (ie1_t i, i)) l).
Proof.
  induction l as [|i l IH]; intros HF Ha H149 pre; cbn [map].
  - apply reads_end. unfold elements. cbn [map concat]. rewrite app_nil_r, app_length. lia.
  - inversion HF as [|? ? Hi HF']; subst. destruct Ha as [Ha Ha']. cbn [map] in H149.
    unfold elements. cbn [map concat]. fold (elements l).
    destruct (wf_head i Hi) as (r & Er).
    apply reads_more with (k := kind1_of i) (n := length (ie1_marshal i)).
    + rewrite app_assoc, nth_error_app2 by (rewrite app_length; lia). rewrite app_length, Nat.sub_diag, Er. reflexivity.
    + apply wf_code_kind, Hi.
    + rewrite app_assoc, skipn_app_exact by (rewrite app_length; reflexivity). apply ie1_roundtrip; [exact Hi|].
      intros H. rewrite (Ha H). reflexivity.
    + apply ie1_len_ok; [exact Hi|]. apply not_misreported; [exact Hi|]. intros E. apply H149. left. exact E.
    + specialize (IH HF' Ha' ltac:(intros H; apply H149; right; exact H) (pre ++ ie1_marshal i)).
      rewrite app_length, <- app_assoc in IH. rewrite Nat.add_assoc in IH. exact IH.
Qed.

(* an APN restriction makes the reader go on inside of it *)
Lemma restriction_octets i : wf_ie1 i -> ie1_t i = 149 -> exists v, ie1_marshal i = [149; 0; 1; v] /\ forall m, ie1_len m i = Ok 2%nat.
Proof.
  intros H E. destruct i; try (exfalso; cbn in H, E; try (unfold wf_tv in H; rewrite E in H; intuition discriminate);
    unfold wf_tlv in H; rewrite E in H; intuition discriminate).
  cbn [wf_ie1] in H. destruct x as [t l v]. destruct H as (Ht & Hl & _). unfold fixed in Hl. cbn [tlv_t tlv_length] in *. subst t l.
  destruct v; eexists; (split; [reflexivity|intros; reflexivity]).
Qed.
Lemma reads_restriction m q : forall l, Forall wf_ie1 l -> alone_last l -> In 149 (map ie1_t l) -> forall pre r,
  reads m (q ++ pre ++ elements l) (length q + length pre) r -> ~ StronglySorted N.le (map fst r).
Proof.
  induction l as [|i l IH]; intros HF Ha H149 pre r Hr Hs; [contradiction|].
  inversion HF as [|? ? Hi HF']; subst. destruct Ha as [Ha Ha'].
  unfold elements in Hr. cbn [map concat] in Hr. fold (elements l) in Hr. destruct (wf_head i Hi) as (x & Ex).
  inversion Hr as [p Hp | p t k j n r' Ht Hk Hu Hn Hr']; subst.
  - rewrite !app_length, Ex in Hp. cbn [length] in Hp. lia.
  - rewrite app_assoc, nth_error_app2 in Ht by (rewrite app_length; lia). rewrite app_length, Nat.sub_diag, Ex in Ht.
    cbn [nth_error app] in Ht. injection Ht as <-. rewrite (wf_code_kind i Hi) in Hk. injection Hk as <-.
    rewrite app_assoc, skipn_app_exact in Hu by (rewrite app_length; reflexivity).
    rewrite ie1_roundtrip in Hu by (try exact Hi; intros H; rewrite (Ha H); reflexivity). injection Hu as <-.
    destruct (N.eq_dec (ie1_t i) 149) as [E|NE].
    + destruct (restriction_octets i Hi E) as (v & Ev & El). rewrite El in Hn. injection Hn as <-.
      inversion Hr' as [p Hp | p t k j n r'' Ht' Hk' _ _ _]; subst.
      * rewrite !app_length, Ev in Hp. cbn [length] in Hp. lia.
      * rewrite app_assoc, nth_error_app2 in Ht' by (rewrite app_length; lia).
        rewrite app_length in Ht'. replace (length q + length pre + 2 - (length q + length pre))%nat with 2%nat in Ht' by lia.
        rewrite Ev in Ht'. cbn [nth_error app] in Ht'. injection Ht' as <-. cbn [map fst] in Hs.
        inversion Hs as [|? ? _ Hall]; subst. inversion Hall as [|? ? Hle _]; subst. rewrite E in Hle. lia.
    + rewrite ie1_len_ok in Hn by (try exact Hi; apply not_misreported; assumption). injection Hn as <-.
      destruct H149 as [E|H149]; [contradiction|].
      apply (IH HF' Ha' H149 (pre ++ ie1_marshal i) r').
      * rewrite app_length, <- app_assoc, Nat.add_assoc. exact Hr'.
      * cbn [map] in Hs. inversion Hs; assumption.
Qed.

Lemma field_ok_in L fs i : Forall2 field_ok L fs -> In (Some i) fs -> wf_ie1 i /\ exists f, In f L /\ ie1_t i = f_code f.
Proof.
  induction 1 as [|f v L fs Hf HF IH]; [contradiction|]. intros [->|Hi].
  - destruct Hf as [E Hw]. split; [exact Hw|]. exists f. split; [left; reflexivity|exact E].
  - destruct (IH Hi) as [Hw (g & Hg & E)]. split; [exact Hw|]. exists g. split; [right; exact Hg|exact E].
Qed.
Lemma present_in x i : In i (present x) <-> In (Some i) (m_fields x).
Proof.
  unfold present. rewrite in_flat_map. split.
  - intros ([j|] & Hj & H); [|contradiction]. destruct H as [->|[]]. exact Hj.
  - intros H. exists (Some i). split; [exact H|left; reflexivity].
Qed.
(* only the last field has code 255 *)
Definition pe_last (L : list field1) : bool :=
  match rev L with f :: r => (f_code f =? 255) && forallb (fun g => negb (f_code g =? 255)) r | [] => true end.
Lemma pe_last_alone L fs : Forall2 field_ok L fs -> pe_last L = true ->
  alone_last (flat_map (fun v => match v with Some i => [i] | None => [] end) fs).
Proof.
  intros HF Hp. assert (H : exists L0 f, L = L0 ++ [f] /\ (forall g, In g L0 -> f_code g <> 255) \/ L = []).
  { unfold pe_last in Hp. destruct (rev L) as [|f r] eqn:E.
    - exists [], (mkField1 String.EmptyString 0 false). right. rewrite <- (rev_involutive L), E. reflexivity.
    - exists (rev r), f. left. apply andb_true_iff in Hp as [_ Hp]. split.
      + rewrite <- (rev_involutive L), E. reflexivity.
      + intros g Hg. apply in_rev in Hg. rewrite forallb_forall in Hp. specialize (Hp g Hg).
        destruct (N.eqb_spec (f_code g) 255); [discriminate|assumption]. }
  destruct H as (L0 & f & [(-> & Hne)| ->]); [|inversion HF; exact I].
  clear Hp. revert fs HF. induction L0 as [|g L0 IH]; intros fs HF; cbn [app] in HF.
  - inversion HF as [|? v ? r Hf HF']; subst. inversion HF'; subst. destruct v; cbn [flat_map app alone_last]; [|exact I].
    split; [reflexivity|exact I].
  - inversion HF as [|? v ? r Hf HF']; subst. specialize (IH (fun h Hh => Hne h (or_intror Hh)) r HF').
    destruct v as [i|]; cbn [flat_map app alone_last]; [|exact IH]. split; [|exact IH].
    intros Hd. exfalso. destruct Hf as [E Hw]. apply (Hne g (or_introl eq_refl)). rewrite <- E. apply wf_alone; assumption.
Qed.
Lemma pe_lasts : forallb (fun e => pe_last (snd (fst e))) messages1 = true.
Proof. vm_compute. reflexivity. Qed.

Lemma messages1_checked code L T : In (code, L, T) messages1 -> check_table code L T = true.
Proof. intros H. pose proof tables_checked as Hc. rewrite forallb_forall in Hc. exact (Hc _ H). Qed.
Lemma messages1_pe code L T : In (code, L, T) messages1 -> pe_last L = true.
Proof. intros H. pose proof pe_lasts as Hc. rewrite forallb_forall in Hc. exact (Hc _ H). Qed.

(* the converse of the round trip *)
Lemma msg1_lost code L T m x y : In (code, L, T) messages1 -> wf_msg1 code L x -> nlen (msg1_octets x) <= 65535 ->
  msg1_unmarshal T m (msg1_marshal x []) = Ok y -> ascending x /\ ~ has_code1 x 149.
Proof.
  intros Hin (Hmt & Hh & HF & HG) Hn Hok. pose proof (messages1_checked _ _ _ Hin) as HT.
  pose proof (pe_last_alone L (m_fields x) HF (messages1_pe _ _ _ Hin)) as Hal. fold (present x) in Hal.
  assert (Hwf : Forall wf_ie1 (present x)).
  { apply Forall_forall. intros i Hi. apply present_in in Hi. apply (field_ok_in L _ i HF Hi). }
  destruct (msg1_accepted code L T HT m _ _ Hok) as (n & l & Hu & _ & _ & Hlen & Hr & Hs & _).
  unfold msg1_marshal, msg1_octets in *. cbn [app] in *. rewrite fields_elements in *. fold (present x) in *.
  destruct (cframed m (m_header x) (elements (present x)) [] Hh) as (H1 & H2 & q & H3 & H4); [lia|].
  rewrite app_nil_r in H1. rewrite H1 in Hu. apply Ok_inj in Hu. rewrite <- Hu in Hlen. cbn zeta in H2. rewrite H2 in Hlen. apply Ok_inj in Hlen. subst n.
  rewrite H3, <- H4 in Hr.
  assert (H149 : ~ has_code1 x 149).
  { intros Hc. apply (reads_restriction m q (present x) Hwf Hal Hc [] l); [|exact Hs]. cbn [app length]. rewrite Nat.add_0_r. exact Hr. }
  split; [|exact H149].
  pose proof (reads_elements m q (present x) Hwf Hal H149 []) as Hr'. cbn [app length] in Hr'. rewrite Nat.add_0_r in Hr'.
  rewrite (reads_det _ _ _ _ Hr _ Hr') in Hs. rewrite map_map in Hs. exact Hs.
Qed.

(* ------------------------------------------------------------------------- *)
(* In which messages the elements come in ascending order. *)
Fixpoint sortedb (l : list N) : bool :=
  match l with a :: (b :: _) as r => (a <=? b) && sortedb r | _ => true end.
Lemma sortedb_ok l : sortedb l = true -> StronglySorted N.le l.
Proof.
  intros H. apply Sorted_StronglySorted; [intros a b c; apply N.le_trans|].
  induction l as [|a [|b l] IH]; [constructor|constructor; constructor|].
  cbn [sortedb] in H. apply andb_true_iff in H as [H1 H2]. apply N.leb_le in H1. constructor; [apply IH, H2|constructor; exact H1].
Qed.
Definition not_gw (t : N) : bool := negb (t =? 251).
Definition not_late (t : N) : bool := negb ((148 <=? t) && (t <=? 218)).
Lemma sorted_layouts : forallb (fun e => sortedb (filter not_gw (map f_code (snd (fst e)))) &&
    (sortedb (filter not_late (map f_code (snd (fst e)))))) messages1 = true.
Proof. vm_compute. reflexivity. Qed.
Lemma gw_ascending code L T x : In (code, L, T) messages1 -> wf_msg1 code L x ->
  (has_code1 x 251 -> forall t, 148 <= t <= 218 -> ~ has_code1 x t) -> ascending x.
Proof.
  intros Hin (_ & _ & HF & _) H. pose proof sorted_layouts as Hs. rewrite forallb_forall in Hs. specialize (Hs _ Hin).
  cbn [fst snd] in Hs. apply andb_true_iff in Hs as [Hs1 Hs2].
  destruct (in_dec N.eq_dec 251 (map ie1_t (present x))) as [Hg|Hg].
  - apply (sorted_present not_late L (m_fields x) HF); [apply sortedb_ok, Hs2|]. intros i Hi.
    unfold not_late. destruct (N.leb_spec 148 (ie1_t i)); [|reflexivity]. destruct (N.leb_spec (ie1_t i) 218); [|reflexivity].
    exfalso. apply (H Hg (ie1_t i)); [lia|]. apply in_map, present_in, Hi.
  - apply (sorted_present not_gw L (m_fields x) HF); [apply sortedb_ok, Hs1|]. intros i Hi.
    unfold not_gw. destruct (N.eqb_spec (ie1_t i) 251) as [E|]; [|reflexivity].
    exfalso. apply Hg. rewrite <- E. apply in_map, present_in, Hi.
Qed.
(* a gateway address before an element with a code from 148 to 218 is out of order *)
Lemma gw_first_layouts : forallb (fun e => let c := map f_code (snd (fst e)) in
    forallb (fun p => forallb (fun q => negb ((nth p c 0 =? 251) && (148 <=? nth q c 0) && (nth q c 0 <=? 218)) || (p <? q)%nat)
      (seq 0 (length c))) (seq 0 (length c))) messages1 = true.
Proof. vm_compute. reflexivity. Qed.
Lemma Forall2_nth {A B} (R : A -> B -> Prop) la lb : Forall2 R la lb -> forall j y, nth_error lb j = Some y ->
  exists x, nth_error la j = Some x /\ R x y.
Proof.
  induction 1 as [|x y la lb Hxy HF IH]; intros j z Hz; [destruct j; discriminate|].
  destruct j as [|j]; cbn [nth_error] in *; [injection Hz as <-; eauto|apply IH, Hz].
Qed.
Lemma present_split fs p q i j : (p < q)%nat -> nth_error fs p = Some (Some i) -> nth_error fs q = Some (Some j) ->
  exists a b c, flat_map (fun v : option ie1 => match v with Some i => [i] | None => [] end) fs = a ++ i :: b ++ j :: c.
Proof.
  intros Hpq Hp Hq. apply nth_error_split in Hp as (l1 & l2 & -> & Hl1).
  rewrite nth_error_app2 in Hq by lia. destruct (q - length l1)%nat as [|k] eqn:Ek; [lia|]. cbn [nth_error] in Hq.
  apply nth_error_split in Hq as (l3 & l4 & -> & _).
  rewrite flat_map_app. cbn [flat_map]. rewrite flat_map_app. cbn [flat_map app]. eauto.
Qed.
Lemma gw_not_ascending code L T x t : In (code, L, T) messages1 -> wf_msg1 code L x ->
  has_code1 x 251 -> 148 <= t <= 218 -> has_code1 x t -> ~ ascending x.
Proof.
  intros Hin (_ & _ & HF & _) Hg Ht Hc Ha.
  apply in_map_iff in Hg as (i & Ei & Hi). apply in_map_iff in Hc as (j & Ej & Hj).
  apply present_in, In_nth_error in Hi as (p & Hp). apply present_in, In_nth_error in Hj as (q & Hq).
  destruct (Forall2_nth _ _ _ HF p _ Hp) as (f & Hf & Ef & _). destruct (Forall2_nth _ _ _ HF q _ Hq) as (g & Hg & Eg & _).
  pose proof gw_first_layouts as Hs. rewrite forallb_forall in Hs. specialize (Hs _ Hin). cbn [fst snd] in Hs. cbn zeta in Hs.
  assert (Hpl : (p < length (map f_code L))%nat) by (rewrite map_length; apply nth_error_Some; congruence).
  assert (Hql : (q < length (map f_code L))%nat) by (rewrite map_length; apply nth_error_Some; congruence).
  rewrite forallb_forall in Hs. specialize (Hs p ltac:(apply in_seq; lia)). rewrite forallb_forall in Hs. specialize (Hs q ltac:(apply in_seq; lia)).
  rewrite (nth_error_nth (map f_code L) p 0 (map_nth_error _ _ _ Hf)), (nth_error_nth (map f_code L) q 0 (map_nth_error _ _ _ Hg)) in Hs.
  rewrite <- Ef, <- Eg, Ei, Ej in Hs. destruct (N.leb_spec 148 t); [|lia]. destruct (N.leb_spec t 218); [|lia]. cbn in Hs.
  apply Nat.ltb_lt in Hs. destruct (present_split _ p q i j Hs Hp Hq) as (a & b & c & Es).
  unfold ascending, present in Ha. rewrite Es, map_app in Ha. cbn [map] in Ha.
  assert (Hs2 : StronglySorted N.le (ie1_t i :: map ie1_t (b ++ j :: c))).
  { clear -Ha. induction (map ie1_t a) as [|z l IH]; [exact Ha|]. apply IH. inversion Ha; assumption. }
  inversion Hs2 as [|? ? _ Hall]; subst. rewrite Forall_forall in Hall.
  specialize (Hall (ie1_t j) ltac:(rewrite map_app; apply in_or_app; right; left; reflexivity)). lia.
Qed.

(* ------------------------------------------------------------------------- *)
Lemma set_nth_other : forall b j v i, i <> j -> nth_error (set_nth b j v) i = nth_error b i.
Proof.
  induction b as [|x b IH]; intros j v i Hij; [destruct j; reflexivity|].
  destruct j, i; cbn [set_nth nth_error]; try reflexivity; try contradiction. apply IH. congruence.
Qed.
Lemma set_length_other b i : i <> 2%nat -> i <> 3%nat -> nth_error (set_length b) i = nth_error b i.
Proof. intros H2 H3. unfold set_length. rewrite !set_nth_other by assumption. reflexivity. Qed.
Lemma set_nth_len : forall b j v, length (set_nth b j v) = length b.
Proof. induction b as [|x b IH]; intros [|j] v; cbn [set_nth length]; auto. Qed.
Lemma set_length_len b : length (set_length b) = length b.
Proof. unfold set_length. rewrite !set_nth_len. reflexivity. Qed.

(* A packet that is fine but for a missing mandatory element. *)
Lemma msg1_missing code L T (HT : check_table code L T = true) m b h n l s f :
  chdr_unmarshal m b = Ok h -> c_msgtype h = code ->
  add16 (E := GTPV1Error) m (c_length h) 8 = Ok s -> (N.to_nat s <= length b)%nat ->
  chdr_len m h = Ok n -> reads m b n l -> StronglySorted N.le (map fst l) ->
  Forall (fun t => In t (map f_code L)) (map fst l) -> (forall t, (length (occ t l) <= 255)%nat) ->
  In f L -> f_mandatory f = true -> ~ In (f_code f) (map fst l) ->
  msg1_unmarshal T m b = Err MessageMandatoryIEMissing.
Proof.
  intros Hh E Hs Hle Hn Hrd Hss HF Ho Hf Hm Hno.
  destruct (book_ok code L T HT m l [] _ _ (init_state code L T HT) HF Ho) as (c & fs & Hb & _). cbn [app] in *.
  unfold msg1_unmarshal. rewrite Hh. cbn [bind].
  rewrite E, (tab_code code L T HT), N.eqb_refl. cbn [negb]. rewrite Hs. cbn [bind].
  destruct (Nat.leb_spec (N.to_nat s) (length b)); [|lia]. rewrite Hn. cbn [bind].
  rewrite (loop_complete code L T HT m b n l Hrd 0 _ _ (c, fs) (S (length b))).
  - cbn [bind fst snd]. replace (forallb _ _) with false; [reflexivity|]. symmetry.
    destruct (forallb _ _) eqn:Hr; [|reflexivity]. exfalso. rewrite forallb_forall in Hr.
    specialize (Hr _ (tab_mandatory code L T HT f Hf Hm)). cbv beta in Hr.
    apply (book_counts T m _ _ _ _ _ Hb) in Hr as [Hr|Hr]; [discriminate Hr|contradiction].
  - constructor; [exact Hss|]. apply Forall_forall. intros t _. lia.
  - exact HF.
  - exact Hb.
  - destruct (reads_len _ _ _ _ Hrd) as [Hx| ->]; [lia|cbn; lia].
Qed.
