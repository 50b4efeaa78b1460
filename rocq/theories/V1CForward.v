(* V1CForward.v - what a GTPv1-C receiver decoded can be sent again. *)
From Verif Require Import BaseFacts Octets DigitsFacts Labels LabelsFacts V1USpec V1UFacts V1CHdrFacts V1CIeFacts V1CWireSpec V1CWireFacts V1CMsgFacts
  V1CMsgRead V1CExact V1CReadFacts V1CMsgReadFacts.
From Verif Require Export V1CForwardSpec.
Local Open Scope N_scope.

(* ------------------------------------------------------------------------- *)
(* Values *)
Lemma decimals_digits l : Forall digit_char (map (fun d => 48 + d) (decimals l)).
Proof.
  unfold decimals. induction l as [|d l IH]; cbn [filter]; [constructor|]. destruct (N.ltb_spec d 10); [|exact IH].
  cbn [map]. constructor; [unfold digit_char; lia|exact IH].
Qed.
Lemma number_of_length o : (length (number_of o) <= 2 * length o)%nat.
Proof.
  unfold number_of, decimals. rewrite map_length.
  assert (H : forall l, (length (filter (fun d => (d <? 10)%N) l) <= length l)%nat).
  { induction l as [|d l IH]; cbn [filter length]; [lia|]. destruct (d <? 10)%N; cbn [length]; lia. }
  specialize (H (halves o)). assert (E : (length (halves o) = 2 * length o)%nat).
  { unfold halves. clear. induction o as [|x o IH]; cbn [map concat app length]; lia. }
  lia.
Qed.
Lemma digits8_number v o : digits8_says v o -> 15 <= nlen v -> number8 v.
Proof.
  intros [Hl ->] H. split; [apply decimals_digits|]. pose proof (number_of_length o) as Hn. unfold nlen in H. lia.
Qed.
Lemma decimal_bound l : decimal l < 10 ^ nlen l.
Proof.
  unfold decimal, nlen. enough (forall a k, a < 10 ^ k -> fold_left (fun a d => 10 * a + d) (decimals l) a < 10 ^ (k + N.of_nat (length l))).
  { specialize (H 0 0 ltac:(reflexivity)). rewrite N.add_0_l in H. exact H. }
  unfold decimals. induction l as [|d l IH]; intros a k H; cbn [filter length].
  - cbn [fold_left]. rewrite N.add_0_r. exact H.
  - replace (k + N.of_nat (S (length l))) with (k + 1 + N.of_nat (length l)) by lia.
    assert (E : 10 ^ (k + 1) = 10 * 10 ^ k) by (rewrite N.pow_add_r, N.pow_1_r; lia).
    destruct (N.ltb_spec d 10); cbn [fold_left]; apply IH; rewrite E; [lia|].
    assert (0 < 10 ^ k) by (apply N.neq_0_lt_0, N.pow_nonzero; lia). lia.
Qed.
Lemma plmn_says_ok p o : plmn_says p o -> plmn_ok p.
Proof.
  intros (a & b & c & -> & ->). unfold plmn_ok.
  pose proof (decimal_bound [a mod 16; a / 16; b mod 16]) as H1. change (10 ^ nlen [a mod 16; a / 16; b mod 16]) with 1000 in H1.
  pose proof (decimal_bound [c mod 16; c / 16]) as H2. change (10 ^ nlen [c mod 16; c / 16]) with 100 in H2.
  pose proof (decimal_bound [c mod 16; c / 16; b / 16]) as H3. change (10 ^ nlen [c mod 16; c / 16; b / 16]) with 1000 in H3.
  split; [exact H1|]. destruct (b / 16 =? 15); cbn [negb]; split; try lia; auto.
Qed.
Lemma split_dot_app w s : Forall (fun v => nlen v < 256) (split_dot w) -> Forall (fun v => nlen v < 256) (split_dot s) ->
  Forall (fun v => nlen v < 256) (split_dot (w ++ 46 :: s)).
Proof.
  induction w as [|c w IH]; cbn [app split_dot].
  - intros _ H. constructor; [reflexivity|exact H].
  - destruct (c =? 46).
    + intros H Hs. inversion H as [|? ? Ha Hb]; subst. constructor; [exact Ha|]. apply IH; assumption.
    + pose proof (split_dot_nonempty w) as Hn. destruct (split_dot w) as [|v vs] eqn:Ew; [contradiction|]. intros H Hs.
      assert (E : exists vs', split_dot (w ++ 46 :: s) = v :: vs' /\ (Forall (fun v => nlen v < 256) vs -> Forall (fun v => nlen v < 256) vs')).
      { clear -Ew Hs. revert v vs Ew. induction w as [|c w IH]; intros v vs Ew; cbn [app split_dot] in *.
        - injection Ew as <- <-. exists (split_dot s). auto.
        - destruct (c =? 46).
          + injection Ew as <- <-. eexists. split; [reflexivity|]. intros H. destruct (split_dot w) as [|y ys] eqn:E.
            * exfalso. eapply split_dot_nonempty, E.
            * destruct (IH _ _ eq_refl) as (vs' & -> & Hf). inversion H; subst. constructor; auto.
          + destruct (split_dot w) as [|y ys] eqn:E; [exfalso; eapply split_dot_nonempty, E|]. injection Ew as <- <-.
            destruct (IH _ _ eq_refl) as (vs' & -> & Hf). eexists. split; [reflexivity|exact Hf]. }
      destruct E as (vs' & -> & Hf). inversion H as [|? ? Ha Hb]; subst. constructor; [exact Ha|apply Hf, Hb].
Qed.
Lemma split_dot_short w : nlen w < 256 -> Forall (fun v => nlen v < 256) (split_dot w).
Proof.
  intros H. enough (Forall (fun v => (length v <= length w)%nat) (split_dot w)).
  { eapply Forall_impl; [|exact H0]. cbv beta. intros v Hv. unfold nlen in *. lia. }
  clear H. induction w as [|c w IH]; cbn [split_dot length]; [repeat constructor|]. destruct (c =? 46).
  - constructor; [cbn; lia|]. eapply Forall_impl; [|exact IH]. cbv beta. lia.
  - destruct (split_dot w) as [|v vs]; [constructor; [cbn [length]; lia|constructor]|]. inversion IH as [|? ? Ha Hb]; subst. constructor; [cbn [length]; lia|].
    eapply Forall_impl; [|exact Hb]. cbv beta. lia.
Qed.
Lemma dotted_ok : forall ws, Forall (fun w => nlen w < 256) ws -> Forall (fun v => nlen v < 256) (split_dot (dotted ws)).
Proof.
  induction ws as [|w ws IH]; intros H; [repeat constructor|]. inversion H as [|? ? Ha Hb]; subst. cbn [dotted].
  destruct ws as [|w' ws]; [apply split_dot_short, Ha|]. apply split_dot_app; [apply split_dot_short, Ha|apply IH, Hb].
Qed.
Lemma dotted_size : forall ws, ws <> [] -> nlen (dotted ws) + 1 = nlen (concat (map (fun w => nlen w :: w) ws)).
Proof.
  induction ws as [|w ws IH]; intros H; [contradiction|]. destruct ws as [|w' ws].
  - cbn [dotted map concat]. rewrite app_nil_r. unfold nlen. cbn [length]. lia.
  - specialize (IH ltac:(discriminate)). change (dotted (w :: w' :: ws)) with (w ++ 46 :: dotted (w' :: ws)).
    change (concat (map (fun w => nlen w :: w) (w :: w' :: ws))) with (nlen w :: w ++ concat (map (fun w => nlen w :: w) (w' :: ws))).
    unfold nlen in IH |- *. cbn [length]. rewrite !app_length. cbn [length]. lia.
Qed.
Lemma name_says_ok n o : bytes o -> name_says n o -> o <> [] -> Forall (fun c => c < 128) n -> name_ok n /\ name_size n = nlen o.
Proof.
  intros Hb (ws & -> & ->) Hn Hc. split.
  - split; [exact Hc|]. apply dotted_ok. clear -Hb. induction ws as [|w ws IH]; [constructor|]. cbn [map concat app] in Hb.
    inversion Hb as [|? ? Ha Hb']; subst. apply Forall_app in Hb' as [_ Hb']. constructor; [exact Ha|apply IH, Hb'].
  - unfold name_size. apply dotted_size. intros ->. contradiction.
Qed.

(* ------------------------------------------------------------------------- *)
(* Elements *)
Lemma fixed_le {A} n (v : A) : n <= 65532 -> fixed n v <= 65532. Proof. intros H. exact H. Qed.
Lemma tv_bytes (s : list N) ty v r : bytes s -> s = ty :: v ++ r -> bytes v.
Proof. intros H ->. inversion H as [|? ? _ Hb]; subst. apply Forall_app in Hb as [Hb _]. exact Hb. Qed.
Lemma tlv_bytes (s : list N) ty a b v r : bytes s -> s = ty :: a :: b :: v ++ r -> bytes v.
Proof. intros H ->. inversion H as [|? ? _ H1]; subst. inversion H1 as [|? ? _ H2]; subst. inversion H2 as [|? ? _ Hb]; subst. apply Forall_app in Hb as [Hb _]. exact Hb. Qed.

Lemma tv_wf {A} T P (W : A -> Prop) x s : bytes s -> tv_says T P x s -> (forall v o, bytes o -> P v o -> v = tv_v x -> W v) -> wf_tv T W x.
Proof. intros Hs (Ht & ty & v & r & E & H) HW. split; [exact Ht|]. eapply HW; [eapply tv_bytes; eassumption|exact H|reflexivity]. Qed.
Lemma fix_wf {A} T n P (W : A -> Prop) x s : bytes s -> n <= 65532 -> fix_says T P x s -> (forall v o, bytes o -> P v o -> v = tlv_v x -> W v) ->
  wf_tlv T (fixed n) W (with_size (fixed n) x).
Proof.
  intros Hs Hn (Ht & ty & a & b & v & r & E & El & H) HW. unfold wf_tlv, with_size, fixed. cbn [tlv_t tlv_length tlv_v].
  split; [exact Ht|]. split; [reflexivity|]. split; [exact Hn|]. eapply HW; [eapply tlv_bytes; eassumption|exact H|reflexivity].
Qed.
Lemma var_wf {A} T k P size (W : A -> Prop) x s : bytes s -> var_says T k P x s ->
  (forall v o, bytes o -> P v o -> k <= nlen o <= 65532 -> v = tlv_v x -> W v /\ size v = nlen o) ->
  wf_tlv T size W (with_size size x) /\ with_size size x = x.
Proof.
  intros Hs (Ht & ty & a & b & v & r & E & El & En & Hb & H) HW. unfold wf_tlv, with_size. cbn [tlv_t tlv_length tlv_v].
  destruct (HW (tlv_v x) v ltac:(eapply tlv_bytes; eassumption) H Hb eq_refl) as [H1 H2].
  split; [repeat split; try assumption; lia|]. rewrite H2. destruct x as [t l x]. cbn [tlv_t tlv_length tlv_v] in *. f_equal. lia.
Qed.
Lemma oct_byte x : bytes [x] -> x < 256. Proof. intros H. inversion H. assumption. Qed.
Lemma says1_wf i s t : bytes s -> says1 i s -> nth_error s 0 = Some t -> code_kind t = Some (kind1_of i) -> resendable i ->
  wf_ie1 (with_true_length i).
Proof.
  intros Hs H Ht Hk Hr. destruct i as [x|x|x|x|x|x|x|x|x|x|x|x|x|x|x|x|x|x|x|x|x|x|x|x|x|x|x|x|x|x|x|x|x|x|x|x|x|x|x|x|x|x|x|x|x|x|x|x]; cbn [says1 with_true_length wf_ie1 resendable] in *.
  all: try (eapply tv_wf; [exact Hs|exact H|]; intros v o Ho Hv Ev; cbv beta in * ).
  all: try (eapply fix_wf; [exact Hs|lia|exact H|]; intros v o Ho Hv Ev; cbv beta in * ).
  all: try (eapply var_wf; [exact Hs|exact H|]; intros v o Ho Hv Hn Ev; cbv beta in * ).
  all: try exact I.
  all: try (unfold octet_says in Hv; subst o; apply oct_byte; exact Ho).
  all: try exact (proj2 Hv).
  all: try (destruct Hv as (spare & _ & Hv); exact Hv).
  all: try (unfold raw_says in Hv; subst o; split; [intros ->; unfold nlen in Hn; cbn [length] in Hn; lia|reflexivity]).
  all: try (destruct Hv as (xx & _ & ->); reflexivity).
  - subst v. eapply digits8_number; eassumption.
  - destruct Hv as (p & l & _ & Hp & Hl). split; [eapply plmn_says_ok, Hp|apply Hl].
  - destruct H as (r & -> & Hu). injection Ht as <-. cbn [kind1_of] in Hk. apply code_kind_codes in Hk. cbn [codes_of In] in Hk.
    destruct Hk as [E|[E|[]]]; [left|right]; split; auto.
  - destruct Hv as (a & b & _ & Hv). exact Hv.
  - destruct Hv as [[_ Hv] H0]. auto.
  - destruct Hv as (spare & addr & -> & Hv). unfold eua_ok, eua_size, nlen. destruct (eua_v4 v) as [a|], (eua_v6 v) as [c|]; cbn [opt_octets length] in *.
    + destruct Hv as (-> & Ha & Hc & Ho' & Hn'). rewrite app_length. repeat split; try assumption. lia.
    + destruct Hv as (-> & Ha & Ho' & Hn'). repeat split; try assumption. lia.
    + destruct Hv as (-> & Ha & Ho' & Hn'). repeat split; try assumption. lia.
    + destruct Hv as (-> & Hv). split; [exact Hv|]. reflexivity.
  - subst v. eapply name_says_ok; try eassumption. intros ->. unfold nlen in Hn; cbn [length] in Hn; lia.
  - destruct v; cbn [ip_says ip_ok ip_size] in *; [subst o; split; [exact I|reflexivity]|]. destruct Hv as [-> Hl]. split; [exact Hl|]. unfold nlen. rewrite Hl. reflexivity.
  - destruct H as (H1 & ty & a & b & d & r & E & He & Hn & Hp & Hd & Hdg & _). unfold wf_tlv, with_size, fixed. cbn [tlv_t tlv_length tlv_v].
    repeat split; try assumption; try lia. all: eapply digits8_number; [split; eassumption|exact Hr].
  - destruct Hv as [-> Hq]. split; [exact Hq|]. unfold nlen. cbn [length]. lia.
  - destruct Hv as (p & l & c & d & Hp & Hl & Hv). split; [eapply plmn_says_ok, Hp|]. split; [apply Hl|].
    assert (Hcd : forall z, o = [z] ++ p ++ l ++ [c; d] -> c < 256 /\ d < 256).
    { intros z ->. rewrite !app_assoc in Ho. apply Forall_app in Ho as [_ Ho]. inversion Ho as [|? ? Hc Ho']; subst. inversion Ho'; subst. auto. }
    unfold u16, octet. destruct (uli_loc v); destruct Hv as [E ->]; destruct (Hcd _ E); lia.
  - destruct Hv as (sign & n & spare & -> & Hn & Hsg & Hd & Hz). split; [|exact Hd]. rewrite Hz. destruct (sign =? 0); lia.
  - destruct H as (H1 & H2 & ty & a & b & v & r & E & Hv). unfold wf_tlv, with_size, fixed. cbn [tlv_t tlv_length tlv_v].
    repeat split; try assumption; try lia. all: eapply digits8_number; [eassumption|exact Hr].
  - unfold raw_says in Hv. subst o. split; [exact I|reflexivity].
  - destruct Hv as (H1 & H2 & _). split; assumption.
  - destruct Hv as (s1 & s2 & _ & _ & _ & H1 & H2 & H3). repeat split; assumption.
  - destruct Hv as (p & c & a & q & mm & _ & _ & _ & _ & Hp & _). split; [eapply plmn_says_ok, Hp|]. subst v. exact Hr.
  - destruct Hv as (H1 & H2 & _). split; assumption.
  - destruct Hv as (u & _ & Hu & Hb & E). split; [|exact Hb]. rewrite E.
    destruct (N.eqb_spec u 5); [left; cbn; lia|]. destruct (N.eqb_spec u 6); [left; cbn; lia|]. cbn [orb]. lia.
  - destruct v; cbn [ip_says ip_ok ip_size] in *; [subst o; split; [exact I|reflexivity]|]. destruct Hv as [-> Hl]. split; [exact Hl|]. unfold nlen. rewrite Hl. reflexivity.
  - destruct H as (H1 & ty & a & b & i & j & E & Hid & _). unfold wf_tlv, with_size. cbn [tlv_t tlv_length tlv_v].
    repeat split; try assumption. unfold pe_ok, u16. rewrite Hid. rewrite E in Hs.
    inversion Hs as [|? ? _ Hs1]; subst. inversion Hs1 as [|? ? _ Hs2]; subst. inversion Hs2 as [|? ? _ Hs3]; subst.
    inversion Hs3 as [|? ? Hi Hs4]; subst. inversion Hs4 as [|? ? Hj _]; subst. unfold byte in *. lia.
Qed.
Lemma with_size_octets {A} size value (x : Tlv A) : tlv_marshal value (with_size size x) = tlv_marshal value x.
Proof. unfold tlv_marshal, with_size. cbn [tlv_t tlv_length tlv_v]. reflexivity. Qed.
Lemma true_length_octets i : ie1_marshal (with_true_length i) = ie1_marshal i.
Proof. destruct i; cbn [with_true_length ie1_marshal]; try reflexivity; apply with_size_octets. Qed.
Lemma true_length_kind i : kind1_of (with_true_length i) = kind1_of i.
Proof. destruct i; reflexivity. Qed.
Lemma true_length_t i : ie1_t (with_true_length i) = ie1_t i.
Proof. destruct i; reflexivity. Qed.

Lemma forward_element m i s t r : bytes s -> says1 i s -> nth_error s 0 = Some t -> code_kind t = Some (kind1_of i) -> resendable i ->
  (ie1_t i = 255 -> r = []) -> ie1_unmarshal (kind1_of i) m (ie1_marshal i ++ r) = Ok (with_true_length i).
Proof.
  intros Hs H Ht Hk Hr Hend. pose proof (says1_wf i s t Hs H Ht Hk Hr) as Hw. rewrite <- true_length_octets, <- true_length_kind.
  apply ie1_roundtrip; [exact Hw|]. intros Hd. apply Hend. rewrite <- true_length_t. apply wf_alone; assumption.
Qed.
Lemma says1_t i s t : says1 i s -> nth_error s 0 = Some t -> code_kind t = Some (kind1_of i) -> ie1_t i = t.
Proof.
  intros H Ht Hk. apply code_kind_codes in Hk. destruct i; cbn [says1 kind1_of codes_of In ie1_t] in *.
  all: try (destruct Hk as [<-|[]]; apply H).
  destruct H as (r & -> & _). cbn [nth_error] in Ht. congruence.
Qed.

(* ------------------------------------------------------------------------- *)
(* Headers *)
Lemma cext_meaning_wf t l v q : bytes (v ++ q) -> t <> 0 -> 1 <= l <= 63 -> nlen v + 2 = 4 * l -> resendable_ext (cext_meaning t l v) ->
  wf_cext (cext_meaning t l v).
Proof.
  intros Hb Ht Hl Hv. apply Forall_app in Hb as [Hb _]. unfold nlen in Hv.
  assert (Hn : 256 * nth 0 v 0 + nth 1 v 0 < 65536).
  { destruct v as [|a [|c v]]; cbn [length] in Hv; try lia. inversion Hb as [|? ? Ha Hb1]; subst. inversion Hb1; subst. cbn [nth]. unfold byte in *. lia. }
  unfold cext_meaning. destruct (N.eqb_spec t 192); [|destruct (N.eqb_spec t 193); [|destruct (N.eqb_spec t 194); [|destruct (N.eqb_spec t 1); [|destruct (N.eqb_spec t 2)]]]];
    cbn [resendable_ext wf_cext ne_length]; intros Hr; try (subst t; split; [left; reflexivity|split; [exact Hr|exact Hn]]).
  split; [|split; [exact Hl|exact Hv]]. cbn [be_type]. intros Hin. unfold known_cext_types in Hin. cbn [In] in Hin. intuition congruence.
Qed.
Lemma cchain_wf b l r : cchain_is b l r -> bytes b -> Forall resendable_ext l -> Forall wf_cext l.
Proof.
  induction 1 as [r|t l v q xs r Ht Hl Hv Hr IH]; intros Hb HF; [constructor|]. inversion HF as [|? ? Ha Hc]; subst.
  inversion Hb as [|? ? _ Hb1]; subst. inversion Hb1 as [|? ? _ Hb2]; subst. constructor.
  - eapply cext_meaning_wf; eassumption.
  - apply IH; [apply Forall_app in Hb2 as [_ H2]; exact H2|exact Hc].
Qed.
Lemma header_says_wf b h p : bytes b -> header_says b h p -> resendable_header h -> wf_chdr h.
Proof.
  intros Hb (b0 & l1 & l2 & t1 & t2 & t3 & t4 & r & Eb & _ & _ & Hl & Ht & Hs & Hn & He) Hr. rewrite Eb in Hb.
  repeat match goal with H : bytes (_ :: _) |- _ => inversion H; clear H; subst end.
  repeat match goal with H : Forall _ (_ :: _) |- _ => inversion H; clear H; subst end. unfold byte in *.
  split; [unfold u16; lia|]. split; [unfold u32; lia|]. split.
  - destruct (bit_of b0 1); [|rewrite Hs; exact I]. destruct Hs as (s1 & s2 & r' & -> & ->). cbn [wf_opt]. unfold u16.
    repeat match goal with H : Forall _ (_ :: _) |- _ => inversion H; clear H; subst end. lia.
  - destruct (bit_of b0 2); [|destruct He as [-> _]; exact I]. destruct He as (s1 & s2 & n & r' & xs & q & -> & Hc & E & _). rewrite E. cbn [wf_opt].
    repeat match goal with H : Forall _ (_ :: _) |- _ => inversion H; clear H; subst end.
    eapply cchain_wf; [exact Hc|assumption|]. apply Hr, E.
Qed.

(* ------------------------------------------------------------------------- *)
(* Messages *)
Definition mandatory_first (L : list field1) : bool :=
  forallb (fun j => forallb (fun i => match nth_error L i, nth_error L j with
    | Some f, Some g => negb (f_code f =? f_code g) || negb (f_mandatory g) || f_mandatory f
    | _, _ => true end) (seq 0 j)) (seq 0 (length L)).
Lemma messages1_mandatory_first : forallb (fun x => mandatory_first (snd (fst x))) messages1 = true.
Proof. vm_compute. reflexivity. Qed.

Lemma holds_in b p l t i : holds b p l -> In (t, i) l -> exists q, nth_error b q = Some t /\ code_kind t = Some (kind1_of i) /\ says1 i (skipn q b).
Proof.
  induction 1 as [p Hp|p u j n l Ht Hk Hs Hn Hr IH]; [contradiction|]. intros [E|Hin]; [injection E as -> ->; eauto|]. apply IH, Hin.
Qed.
Lemma occ_in_list t l i : In i (occ t l) -> In (t, i) l.
Proof. unfold occ. intros H. apply in_map_iff in H as ([u j] & <- & H). apply filter_In in H as [H E]. cbn [fst] in E. apply N.eqb_eq in E. subst u. exact H. Qed.
Lemma nth_error_skipn0 {A} (l : list A) q x : nth_error l q = Some x -> nth_error (skipn q l) 0 = Some x.
Proof. intros H. rewrite (skipn_at _ _ _ H). reflexivity. Qed.
Lemma Forall2_nth {A B} (R : A -> B -> Prop) : forall l1 l2, length l1 = length l2 ->
  (forall j x y, nth_error l1 j = Some x -> nth_error l2 j = Some y -> R x y) -> Forall2 R l1 l2.
Proof.
  induction l1 as [|x l1 IH]; intros [|y l2] Hl H; try discriminate Hl; constructor.
  - exact (H 0%nat x y eq_refl eq_refl).
  - apply IH; [injection Hl as Hl; exact Hl|]. intros j a b Ha Hb. exact (H (S j) a b Ha Hb).
Qed.
Lemma rank_lt L t i j f : (i < j)%nat -> nth_error L i = Some f -> f_code f = t -> (rank L t i < rank L t j)%nat.
Proof.
  intros Hij Hi Ef. unfold rank.
  assert (El : firstn (S i) L = firstn i L ++ [f]).
  { clear -Hi. revert i Hi. induction L as [|a L IH]; intros [|i] Hi; cbn [nth_error firstn] in *; try discriminate; [injection Hi as ->; reflexivity|]. cbn [app]. f_equal. apply IH, Hi. }
  assert (Em : firstn (S i) (firstn j L) = firstn (S i) L) by (rewrite firstn_firstn; f_equal; lia).
  assert (Ej : firstn j L = firstn i L ++ [f] ++ skipn (S i) (firstn j L)).
  { rewrite app_assoc, <- El, <- Em, firstn_skipn. reflexivity. }
  rewrite Ej, filter_app, app_length. cbn [app filter]. rewrite (proj2 (N.eqb_eq _ _) Ef). cbn [length]. lia.
Qed.

Lemma message_says_wf code L T b x : In (code, L, T) messages1 -> bytes b -> message_says code L b x -> resendable_header (m_header x) ->
  (forall i, In (Some i) (m_fields x) -> resendable i) -> wf_msg1 code L (with_true_lengths x).
Proof.
  intros Hin Hb (p & l & Hh & Hl & Ht & _ & _ & _ & HF & Hm & _ & Hfl & Hst) Hrh Hri.
  split; [exact Ht|]. split; [eapply header_says_wf; eassumption|]. cbn [with_true_lengths m_fields]. split.
  - apply Forall2_nth; [rewrite map_length; symmetry; exact Hfl|]. intros j f v Hj Hv.
    rewrite nth_error_map, (Hst j f Hj) in Hv. cbn [option_map] in Hv. injection Hv as <-.
    destruct (nth_error (occ (f_code f) l) (rank L (f_code f) j)) as [i|] eqn:En.
    + cbn [option_map field_ok]. pose proof (occ_in_list _ _ _ (nth_error_In _ _ En)) as Hi.
      destruct (holds_in _ _ _ _ _ Hl Hi) as (q & Hq & Hk & Hs). pose proof (nth_error_skipn0 _ _ _ Hq) as Hq'.
      split; [rewrite true_length_t; eapply says1_t; eassumption|]. apply (says1_wf i (skipn q b) (f_code f)); [apply bytes_skipn, Hb|exact Hs|exact Hq'|exact Hk|].
      apply Hri. eapply nth_error_In. rewrite (Hst j f Hj), En. reflexivity.
    + destruct (f_mandatory f) eqn:Ef; cbn [option_map field_ok]; [|exact Ef].
      assert (Ec : f_code f = 133).
      { pose proof messages1_defaults as HD. rewrite forallb_forall in HD. specialize (HD _ Hin). cbv beta iota in HD.
        destruct (Nat.eq_dec (rank L (f_code f) j) 0) as [E0|E0].
        - rewrite E0 in En. destruct (occ_in _ _ (Hm f (nth_error_In _ _ Hj) Ef)) as (i & r & E). rewrite E in En. discriminate.
        - unfold defaults_ok in HD. rewrite forallb_forall in HD.
          assert (Hjl : (j < length L)%nat) by (apply nth_error_Some; congruence).
          specialize (HD j ltac:(apply in_seq; lia)). rewrite Hj, Ef in HD. cbn [negb orb] in HD.
          destruct (Nat.eqb_spec (rank L (f_code f) j) 0); [contradiction|]. cbn [orb] in HD.
          apply andb_prop in HD as [HD _]. apply N.eqb_eq, HD. }
      split; [symmetry; exact Ec|]. repeat split. vm_compute. discriminate.
  - intros i j f g y Hij Hi Hj E Hy Hn. rewrite nth_error_map, (Hst i f Hi) in Hn. rewrite nth_error_map, (Hst j g Hj) in Hy.
    cbn [option_map] in Hn, Hy. injection Hn as Hn. injection Hy as Hy.
    destruct (nth_error (occ (f_code f) l) (rank L (f_code f) i)) eqn:En; [discriminate|]. destruct (f_mandatory f) eqn:Ef; [discriminate|].
    assert (Eg : f_mandatory g = false).
    { destruct (f_mandatory g) eqn:Eg; [|reflexivity]. exfalso. pose proof messages1_mandatory_first as HM. rewrite forallb_forall in HM.
      specialize (HM _ Hin). cbn [fst snd] in HM. unfold mandatory_first in HM. rewrite forallb_forall in HM.
      assert (Hjl : (j < length L)%nat) by (apply nth_error_Some; congruence). specialize (HM j ltac:(apply in_seq; lia)).
      rewrite forallb_forall in HM. specialize (HM i ltac:(apply in_seq; lia)). rewrite Hi, Hj, E, N.eqb_refl, Ef, Eg in HM. discriminate. }
    pose proof (rank_lt L (f_code f) i j f Hij Hi eq_refl) as Hrk. apply nth_error_None in En.
    rewrite <- E in Hy. assert (nth_error (occ (f_code f) l) (rank L (f_code f) j) = None) as E2 by (apply nth_error_None; lia).
    rewrite E2, Eg in Hy. discriminate.
Qed.
Lemma present_true x : map ie1_t (present (with_true_lengths x)) = map ie1_t (present x).
Proof.
  unfold present, with_true_lengths. cbn [m_fields]. induction (m_fields x) as [|[i|] fs IH]; cbn [map option_map flat_map app]; [reflexivity| |exact IH].
  rewrite true_length_t, IH. reflexivity.
Qed.
Lemma octets_true x : msg1_octets (with_true_lengths x) = msg1_octets x.
Proof.
  unfold msg1_octets, with_true_lengths. cbn [m_header m_fields]. do 2 f_equal. rewrite map_map. apply map_ext. intros [i|]; cbn [option_map opt_bytes]; [apply true_length_octets|reflexivity].
Qed.
Lemma forward_message code L T m b x : In (code, L, T) messages1 -> bytes b -> message_says code L b x -> resendable_message x ->
  nlen (msg1_octets x) <= 65535 ->
  msg1_unmarshal T m (msg1_marshal x []) =
  Ok (mkMsg1 (chdr_with_length (m_header x) (nlen (msg1_octets x) - 8)) (m_fields (with_true_lengths x))).
Proof.
  intros Hin Hb Hx (Hrh & Hri & H149 & Hg) Hn. pose proof (message_says_wf _ _ _ _ _ Hin Hb Hx Hrh Hri) as Hw.
  unfold msg1_marshal. rewrite <- octets_true. fold (msg1_marshal (with_true_lengths x) []).
  rewrite (msg1_roundtrip code L T (messages1_checked _ _ _ Hin) m _ Hw); [reflexivity| | |rewrite octets_true; exact Hn].
  - apply (gw_ascending code L T _ Hin Hw). unfold has_code1. rewrite present_true. exact Hg.
  - unfold has_code1. rewrite present_true. exact H149.
Qed.
