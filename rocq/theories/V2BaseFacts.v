(* V2BaseFacts.v - facts about V2Base.v *)
From Verif Require Export BaseFacts DigitsFacts V2Base.
Local Open Scope N_scope.

Lemma tliv_eq t l i v : tliv t l i v
  = t :: ((nlen v mod 65536) / 256) mod 256 :: (nlen v mod 65536) mod 256 :: i :: v.
Proof.
  unfold tliv, set_tliv_ie_length, nlen. cbn [enc16 app length set_nth].
  replace (N.of_nat (S (S (S (S (length v))))) - 4) with (N.of_nat (length v)) by lia. reflexivity.
Qed.
Lemma tliv_length t l i v : length (tliv t l i v) = (4 + length v)%nat.
Proof. rewrite tliv_eq. reflexivity. Qed.
Lemma tliv_shape t l i v : exists hi lo, tliv t l i v = t :: hi :: lo :: i :: v
  /\ byte hi /\ byte lo /\ be16 hi lo = nlen v mod 65536.
Proof.
  rewrite tliv_eq. exists (((nlen v mod 65536) / 256) mod 256), ((nlen v mod 65536) mod 256).
  split; [reflexivity|]. unfold byte, be16. lia.
Qed.
Lemma check_tliv_ok m l b : l <> 0 -> l <= 65531 -> (N.to_nat l + 4 <= length b)%nat ->
  check_tliv_ie_buffer m l b = Ok true.
Proof.
  intros. unfold check_tliv_ie_buffer. destruct (N.eqb_spec l 0); [lia|].
  rewrite add16_small by lia. cbn [bind]. f_equal. apply Nat.leb_le. lia.
Qed.
Lemma checked_ok {A} m l b e (k : res A) : l <> 0 -> l <= 65531 -> (N.to_nat l + 4 <= length b)%nat ->
  checked m l b e k = k.
Proof. intros. unfold checked. rewrite check_tliv_ok by assumption. reflexivity. Qed.
Lemma end16_ok m l k : l + k < 65536 -> end16 m l k = Ok (N.to_nat (l + k)).
Proof. intros. unfold end16. rewrite add16_small by assumption. reflexivity. Qed.
Lemma need_ok {A} b n e (k : res A) : (n <= length b)%nat -> need b n e k = k.
Proof. intros. unfold need. destruct (Nat.leb_spec n (length b)); [reflexivity|lia]. Qed.
Lemma hdr4_cons {A} t h l i r (k : N -> N -> res A) : hdr4 (t :: h :: l :: i :: r) k = k (be16 h l) i.
Proof. reflexivity. Qed.
Lemma at_cons {E} x b i : @at_ E (x :: b) (S i) = at_ b i.
Proof. reflexivity. Qed.
Lemma at_0 {E} x b : @at_ E (x :: b) 0 = Ok x.
Proof. reflexivity. Qed.
Lemma nlen_cons {A} (x : A) l : nlen (x :: l) = 1 + nlen l.
Proof. unfold nlen. cbn [length]. lia. Qed.
Lemma nlen_nil {A} : nlen (@nil A) = 0.
Proof. reflexivity. Qed.
Lemma nlen_app {A} (a b : list A) : nlen (a ++ b) = nlen a + nlen b.
Proof. unfold nlen. rewrite app_length. lia. Qed.
#[global] Arguments hdr4 : simpl never.
#[global] Arguments checked : simpl never.
#[global] Arguments need : simpl never.
#[global] Arguments tliv : simpl never.
#[global] Arguments end16 : simpl never.
#[global] Arguments shl8 : simpl never.
#[global] Arguments nlen : simpl never.
#[global] Arguments at_ : simpl never.
#[global] Arguments firstn : simpl nomatch.

(* header *)
Definition wf_hdr2 (h : Gtpv2Header) : Prop :=
  u16 (h2_length h) /\ h2_sqn h < 16777216 /\
  (forall p, h2_prio h = Some p -> p < 16) /\ (forall t, h2_teid h = Some t -> u32 t) /\
  (match h2_teid h with Some _ => 8 <= h2_length h | None => 4 <= h2_length h /\ h2_prio h = None end).

Lemma prio_shift p : p < 16 -> N.shiftr ((N.shiftl p 4) mod 256) 4 = p.
Proof. intros. rewrite N.shiftr_div_pow2, N.shiftl_mul_pow2. change (2 ^ 4) with 16. lia. Qed.

Lemma h2_roundtrip h r : wf_hdr2 h -> h2_unmarshal (h2_marshal h ++ r) = Ok h.
Proof.
  destruct h as [mt pb pr len td sq]; unfold wf_hdr2; cbn [h2_length h2_sqn h2_prio h2_teid]; intros (Hl & Hs & Hp & Ht & Hx).
  unfold h2_marshal, h2_unmarshal; cbn [h2_length h2_sqn h2_prio h2_teid h2_msgtype].
  unfold u16 in Hl.
  assert (Hsq : forall x, x < 16777216 -> be32 0 ((x / 65536) mod 256) ((x / 256) mod 256) (x mod 256) = x)
    by (intros; unfold be32; lia).
  destruct td as [td|].
  - cbn [enc16 enc32 enc24 app length]. unfold MIN_HEADER_LENGTH, MAX_HEADER_LENGTH. cbn [Nat.leb].
    rewrite !at_cons, !at_0. cbn [bind].
    rewrite Hsq, be16_enc, be32_enc by (assumption || (apply Ht; reflexivity)).
    destruct (N.ltb_spec len 8); [lia|].
    destruct pr as [p|]; [rewrite prio_shift by (apply Hp; reflexivity)|]; destruct pb; reflexivity.
  - destruct Hx as [Hx ->].
    cbn [enc16 enc32 enc24 app length]. unfold MIN_HEADER_LENGTH, MAX_HEADER_LENGTH. cbn [Nat.leb].
    rewrite !at_cons, !at_0. cbn [bind].
    rewrite Hsq, be16_enc by assumption.
    destruct (N.ltb_spec len 4); [lia|]. destruct (N.eqb_spec len 0); [lia|].
    destruct pb; reflexivity.
Qed.

Lemma h2_returns b : returns (h2_unmarshal b).
Proof.
  unfold h2_unmarshal, MIN_HEADER_LENGTH, MAX_HEADER_LENGTH.
  destruct (Nat.leb_spec 8 (length b)) as [H|]; [|exact I]. list_split b H.
  rewrite !at_cons, !at_0. cbn [bind]. destruct (negb _); [exact I|].
  destruct (_ =? 0).
  - destruct (_ =? 0); [exact I|]. destruct (_ <? 4); exact I.
  - destruct (Nat.leb_spec 12 (length (x :: x0 :: x1 :: x2 :: x3 :: x4 :: x5 :: x6 :: b))) as [H2|]; [|exact I].
    cbn [length] in H2. do 8 apply le_S_n in H2. list_split b H2.
    rewrite !at_cons, !at_0. destruct (_ <? 8); exact I.
Qed.

(* What a buffer that decodes to header h looks like. *)
Lemma h2_inv b h : h2_unmarshal b = Ok h ->
  exists b0 l1 l2 r, b = b0 :: h2_msgtype h :: l1 :: l2 :: r /\ h2_length h = be16 l1 l2 /\
    N.shiftr b0 5 = 2 /\
    (N.land (N.shiftr b0 3) 1 = 0 -> h2_teid h = None /\ (4 <= length r)%nat /\ 4 <= h2_length h) /\
    (N.land (N.shiftr b0 3) 1 <> 0 -> is_some (h2_teid h) = true /\ (8 <= length r)%nat /\ 8 <= h2_length h).
Proof.
  unfold h2_unmarshal, MIN_HEADER_LENGTH, MAX_HEADER_LENGTH.
  destruct (Nat.leb_spec 8 (length b)) as [H|]; [|discriminate]. list_split b H.
  rewrite !at_cons, !at_0. cbn [bind]. destruct (N.eqb_spec (N.shiftr x 5) 2) as [Hv|]; cbn [negb]; [|discriminate].
  destruct (N.eqb_spec (N.land (N.shiftr x 3) 1) 0) as [Ht|Ht].
  - destruct (N.eqb_spec (be16 x1 x2) 0); [discriminate|]. destruct (N.ltb_spec (be16 x1 x2) 4); [discriminate|].
    intros [= <-]. exists x, x1, x2, (x3 :: x4 :: x5 :: x6 :: b). cbn [h2_msgtype h2_length h2_teid length is_some].
    repeat split; auto; try contradiction; lia.
  - destruct (Nat.leb_spec 12 (length (x :: x0 :: x1 :: x2 :: x3 :: x4 :: x5 :: x6 :: b))) as [H2|]; [|discriminate].
    cbn [length] in H2. do 8 apply le_S_n in H2. list_split b H2.
    rewrite !at_cons, !at_0. cbn [bind]. destruct (N.ltb_spec (be16 x1 x2) 8); [discriminate|].
    intros [= <-]. exists x, x1, x2, (x3 :: x4 :: x5 :: x6 :: x7 :: x8 :: x9 :: x10 :: b). cbn [h2_msgtype h2_length h2_teid length is_some].
    repeat split; auto; try contradiction; lia.
Qed.
