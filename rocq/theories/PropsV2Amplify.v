(* PropsV2Amplify.v - C80: how much a GTPv2-C packet can make a receiver hold. *)
From Verif Require Import Base BaseFacts V2Base V2BaseFacts V2Decoder V2IeSpec V2WireSpec V2DecFacts V2DeclFacts V2DecMore V2DecLoop V2IeFacts V2IeEFacts V2Forward V2Amplify V2Volume PropsV2Ie.
Local Open Scope N_scope.

(* --- specification --------------------------------------------------------------------------------------------------- *)
(* The type codes of the groups: Bearer Context, PDN Connection, Overload Control Information, Load Control Information, Remote
   UE Context, SCEF PDN Connection, V2X Information, PC5 QoS Parameters, PGW Change Info *)
Definition group_codes : list N := [93; 109; 180; 181; 191; 195; 208; 209; 214].
Definition type_octet (b : list N) : N := nth 0 b 0.
(* the octets of the first element after its header *)
Definition contents (b : list N) : list N := firstn (N.to_nat (256 * nth 1 b 0 + nth 2 b 0)) (skipn 4 b).
(* [decodes m b k]: in reading the octets [b], [k] elements are decoded, those inside groups included. *)
Inductive decodes (m : mode) : list N -> nat -> Prop :=
| decodes_end : decodes m [] 0
| decodes_plain b e n k : decode_one (decoder m) m b = Ok e -> ~ In (type_octet b) group_codes -> ie_len m e = Ok n ->
    decodes m (skipn n b) k -> decodes m b (S k)
| decodes_group b e n j k : decode_one (decoder m) m b = Ok e -> In (type_octet b) group_codes -> ie_len m e = Ok n ->
    decodes m (contents b) j -> decodes m (skipn n b) k -> decodes m b (S (j + k)).
(* how much there is in elements: the octets it takes to send them *)
Definition volume (l : list ie) : nat := length (concat (map ie_marshal l)).

(* --- proofs ---------------------------------------------------------------------------------------------------------- *)
Lemma group_inv m b e : m = Debug \/ bytes b -> decode_one (decoder m) m b = Ok e -> In (type_octet b) group_codes ->
  exists l, decoder m (contents b) = Ok l /\ ie_len m e = Ok (4 + length (contents b))%nat /\ (4 + length (contents b) <= length b)%nat /\
  forall g, GroupedIe_unmarshal (decoder m) m b = Ok g -> ie_v g = l.
Proof.
  intros BY E T. assert (G : exists g, GroupedIe_unmarshal (decoder m) m b = Ok g /\ sized_by_length e).
  { assert (A : at_ (E:=GTPV2Error) b 0 = Ok (type_octet b)) by (destruct b; [discriminate E|reflexivity]). unfold group_codes in T. cbn [In] in T.
    repeat (destruct T as [T|T]; [rewrite <- T in A|]); [..|destruct T];
    first [rewrite disp_93 in E by exact A|rewrite disp_109 in E by exact A|rewrite disp_180 in E by exact A|rewrite disp_181 in E by exact A|rewrite disp_191 in E by exact A|rewrite disp_195 in E by exact A|rewrite disp_208 in E by exact A|rewrite disp_209 in E by exact A|rewrite disp_214 in E by exact A];
    unfold lift in E; match type of E with bind (?f (decoder m) m b) _ = _ => destruct (f (decoder m) m b) as [x| | |] eqn:X; try discriminate E; unfold f in X end;
    apply Ok_inj in E; subst e; (destruct (GroupedIe_unmarshal (decoder m) m b) as [g| | |]; try discriminate X); exists g; (split; [reflexivity|exact I]). }
  destruct G as (g & G & S). pose proof (decode_one_post (decoder m) m b e E) as [_ L].
  assert (D : declared b = 256 * nth 1 b 0 + nth 2 b 0) by (unfold declared, be16; lia).
  rewrite G. assert (Q : forall l, ie_v g = l -> forall g', Ok (E:=GTPV2Error) g = Ok g' -> ie_v g' = l) by (intros l <- g' X; apply Ok_inj in X; congruence).
  unfold GroupedIe_unmarshal in G. destruct (MIN_IE_SIZE <=? length b)%nat; [|destruct (at_ b 0); discriminate G].
  destruct (at_ b 0); try discriminate G. cbn [bind] in G. pose proof (decode_one_long _ _ _ _ E) as L4. cbv beta in L4.
  rewrite V2IeFacts.hdr4_eq in G by exact L4. apply checked_in in G. unfold end16 in G. apply bind_inv in G as (j & J & G). apply bind_inv in G as (s & S1 & G).
  apply bind_inv in G as (l & DL & G). apply Ok_inj in G. subst g. pose proof (slice_in _ _ _ _ S1) as S2.
  assert (Small : declared b + 4 < 65536 /\ j = N.to_nat (declared b + 4)).
  { apply bind_inv in J as (y & Y & J). apply Ok_inj in J. subst j. unfold add16, ov in Y. destruct (N.ltb_spec (declared b + 4) 65536) as [Z|Z]; [apply Ok_inj in Y; subst y; auto|].
    destruct m; [discriminate Y|]. apply Ok_inj in Y. subst y. exfalso. destruct BY as [BY|BY]; [discriminate BY|].
    assert (B : forall i, nth i b 0 < 256) by (intros i; destruct (nth_in_or_default i b 0) as [X|X]; [exact (proj1 (Forall_forall _ _) BY _ X)|rewrite X; reflexivity]).
    pose proof (B 1%nat). pose proof (B 2%nat). replace (declared b + 4) with ((declared b + 4 - 65536) + 1 * 65536) in S2 by lia.
    rewrite N.mod_add in S2 by discriminate. rewrite N.mod_small in S2 by lia. lia. }
  destruct Small as [Small ->].
  assert (C : s = contents b).
  { unfold slice in S1. destruct (_ && _); [|discriminate S1]. apply Ok_inj in S1. subst s. unfold contents. rewrite <- D. f_equal. lia. }
  subst s. exists l. split; [exact DL|].
  assert (LC : length (contents b) = N.to_nat (declared b)) by lia.
  rewrite LC. split; [|split; [lia|exact (Q l eq_refl)]]. rewrite (ie_len_sized m e S) by (rewrite L; lia). rewrite L. reflexivity.
Qed.
Lemma decoder_to m b e n l : b <> [] -> decode_one (decoder m) m b = Ok e -> ie_len m e = Ok n -> (0 < n)%nat -> decoder m (skipn n b) = Ok l -> decoder m b = Ok (e :: l).
Proof.
  intros B E L P R. rewrite decoder_eq. destruct b as [|x b]; [contradiction|]. cbn [length ie_loop]. rewrite E. cbn [bind]. rewrite L. cbn [bind].
  rewrite decoder_eq in R. rewrite (ie_loop_more _ _ _ _ _ (length b) R); [reflexivity|]. rewrite skipn_length. cbn [length]. lia.
Qed.
Lemma sub_skipn n (b : list N) : bytes b -> bytes (skipn n b).
Proof. intros H. unfold bytes in *. rewrite <- (firstn_skipn n b) in H. apply Forall_app in H. apply H. Qed.
Lemma sub_firstn n (b : list N) : bytes b -> bytes (firstn n b).
Proof. intros H. unfold bytes in *. rewrite <- (firstn_skipn n b) in H. apply Forall_app in H. apply H. Qed.
(* areas that are all marked as not being the last *)
Definition words (l : list N) : list N := concat (map (fun i => presence_area_enc (Inapra i) true) l).
Lemma words_length l : length (words l) = (4 * length l)%nat.
Proof. unfold words. induction l as [|i l IH]; [reflexivity|]. cbn [map concat]. rewrite app_length, IH, presence_area_len. cbn [length]. lia. Qed.
Lemma words_loop l : Forall (fun i => i < 2 ^ 24) l -> forall p f, (length l <= f)%nat -> presence_areas_loop f (p ++ words l) (length p) = Ok (map Inapra l).
Proof.
  induction l as [|i l IH]; intros F p f H.
  - assert (Q : (length (p ++ words []) <? length p + 4)%nat = true) by (apply Nat.ltb_lt; rewrite app_length; cbn [words map concat length]; lia).
    destruct f; cbn [presence_areas_loop]; rewrite Q; reflexivity.
  - inversion F as [|? ? A B]; subst. cbn [length] in H. destruct f as [|f]; [lia|]. cbn [presence_areas_loop].
    change (words (i :: l)) with (presence_area_enc (Inapra i) true ++ words l).
    destruct (Nat.ltb_spec (length (p ++ presence_area_enc (Inapra i) true ++ words l)) (length p + 4)) as [Q|_]; [rewrite !app_length, presence_area_len in Q; lia|].
    destruct (presence_area_rt (Inapra i) true p (words l) _ A eq_refl) as [E (x & E2 & E3)]. rewrite E, E2, !bindOk. cbv beta. rewrite E3.
    rewrite app_assoc. replace (length p + 4)%nat with (length (p ++ presence_area_enc (Inapra i) true)) by (rewrite app_length, presence_area_len; reflexivity).
    rewrite IH by (assumption || lia). reflexivity.
Qed.
Lemma words_app l1 l2 : words (l1 ++ l2) = words l1 ++ words l2.
Proof. unfold words. rewrite map_app, concat_app. reflexivity. Qed.
(* the three words of a block, and the blocks *)
Definition block_words : list N := [11665416; 0; 0].
Fixpoint blocks (k : nat) : list N := match k with O => [] | S k => block_words ++ blocks k end.
Lemma blocks_length k : length (blocks k) = (3 * k)%nat.
Proof. induction k as [|k IH]; [reflexivity|]. cbn [blocks]. rewrite app_length, IH. cbn [block_words length]. lia. Qed.
Lemma blocks_small k : Forall (fun i => i < 2 ^ 24) (blocks k).
Proof. induction k as [|k IH]; [constructor|]. cbn [blocks]. apply Forall_app. split; [|exact IH]. repeat constructor. Qed.
Lemma blocks_read m k : exists e, decode_one (decoder m) m (words (blocks (S k))) = Ok e /\ ie_len m e = Ok 12%nat /\ length (ie_marshal e) = (12 * S k)%nat.
Proof.
  set (w := words (blocks (S k))). assert (W : w = [178; 0; 8; 12; 0; 0; 0; 12; 0; 0; 0; 12] ++ words (blocks k)) by (unfold w; cbn [blocks]; rewrite words_app; reflexivity).
  assert (L : length w = (12 * S k)%nat) by (unfold w; rewrite words_length, blocks_length; lia).
  assert (Q : presence_areas_loop (length w) w 8 = Ok (map Inapra (0 :: blocks k))).
  { rewrite W at 2. change ([178; 0; 8; 12; 0; 0; 0; 12; 0; 0; 0; 12] ++ words (blocks k)) with ([178; 0; 8; 12; 0; 0; 0; 12] ++ words (0 :: blocks k)).
    apply (words_loop (0 :: blocks k)) with (p := [178; 0; 8; 12; 0; 0; 0; 12]); [constructor; [reflexivity|apply blocks_small]|]. cbn [length]. rewrite blocks_length, L. lia. }
  exists (IE_PresenceReportingAreaInformation (std 178 8 12 (mkPrai (Inapra 0) (Some (map Inapra (0 :: blocks k)))))). split; [|split; [reflexivity|]].
  - rewrite disp_178 by (rewrite W; reflexivity). unfold PresenceReportingAreaInformation_unmarshal. rewrite need_ok by (rewrite L; lia).
    assert (H4 : forall A (f : N -> N -> res A), hdr4 w f = f 8 12) by (intros; rewrite W; reflexivity). rewrite H4.
    assert (A4 : presence_area_at w 4 = Ok (Inapra 0)) by (rewrite W; reflexivity). rewrite A4. cbn [bind].
    assert (A7 : at_ (E:=GTPV2Error) w 7 = Ok 12) by (rewrite W; reflexivity). rewrite A7. cbn [bind]. change (bit 12 4) with true. cbv iota.
    rewrite Q. reflexivity.
  - unfold ie_marshal, PresenceReportingAreaInformation_marshal.
    match goal with |- length (marshal_ie ?T ?f ?x) = _ => pose proof (V2Forward.nlen_marshal T f x) as NL end. unfold nlen in NL.
    unfold PresenceReportingAreaInformation_value, std in NL. cbn [ie_v pr_area pr_more] in NL. rewrite presence_areas_len in NL. cbn [length] in NL. rewrite map_length in NL. cbn [length] in NL. rewrite blocks_length in NL. unfold std, PresenceReportingAreaInformation_value. lia.
Qed.

(* --- theorems -------------------------------------------------------------------------------------------------------- *)
(* In a debug build the number of elements that are decoded, at all depths, is at most a quarter of the octets. *)
Theorem C80_elements_partial : forall b l, decoder Debug b = Ok l -> exists k, decodes Debug b k /\ (4 * k <= length b)%nat /\ (length l <= k)%nat.
Proof.
  intros b. remember (length b) as n eqn:Hn. revert b Hn. induction n as [n IH] using lt_wf_ind. intros b Hn l H.
  destruct l as [|e l].
  - destruct b as [|t b]; [exists 0%nat; split; [constructor|split; [cbn; lia|cbn; lia]]|].
    exfalso. rewrite decoder_eq in H. cbn [length ie_loop] in H. destruct (decode_one (decoder Debug) Debug (t :: b)) as [i| | |]; try discriminate H. cbn [bind] in H.
    destruct (ie_len Debug i); try discriminate H. cbn [bind] in H. match type of H with bind ?r _ = _ => destruct r; discriminate H end.
  - destruct (decoder_cons _ _ _ _ H) as (sz & E & L & R). pose proof (decode_one_long _ _ _ _ E) as L4. cbv beta in L4.
    pose proof (ie_len_min Debug e sz (or_introl eq_refl) L) as Lm.
    assert (Sk : length (skipn sz b) = (n - sz)%nat) by (rewrite skipn_length; lia).
    destruct (IH (n - sz)%nat ltac:(lia) (skipn sz b) (eq_sym Sk) l R) as (k & K & B & C).
    destruct (in_dec N.eq_dec (type_octet b) group_codes) as [G|G].
    + destruct (group_inv Debug b e (or_introl eq_refl) E G) as (li & I & LG & F & _). rewrite LG in L. apply Ok_inj in L. subst sz.
      destruct (IH (length (contents b)) ltac:(lia) (contents b) eq_refl li I) as (j & J & BJ & _).
      exists (S (j + k)). split; [exact (decodes_group Debug b e _ j k E G LG J K)|]. cbn [length]. lia.
    + exists (S k). split; [exact (decodes_plain Debug b e _ k E G L K)|]. cbn [length]. lia.
Qed.
(* In both kinds of build, whenever the octets are decoded at all, it is at most the number of octets. *)
Theorem C80_elements_both : forall m b l, bytes b -> decoder m b = Ok l -> exists k, decodes m b k /\ (k <= length b)%nat /\ (length l <= k)%nat.
Proof.
  intros m b. remember (length b) as n eqn:Hn. revert b Hn. induction n as [n IH] using lt_wf_ind. intros b Hn l BY H.
  destruct l as [|e l].
  - destruct b as [|t b]; [exists 0%nat; split; [constructor|split; [cbn; lia|cbn; lia]]|].
    exfalso. rewrite decoder_eq in H. cbn [length ie_loop] in H. destruct (decode_one (decoder m) m (t :: b)) as [i| | |]; try discriminate H. cbn [bind] in H.
    destruct (ie_len m i); try discriminate H. cbn [bind] in H. match type of H with bind ?r _ = _ => destruct r; discriminate H end.
  - destruct (decoder_cons _ _ _ _ H) as (sz & E & L & R). pose proof (decode_one_long _ _ _ _ E) as L4. cbv beta in L4.
    assert (Lm : (1 <= sz)%nat).
    { destruct sz; [|lia]. cbn [skipn] in R. rewrite R in H. apply Ok_inj in H. apply (f_equal (@length ie)) in H. cbn [length] in H. lia. }
    assert (Sk : length (skipn sz b) = (n - sz)%nat) by (rewrite skipn_length; lia).
    destruct (IH (n - sz)%nat ltac:(lia) (skipn sz b) (eq_sym Sk) l (sub_skipn sz b BY) R) as (k & K & B & C).
    destruct (in_dec N.eq_dec (type_octet b) group_codes) as [G|G].
    + destruct (group_inv m b e (or_intror BY) E G) as (li & I & LG & F & _). rewrite LG in L. apply Ok_inj in L. subst sz.
      destruct (IH (length (contents b)) ltac:(lia) (contents b) eq_refl li (sub_firstn _ _ (sub_skipn _ _ BY)) I) as (j & J & BJ & _).
      exists (S (j + k)). split; [exact (decodes_group m b e _ j k E G LG J K)|]. cbn [length]. lia.
    + exists (S k). split; [exact (decodes_plain m b e _ k E G L K)|]. cbn [length]. lia.
Qed.
(* The number is determined by the octets. *)
Theorem C80_count_unique : forall m b k k', decodes m b k -> decodes m b k' -> k = k'.
Proof.
  intros m b k k' D. revert k'. induction D as [|b e n k E G L D IH|b e n j k E G L DJ IHJ D IH]; intros k' D'.
  - inversion D' as [|? ? ? ? E' |? ? ? ? ? E']; [reflexivity|discriminate E'|discriminate E'].
  - inversion D' as [X|? e' n' k1 E' G' L' D1|? e' n' j1 k1 E' G' L' DJ1 D1]; subst; [discriminate E| |contradiction].
    rewrite E in E'. apply Ok_inj in E'. subst e'. rewrite L in L'. apply Ok_inj in L'. subst n'. f_equal. exact (IH _ D1).
  - inversion D' as [X|? e' n' k1 E' G' L' D1|? e' n' j1 k1 E' G' L' DJ1 D1]; subst; [discriminate E|contradiction|].
    rewrite E in E'. apply Ok_inj in E'. subst e'. rewrite L in L'. apply Ok_inj in L'. subst n'. f_equal. f_equal; [exact (IHJ _ DJ1)|exact (IH _ D1)].
Qed.
(* But what the elements hold is not bounded by any multiple of the octets: k copies of twelve octets, each a whole Presence
   Reporting Area Information, are read as k elements that together hold 6k(k+1) octets, since the areas of each are read up to the
   end of the buffer. This is so in both kinds of build. *)
Definition amplifier (k : nat) : list N := concat (repeat [178; 0; 8; 12; 0; 0; 0; 12; 0; 0; 0; 12] k).
Theorem C80_size_refuted : forall m k, length (amplifier k) = (12 * k)%nat /\ bytes (amplifier k) /\
  exists l, decoder m (amplifier k) = Ok l /\ length l = k /\ volume l = (6 * k * (k + 1))%nat.
Proof.
  intros m k. assert (A : amplifier k = words (blocks k)).
  { induction k as [|k IH]; [reflexivity|]. cbn [blocks]. rewrite words_app, <- IH. reflexivity. }
  split; [rewrite A, words_length, blocks_length; lia|]. split.
  { clear A. unfold amplifier. induction k as [|k IH]; [constructor|]. cbn [repeat concat]. apply Forall_app. split; [repeat constructor; reflexivity|exact IH]. }
  rewrite A. clear A. induction k as [|k (l & D & L & V)].
  - exists []. split; [destruct m; reflexivity|]. split; reflexivity.
  - destruct (blocks_read m k) as (e & E & N & M). exists (e :: l). split; [|split; [cbn [length]; lia|]].
    + apply (decoder_to m _ e 12 l); [discriminate|exact E|exact N|lia|]. exact D.
    + unfold volume in *. cbn [map concat]. rewrite app_length, M, V. lia.
Qed.
Theorem C80_linear_refuted : forall m c, exists b l, bytes b /\ decoder m b = Ok l /\ (c * length b < volume l)%nat.
Proof.
  intros m c. destruct (C80_size_refuted m (2 * c + 1)) as (L & B & l & D & _ & V). exists (amplifier (2 * c + 1)), l. split; [exact B|]. split; [exact D|].
  rewrite L, V. nia.
Qed.

(* It is bounded by a quadratic, whatever the octets are and in both kinds of build; in a debug build by a smaller one. Together
   with the last theorem, the square of the octets is the exact order of what a packet can make a receiver hold. *)
Lemma volume_cons e l : volume (e :: l) = (length (ie_marshal e) + volume l)%nat.
Proof. unfold volume. cbn [map concat]. apply app_length. Qed.
Lemma volume_bound m A B K : (A = 1 \/ m = Debug /\ A = 4)%nat -> (8 <= A * K)%nat -> (200 + A * A * K <= A * B)%nat -> (16 <= B)%nat ->
  forall b l, m = Debug \/ bytes b -> decoder m b = Ok l -> (volume l <= K * (length b * length b) + B * length b)%nat.
Proof.
  intros HA HK HB H16 b. remember (length b) as n eqn:Hn. revert b Hn. induction n as [n IH] using lt_wf_ind. intros b Hn l BY H.
  destruct l as [|e l]; [apply Nat.le_0_l|]. rewrite volume_cons.
  destruct (decoder_cons _ _ _ _ H) as (sz & E & L & R). pose proof (decode_one_long _ _ _ _ E) as L4. cbv beta in L4.
  assert (Lm : (A <= sz)%nat).
  { destruct HA as [->|[-> ->]]; [|exact (ie_len_min Debug e sz (or_introl eq_refl) L)]. destruct sz; [|lia]. cbn [skipn] in R. rewrite R in H. apply Ok_inj in H.
    apply (f_equal (@length ie)) in H. cbn [length] in H. lia. }
  assert (A0 : (1 <= A <= 4)%nat) by lia.
  assert (Sk : length (skipn sz b) = (n - sz)%nat) by (rewrite skipn_length; lia).
  pose proof (IH (n - sz)%nat ltac:(lia) (skipn sz b) (eq_sym Sk) l ltac:(destruct BY as [BY|BY]; [left; exact BY|right; apply sub_skipn; exact BY]) R) as V.
  destruct (decode_one_vol _ _ _ _ E) as [P|(T & g & G & P)].
  - unfold vol in P. rewrite <- Hn in P, L4. clear - P V A0 HK HB Lm L4.
    assert (M : (n - sz <= n - A)%nat) by lia. assert (M2 : ((n - sz) * (n - sz) <= (n - A) * (n - A))%nat) by (apply Nat.mul_le_mono; exact M).
    assert (N4 : (4 <= n)%nat) by lia. remember (n - A)%nat as r eqn:Er. assert (Nr : n = (r + A)%nat) by lia. subst n.
    assert (V2 : (volume l <= K * (r * r) + B * r)%nat) by (etransitivity; [exact V|]; apply Nat.add_le_mono; apply Nat.mul_le_mono_l; assumption).
    replace (K * ((r + A) * (r + A)) + B * (r + A))%nat with (K * (r * r) + 2 * (A * K) * r + A * A * K + B * r + A * B)%nat by ring.
    assert (Q1 : (16 * r <= 2 * (A * K) * r)%nat) by (apply Nat.mul_le_mono_r; lia).
    assert (Q2 : (8 * A <= A * A * K)%nat) by (rewrite <- Nat.mul_assoc, (Nat.mul_comm 8 A); apply Nat.mul_le_mono_l; exact HK).
    clear V M M2. generalize dependent (K * (r * r))%nat. generalize dependent (2 * (A * K) * r)%nat. generalize dependent (A * A * K)%nat. generalize dependent (A * B)%nat. generalize dependent (B * r)%nat. intros. lia.
  - destruct (group_inv m b e BY E T) as (li & I & LG & F & Hg). rewrite LG in L. apply Ok_inj in L. subst sz. rewrite (Hg g G) in P.
    pose proof (IH (length (contents b)) ltac:(lia) (contents b) eq_refl li ltac:(destruct BY as [BY|BY]; [left; exact BY|right; unfold contents; apply sub_firstn, sub_skipn; exact BY]) I) as W. change (length (encoder li)) with (volume li) in P.
    remember (length (contents b)) as c eqn:Ec. rewrite <- Hn in F. clear - P V W F H16. remember (n - (4 + c))%nat as r eqn:Er. assert (Nr : n = (r + c + 4)%nat) by lia. subst n.
    replace (K * ((r + c + 4) * (r + c + 4)) + B * (r + c + 4))%nat with (K * (r * r) + K * (c * c) + B * r + B * c + 4 * B + K * (2 * r * c + 8 * r + 8 * c + 16))%nat by ring. lia.
Qed.
Theorem C80_size_bound : forall m b l, bytes b -> decoder m b = Ok l -> (volume l <= 8 * (length b * length b) + 208 * length b)%nat.
Proof. intros m b l B. apply (volume_bound m 1 208 8); [lia|lia|lia|lia|right; exact B]. Qed.
Theorem C80_size_bound_debug : forall b l, decoder Debug b = Ok l -> (volume l <= 2 * (length b * length b) + 60 * length b)%nat.
Proof. intros b l. apply (volume_bound Debug 4 60 2); [right; split; reflexivity|lia|lia|lia|left; reflexivity]. Qed.

(* --- the hypotheses are met ------------------------------------------------------------------------------------------ *)
(* a group with an EBI inside, and a Recovery after it *)
Definition sample80 : list N := [93; 0; 5; 0; 73; 0; 1; 0; 5; 3; 0; 1; 0; 7].
Example sample80_decodes : exists l, decoder Debug sample80 = Ok l /\ length l = 2%nat.
Proof. eexists. split; [vm_compute; reflexivity|reflexivity]. Qed.
Example sample80_count : decodes Debug sample80 3.
Proof.
  eapply (decodes_group Debug sample80 _ _ 1 1); [vm_compute; reflexivity|cbn; tauto|vm_compute; reflexivity| |].
  - eapply decodes_plain; [vm_compute; reflexivity|cbn; intuition discriminate|vm_compute; reflexivity|constructor].
  - eapply decodes_plain; [vm_compute; reflexivity|cbn; intuition discriminate|vm_compute; reflexivity|constructor].
Qed.
(* the bounds are met by something that is not empty: the sample holds 14 octets *)
Example sample80_volume : bytes sample80 /\ exists l, decoder Release sample80 = Ok l /\ volume l = 14%nat.
Proof. split; [repeat constructor|]. eexists. split; [vm_compute; reflexivity|reflexivity]. Qed.
(* a packet's worth of octets, 5460 copies, holds 178 million octets *)
Example amplifier_packet : N.of_nat (12 * N.to_nat 5460) = 65520 /\ 6 * 5460 * (5460 + 1) = 178902360.
Proof. split; [rewrite Nat2N.inj_mul, N2Nat.id; reflexivity|reflexivity]. Qed.

Print Assumptions C80_elements_partial.
Print Assumptions C80_count_unique.
Print Assumptions C80_size_refuted.
Print Assumptions C80_linear_refuted.
Print Assumptions C80_size_bound.
Print Assumptions C80_size_bound_debug.
Print Assumptions C80_elements_both.
