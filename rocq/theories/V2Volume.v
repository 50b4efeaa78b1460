(* V2Volume.v - facts for C80: what an element holds is bounded by a multiple of the octets it was read from. *)
From Verif Require Import Base BaseFacts DigitsFacts V2Base V2BaseFacts V2CommonFacts V2Decoder V2IeSpec V2WireSpec V2DeclFacts V2DecFacts V2DecMore V2DecLoop V2IeBFacts V2IeEFacts V2IeFFacts V2Forward V2Amplify.
From Verif Require V1Amplify.
Local Open Scope N_scope.

(* --- inversions ------------------------------------------------------------------------------------------------------ *)
Lemma bind_inv {A B} (r : res A) (k : A -> res B) y : bind r k = Ok y -> exists x, r = Ok x /\ k x = Ok y.
Proof. destruct r; cbn [bind]; intros H; try discriminate. eauto. Qed.
Lemma need_in {A} b n e (k : res A) x : need b n e k = Ok x -> (n <= length b)%nat /\ k = Ok x.
Proof. unfold need. destruct (Nat.leb_spec n (length b)); [auto|discriminate]. Qed.
Lemma hdr4_in {A} b (k : N -> N -> res A) x : hdr4 b k = Ok x -> exists l i, k l i = Ok x.
Proof. unfold hdr4. intros H. repeat (apply bind_inv in H as (? & _ & H)). eauto. Qed.
Lemma checked_in {A} m l b e (k : res A) x : checked m l b e k = Ok x -> k = Ok x.
Proof. unfold checked. intros H. apply bind_inv in H as (c & _ & H). destruct c; [exact H|discriminate]. Qed.
Lemma orelse_in {A} (r : res A) e x : orelse r e = Ok x -> r = Ok x.
Proof. destruct r; cbn [orelse]; intros H; congruence. Qed.
Lemma slice_in b i j s : @slice GTPV2Error b i j = Ok s -> (i <= j <= length b)%nat /\ length s = (j - i)%nat.
Proof.
  unfold slice. destruct (Nat.leb_spec i j); [|discriminate]. destruct (Nat.leb_spec j (length b)); [|discriminate]. cbn [andb].
  intros E. apply Ok_inj in E. subst s. rewrite firstn_length, skipn_length. lia.
Qed.
Lemma from_in b i s : @slice_from GTPV2Error b i = Ok s -> (i <= length b)%nat /\ length s = (length b - i)%nat.
Proof. unfold slice_from. destruct (Nat.leb_spec i (length b)); [|discriminate]. intros E. apply Ok_inj in E. subst s. rewrite skipn_length. auto. Qed.
Lemma lv_at_in b c e s k : lv_at b c e = Ok (s, k) -> k = (c + 1 + length s)%nat /\ (k <= length b)%nat.
Proof.
  unfold lv_at. intros H. apply bind_inv in H as (l & _ & H). cbv zeta in H. destruct (_ <=? length b)%nat; [|discriminate].
  apply bind_inv in H as (t & T & H). apply Ok_inj in H. injection H as <- <-. apply slice_in in T. lia.
Qed.
Lemma lv_raw_in b c s k : lv_raw b c = Ok (s, k) -> (length s <= length b)%nat.
Proof. unfold lv_raw. intros H. apply bind_inv in H as (l & _ & H). apply bind_inv in H as (t & T & H). apply Ok_inj in H. injection H as <- <-. apply slice_in in T. lia. Qed.

(* --- sizes of what is written ---------------------------------------------------------------------------------------- *)
Lemma marshal_size {A} T (f : A -> list N) x : length (marshal_ie T f x) = (4 + length (f (ie_v x)))%nat.
Proof. reflexivity. Qed.
Lemma lv_size s : length (lv s) = S (length s).
Proof. reflexivity. Qed.
Lemma utf8_size s : (length (utf8 s) <= 4 * length s)%nat.
Proof.
  induction s as [|c s IH]; [apply Nat.le_0_l|]. unfold utf8 in *. cbn [map concat]. rewrite app_length. cbn [length].
  assert (U : (length (utf8_char c) <= 4)%nat) by (unfold utf8_char; repeat match goal with |- context [if ?x then _ else _] => destruct x end; cbn; lia). lia.
Qed.
Lemma utf8_strict_size : forall n s x, (length s <= n)%nat -> utf8_strict s = Some x -> (length x <= length s)%nat.
Proof.
  induction n as [|n IH]; intros s x L E.
  - destruct s; [|cbn in L; lia]. injection E as <-. apply le_n.
  - destruct s as [|c r]; [injection E as <-; apply le_n|]. cbn [length] in L. cbn [utf8_strict] in E.
    assert (O : forall y q z, ocons y (utf8_strict q) = Some z -> (length q <= n)%nat -> (length z <= S (length q))%nat).
    { intros y q z Q Lq. destruct (utf8_strict q) as [w|] eqn:W; cbn [ocons] in Q; [|discriminate]. injection Q as <-. apply IH in W; [|exact Lq]. cbn [length]. lia. }
    repeat match type of E with
    | (if ?b then _ else _) = _ => destruct b
    | match ?l with [] => _ | _ :: _ => _ end = _ => destruct l; cbn [length] in *
    end; try discriminate E; apply O in E; cbn [length] in *; lia.
Qed.
Lemma utf8_or_in s e x : utf8_or s e = Ok x -> (length (utf8 x) <= 4 * length s)%nat.
Proof.
  unfold utf8_or. destruct (utf8_strict s) as [y|] eqn:E; [|discriminate]. intros H. apply Ok_inj in H. subst y.
  apply (utf8_strict_size (length s)) in E; [|lia]. pose proof (utf8_size x). lia.
Qed.
Lemma name_size d s : @labels_decode GTPV2Error d = Ok s -> (length (labels_encode s) <= 4 * length d + 1)%nat.
Proof.
  unfold labels_decode. destruct (labels_loop _ d) as [p| | |] eqn:P; try discriminate. cbn [bind]. intros E. apply Ok_inj in E. subst s.
  apply V1Amplify.labels_loop_len in P as (L & _). rewrite V1Amplify.labels_encode_len. pose proof (utf8_size (removelast p)). rewrite V1Amplify.removelast_len in *. lia.
Qed.
Lemma opt_be_size k o : (length (opt_be k o) <= k)%nat.
Proof. destruct o; cbn [opt_be]; [rewrite enc_be_length|cbn [length]]; lia. Qed.
Lemma enc_be2_size l : length (enc_all (enc_be 2) l) = (2 * length l)%nat.
Proof. unfold enc_all. induction l as [|x l IH]; [reflexivity|]. cbn [map concat]. rewrite app_length, enc_be_length, IH. cbn [length]. lia. Qed.
Lemma chunks16_size : forall n s, (length s <= n)%nat -> (2 * length (chunks16 s) <= length s)%nat.
Proof.
  induction n as [|n IH]; intros s L; [destruct s; [apply le_n|cbn in L; lia]|].
  destruct s as [|x [|y r]]; cbn [chunks16 length] in *; [lia|lia|]. specialize (IH r ltac:(lia)). lia.
Qed.
Lemma enc_chunks_size s : (length (enc_all (enc_be 2) (chunks16 s)) <= length s)%nat.
Proof. rewrite enc_be2_size. apply (chunks16_size (length s)). apply le_n. Qed.
Lemma enc_fixed {A} (enc : A -> list N) k l : (forall x, length (enc x) = k) -> length (enc_all enc l) = (k * length l)%nat.
Proof. intros H. unfold enc_all. induction l as [|x l IH]; [cbn; lia|]. cbn [map concat length]. rewrite app_length, H, IH. lia. Qed.
Lemma enc_firstn {A} (enc : A -> list N) k n l : (forall x, length (enc x) = k) -> (length (enc_all enc (firstn n l)) <= k * length l)%nat.
Proof. intros H. rewrite (enc_fixed enc k) by exact H. rewrite firstn_length. nia. Qed.
Lemma many_inv {A} (dec : list N -> res A) (size : A -> nat) b : forall n c l c', many dec size n b c = Ok (l, c') ->
  length l = n /\ c' = (c + list_sum (map size l))%nat.
Proof.
  induction n as [|n IH]; intros c l c' H; cbn [many] in H.
  - apply Ok_inj in H. injection H as <- <-. cbn. lia.
  - apply bind_inv in H as (t & _ & H). apply bind_inv in H as (x & _ & H). apply bind_inv in H as ([xs k] & M & H). apply Ok_inj in H. injection H as <- <-.
    apply IH in M as (L & ->). cbn [length map]. unfold list_sum. cbn [fold_right]. fold (list_sum (map size xs)). lia.
Qed.
Lemma many_fit {A} (dec : list N -> res A) (size : A -> nat) (enc : A -> list N) b :
  (forall t x, dec t = Ok x -> length (enc x) = size x /\ (size x <= length t)%nat) ->
  forall n c l c', many dec size n b c = Ok (l, c') -> (length (enc_all enc l) <= length b)%nat.
Proof.
  intros D. assert (G : forall n c l c', many dec size n b c = Ok (l, c') -> (c <= length b -> c + length (enc_all enc l) <= length b)%nat).
  { induction n as [|n IH]; intros c l c' H L; cbn [many] in H.
    - apply Ok_inj in H. injection H as <- <-. cbn [enc_all map concat length]. unfold enc_all. cbn. lia.
    - apply bind_inv in H as (t & T & H). apply bind_inv in H as (x & X & H). apply bind_inv in H as ([xs k] & M & H). apply Ok_inj in H. injection H as <- <-.
      apply from_in in T. apply D in X as (X1 & X2). apply IH in M; [|lia]. unfold enc_all in *. cbn [map concat]. rewrite app_length. lia. }
  intros n c l c' H. destruct n as [|n].
  - cbn [many] in H. apply Ok_inj in H. injection H as <- <-. apply Nat.le_0_l.
  - pose proof H as H'. cbn [many] in H'. apply bind_inv in H' as (t & T & _). apply from_in in T. specialize (G _ _ _ _ H ltac:(lia)). lia.
Qed.
Lemma Triplet_fit t x : AuthTriplet_dec t = Ok x -> length (AuthTriplet_enc x) = 28%nat /\ (28 <= length t)%nat.
Proof.
  unfold AuthTriplet_dec. intros H. apply need_in in H as [L H]. apply bind_inv in H as (a & A & H). apply bind_inv in H as (c & C & H). apply bind_inv in H as (d & D & H).
  apply Ok_inj in H. subst x. apply slice_in in A, C, D. unfold AuthTriplet_enc. cbn [at_rand at_sres at_kc]. rewrite !app_length. lia.
Qed.
Lemma Quint_fit t x : AuthQuintuplet_dec t = Ok x -> length (AuthQuintuplet_enc x) = AuthQuintuplet_size x /\ (AuthQuintuplet_size x <= length t)%nat.
Proof.
  unfold AuthQuintuplet_dec. intros H. apply need_in in H as [L H]. apply bind_inv in H as (a & A & H). apply bind_inv in H as ([r c] & C & H). apply need_in in H as [L2 H].
  apply bind_inv in H as (d & D & H). apply bind_inv in H as (f & F & H). apply bind_inv in H as ([g k] & G & H). apply Ok_inj in H. subst x. apply slice_in in A, D, F. apply lv_at_in in C, G.
  unfold AuthQuintuplet_enc, AuthQuintuplet_size. cbn [aq_rand aq_xres aq_ck aq_ik aq_autn]. rewrite !app_length, !lv_size. lia.
Qed.
Lemma Quad_fit t x : AuthQuadruplet_dec t = Ok x -> length (AuthQuadruplet_enc x) = AuthQuadruplet_size x /\ (AuthQuadruplet_size x <= length t)%nat.
Proof.
  unfold AuthQuadruplet_dec. intros H. apply need_in in H as [L H]. apply bind_inv in H as (a & A & H). apply bind_inv in H as ([r c] & C & H).
  apply bind_inv in H as ([g k] & G & H). apply need_in in H as [L2 H]. apply bind_inv in H as (d & D & H). apply Ok_inj in H. subst x. apply slice_in in A, D. apply lv_at_in in C, G.
  unfold AuthQuadruplet_enc, AuthQuadruplet_size. cbn [ad_rand ad_xres ad_autn ad_kasme]. rewrite !app_length, !lv_size. lia.
Qed.
Lemma auth_at_in {A} (dec : list N -> res A) size enc T n b c o k :
  (forall t x, dec t = Ok x -> length (enc x) = size x /\ (size x <= length t)%nat) -> auth_at dec size T n b c = Ok (o, k) -> (length (V2IeD.opt_list enc o) <= length b)%nat.
Proof.
  intros D. unfold auth_at. destruct (n =? 0); [intros H; apply Ok_inj in H; injection H as <- <-; apply Nat.le_0_l|]. destruct (n <=? 5); [|discriminate].
  intros H. apply bind_inv in H as ([l k'] & M & H). apply Ok_inj in H. injection H as <- <-. apply orelse_in in M. exact (many_fit dec size enc b D _ _ _ _ M).
Qed.
Lemma quints_in T n b c o k : auth_at AuthQuintuplet_dec AuthQuintuplet_size T n b c = Ok (o, k) -> (length (V2IeD.opt_list AuthQuintuplet_enc o) <= length b)%nat.
Proof. apply auth_at_in. exact Quint_fit. Qed.
Lemma quads_in T n b c o k : auth_at AuthQuadruplet_dec AuthQuadruplet_size T n b c = Ok (o, k) -> (length (V2IeD.opt_list AuthQuadruplet_enc o) <= length b)%nat.
Proof. apply auth_at_in. exact Quad_fit. Qed.
Lemma trips_in n b c o k : trips_at n b c = Ok (o, k) -> (length (V2IeD.opt_list AuthTriplet_enc o) <= length b)%nat.
Proof.
  unfold trips_at. destruct (n =? 0); [intros H; apply Ok_inj in H; injection H as <- <-; apply Nat.le_0_l|]. destruct (n <=? 5); [|discriminate].
  intros H. apply need_in in H as [_ H]. revert H. apply auth_at_in. exact Triplet_fit.
Qed.
Lemma drx_in i b c o k : drx_at i b c = Ok (o, k) -> (length (opt_oct o) <= 2)%nat.
Proof.
  unfold drx_at. destruct (i && _); intros H; [|apply Ok_inj in H; injection H as <- <-; apply Nat.le_0_l]. apply bind_inv in H as (s & S & H). apply Ok_inj in H. injection H as <- <-.
  apply slice_in in S. unfold opt_oct. lia.
Qed.
Lemma nh_in i b c o n k : nh_at i b c = Ok (o, n, k) -> le (length (match o, n with Some i, Some j => i ++ [N.land j 7] | Some i, None => i ++ [0] | None, _ => [] end)) 33.
Proof.
  unfold nh_at. destruct (i && _); intros H; [|apply Ok_inj in H; injection H as <- <- <-; apply Nat.le_0_l]. apply bind_inv in H as (s & S & H). apply bind_inv in H as (x & _ & H).
  apply Ok_inj in H. injection H as <- <- <-. apply slice_in in S. rewrite app_length. cbn [length]. lia.
Qed.
Lemma opt_ambr_size o : (length (opt_ambr o) <= 8)%nat.
Proof. destruct o as [a|]; unfold opt_ambr; [unfold AmbrMM_enc; rewrite app_length, !enc_be_length|cbn [length]]; lia. Qed.
Lemma cap_in T b c o k : cap_at T b c = Ok (o, k) -> (length (V2IeD.opt_lv o) <= 1 + length b)%nat.
Proof.
  unfold cap_at. intros H. apply bind_inv in H as (l & _ & H). destruct (0 <? l); [|apply Ok_inj in H; injection H as <- <-; unfold V2IeD.opt_lv; cbn [length]; lia].
  apply bind_inv in H as ([s c'] & S & H). apply Ok_inj in H. injection H as <- <-. apply lv_at_in in S. unfold V2IeD.opt_lv. rewrite lv_size. lia.
Qed.
Lemma optlv_in T b c o k : optlv_at T b c = Ok (o, k) -> (length (V2IeD.opt_lv o) <= 1 + length b)%nat.
Proof.
  unfold optlv_at. intros H. apply bind_inv in H as (l & _ & H). destruct (0 <? l); [|apply Ok_inj in H; injection H as <- <-; unfold V2IeD.opt_lv; cbn [length]; lia].
  apply bind_inv in H as ([s c'] & S & H). apply Ok_inj in H. injection H as <- <-. apply lv_at_in in S. unfold V2IeD.opt_lv. rewrite lv_size. lia.
Qed.
Lemma higher_size h : (length (V2IeD.higher_enc h) <= 2)%nat.
Proof. destruct h; cbn; lia. Qed.
Lemma ext_access_size o : (length (ext_access_enc o) <= 2)%nat.
Proof. destruct o; cbn; lia. Qed.
Lemma old_in T i b c o k : old_at T i b c = Ok (o, k) -> (length (match o with Some o => OldEpsSecurityContext_enc o | None => [] end) <= 65)%nat.
Proof.
  unfold old_at. destruct i; intros H; [|apply Ok_inj in H; injection H as <- <-; apply Nat.le_0_l]. apply bind_inv in H as (t & _ & H). apply bind_inv in H as (x & X & H).
  apply Ok_inj in H. injection H as <- <-. apply orelse_in in X. unfold OldEpsSecurityContext_dec in X. apply bind_inv in X as (y & _ & X). cbv zeta in X.
  destruct (_ =? 0); [|destruct (_ =? 1); [|discriminate]]; apply need_in in X as [_ X]; apply bind_inv in X as (s & S & X); apply slice_in in S.
  - apply Ok_inj in X. subst x. unfold OldEpsSecurityContext_enc. cbn [oe_kasme oe_next_hop oe_ncc oe_ksi]. cbn [length]. rewrite app_length. cbn [length]. lia.
  - apply bind_inv in X as (s2 & S2 & X). apply slice_in in S2. apply Ok_inj in X. subst x. unfold OldEpsSecurityContext_enc. cbn [oe_kasme oe_next_hop oe_ncc oe_ksi].
    cbn [length]. rewrite app_length. lia.
Qed.
Lemma rate_fit t x : ApnRateControlStatusMM_dec t = Ok x -> length (ApnRateControlStatusMM_enc x) = ApnRateControlStatusMM_size x.
Proof.
  unfold ApnRateControlStatusMM_dec. intros H. apply need_in in H as [_ H]. apply bind_inv in H as (l & _ & H). apply need_in in H as [_ H]. apply bind_inv in H as (a & _ & H).
  cbv zeta in H. apply need_in in H as [_ H]. apply bind_inv in H as (s & _ & H). apply need_in in H as [_ H].
  apply bind_inv in H as (u & _ & H). apply bind_inv in H as (e & _ & H). apply bind_inv in H as (d & _ & H). apply bind_inv in H as (v & V & H). apply Ok_inj in H. subst x.
  apply slice_in in V. unfold ApnRateControlStatusMM_enc, ApnRateControlStatusMM_size. cbn [rm_apn rm_ul rm_exc rm_dl rm_validity]. rewrite !app_length, !enc_be_length. lia.
Qed.
Lemma rates_loop_in : forall f b c l k, rates_loop f b c = Ok (l, k) -> (c + length (enc_all ApnRateControlStatusMM_enc l) <= length b)%nat.
Proof.
  induction f as [|f IH]; intros b c l k H; [discriminate|]. cbn [rates_loop] in H. apply bind_inv in H as (t & T & H). apply from_in in T.
  destruct (ApnRateControlStatusMM_dec t) as [x| | |] eqn:X; try discriminate.
  - apply bind_inv in H as ([r c'] & R & H). apply Ok_inj in H. injection H as <- <-. apply IH in R. apply rate_fit in X. unfold enc_all in *. cbn [map concat]. rewrite app_length. lia.
  - apply Ok_inj in H. injection H as <- <-. unfold enc_all. cbn. lia.
Qed.
Lemma rates_in T b c o k : rates_at T b c = Ok (o, k) -> (length (rates_enc o) <= 1 + length b)%nat.
Proof.
  unfold rates_at. intros H. apply bind_inv in H as (l & _ & H). destruct (l =? 0); [apply Ok_inj in H; injection H as <- <-; cbn; lia|].
  apply need_in in H as [_ H]. apply bind_inv in H as ([x c'] & R & H). apply Ok_inj in H. injection H as <- <-. apply rates_loop_in in R. unfold rates_enc; cbn [length]. lia.
Qed.
Lemma checked_fit {A} (dec : list N -> res A) s p e b : (s <= S p)%nat -> (forall t x, dec t = Ok x -> p <= length t)%nat ->
  forall n c l k, many_checked dec s e n b c = Ok (l, k) -> (s * length l <= length b + 1)%nat.
Proof.
  intros SP D. assert (G : forall n c l k, many_checked dec s e n b c = Ok (l, k) -> (l = [] \/ c + s * length l <= length b + 1)%nat).
  { induction n as [|n IH]; intros c l k H; cbn [many_checked] in H.
    - apply Ok_inj in H. injection H as <- <-. left. reflexivity.
    - apply need_in in H as [_ H]. apply bind_inv in H as (t & T & H). apply bind_inv in H as (x & X & H). apply bind_inv in H as ([xs k'] & M & H). apply Ok_inj in H. injection H as <- <-.
      right. apply from_in in T. apply orelse_in, D in X. apply IH in M. cbn [length]. destruct M as [->|M]; [cbn [length]; lia|lia]. }
  intros n c l k H. apply G in H as [->|H]; [cbn [length]; lia|lia].
Qed.
Lemma Tai_long t x : Tai_dec t = Ok x -> (5 <= length t)%nat.
Proof. intros H. apply need_in in H. apply H. Qed.
Lemma Rai_long t x : Rai_dec t = Ok x -> (6 <= length t)%nat.
Proof. intros H. apply need_in in H. apply H. Qed.
Lemma Macro_long t x : MacroEnbId_dec t = Ok x -> (6 <= length t)%nat.
Proof. intros H. apply need_in in H. apply H. Qed.
Lemma ExtMacro_long t x : ExtMacroEnbId_dec t = Ok x -> (6 <= length t)%nat.
Proof. intros H. apply need_in in H. apply H. Qed.
Lemma Ecgi_long t x : Ecgi_dec t = Ok x -> (7 <= length t)%nat.
Proof. intros H. apply need_in in H. apply H. Qed.
Lemma Sai_long t x : Sai_dec t = Ok x -> (7 <= length t)%nat.
Proof. intros H. apply need_in in H. apply H. Qed.
Lemma Cgi_long t x : Cgi_dec t = Ok x -> (7 <= length t)%nat.
Proof. intros H. apply need_in in H. apply H. Qed.
Lemma areas_in : forall f b c l, presence_areas_loop f b c = Ok l -> (4 * length l <= length b)%nat.
Proof.
  assert (G : forall f b c l, presence_areas_loop f b c = Ok l -> (l = [] \/ c + 4 * length l <= length b)%nat).
  { induction f as [|f IH]; intros b c l H; cbn [presence_areas_loop] in H; (destruct (Nat.ltb_spec (length b) (c + 4)); [apply Ok_inj in H; subst l; left; reflexivity|]); [discriminate|].
    apply bind_inv in H as (a & _ & H). apply bind_inv in H as (x & _ & H). right. destruct (bit x 4).
    - apply bind_inv in H as (r & R & H). apply Ok_inj in H. subst l. apply IH in R. cbn [length]. destruct R as [->|R]; [cbn [length]; lia|lia].
    - apply Ok_inj in H. subst l. cbn [length]. lia. }
  intros f b c l H. apply G in H as [->|H]; [cbn [length]; lia|lia].
Qed.
Lemma mdt_in : forall f b c l, mdt_plmns_loop f b c = Ok l -> (3 * length l <= length b)%nat.
Proof.
  assert (G : forall f b c l, mdt_plmns_loop f b c = Ok l -> (l = [] \/ c + 3 * length l <= length b)%nat).
  { induction f as [|f IH]; intros b c l H; cbn [mdt_plmns_loop] in H; (destruct (c <? length b)%nat; [|apply Ok_inj in H; subst l; left; reflexivity]); [discriminate|].
    apply need_in in H as [L H]. apply bind_inv in H as (p & _ & H). apply bind_inv in H as (r & R & H). apply Ok_inj in H. subst l. right. apply IH in R. cbn [length]. destruct R as [->|R]; [cbn [length]; lia|lia]. }
  intros f b c l H. apply G in H as [->|H]; [cbn [length]; lia|lia].
Qed.
Lemma loc_enc_size x : (length (loc_enc x) <= 7)%nat.
Proof. destruct x; cbn [loc_enc]; rewrite ?Cgi_size, ?Sai_size, ?Rai_size, ?Tai_size, ?Ecgi_size, ?Lai_size, ?MacroEnbId_size, ?ExtMacroEnbId_size; lia. Qed.
Lemma loc_first_size : forall l f, (length (snd (loc_first f l)) <= 7 * length l)%nat.
Proof.
  induction l as [|x l IH]; intros f; cbn [loc_first]; [apply le_n|]. cbv zeta. pose proof (loc_enc_size x). destruct (_ =? 0).
  - specialize (IH (N.lor f (2 ^ (loc_kind x - 1)))). destruct (loc_first _ l) as [fl o]. cbn [snd length] in *. rewrite app_length. lia.
  - specialize (IH f). cbn [length]. lia.
Qed.
Lemma loc_insert_size x l : length (loc_insert x l) = S (length l).
Proof. induction l as [|y l IH]; [reflexivity|]. cbn [loc_insert]. destruct (key_le _ _); cbn [length]; congruence. Qed.
Lemma loc_sort_size l : length (loc_sort l) = length l.
Proof. induction l as [|y l IH]; [reflexivity|]. cbn [loc_sort]. rewrite loc_insert_size, IH. reflexivity. Qed.
Lemma loc_loop_size : forall o b c l, loc_loop o b c = Ok l -> length l = length o.
Proof.
  induction o as [|k o IH]; intros b c l H; cbn [loc_loop] in H; [apply Ok_inj in H; subst l; reflexivity|].
  apply bind_inv in H as (t & _ & H). apply bind_inv in H as (x & _ & H). apply bind_inv in H as (xs & R & H). apply Ok_inj in H. subst l. cbn [length]. f_equal. exact (IH _ _ _ R).
Qed.
Lemma to_flags_size i : (length (to_flags i) <= 8)%nat.
Proof. unfold to_flags. cbn [filter]. repeat match goal with |- context [if ?c then _ else _] => destruct c end; cbn [length]; lia. Qed.
Lemma uli_in x b c l : loc_loop (to_flags x) b c = Ok l -> (length (Uli_value l) <= 57)%nat.
Proof.
  intros H. apply loc_loop_size in H. pose proof (to_flags_size x). unfold Uli_value. pose proof (loc_first_size (loc_sort l) 0) as F. rewrite loc_sort_size in F.
  destruct (loc_first 0 (loc_sort l)) as [fl o]. cbn [snd length] in *. lia.
Qed.
Lemma amm_in b c o k : amm_field b c = Ok (o, k) -> (length (amm_opt o) <= 1 + length b)%nat.
Proof.
  unfold amm_field. intros H. apply bind_inv in H as (l & _ & H). cbv zeta in H. destruct (0 <? _)%nat; [|apply Ok_inj in H; injection H as <- <-; cbn [amm_opt length]; lia].
  destruct (_ <=? length b)%nat; [|discriminate]. apply bind_inv in H as (s & S & H). apply Ok_inj in H. injection H as <- <-. apply slice_in in S. cbn [amm_opt length]. lia.
Qed.
Lemma multicast_in b c a k : multicast_ip_at b c = Ok (a, k) -> (length (multicast_ip a) <= 17)%nat.
Proof.
  unfold multicast_ip_at. intros H. apply bind_inv in H as (l & _ & H). destruct (l =? 4); [|destruct (l =? 80); [|discriminate]]; apply need_in in H as [_ H];
    apply bind_inv in H as (s & S & H); apply Ok_inj in H; injection H as <- <-; apply slice_in in S; cbn [multicast_ip length]; lia.
Qed.
Lemma opt1_size o : (length (opt1 o) <= 1)%nat.
Proof. destruct o; cbn; lia. Qed.
Lemma user_in f b c o k : user_digits f b c = Ok (o, k) -> (length (V2IeF.opt_lv (opt_map tbcd_encode o)) <= 1 + length b)%nat.
Proof.
  unfold user_digits. destruct f; intros H; [|apply Ok_inj in H; injection H as <- <-; apply Nat.le_0_l]. apply need_in in H as [_ H]. apply bind_inv in H as ([s c'] & S & H).
  apply Ok_inj in H. injection H as <- <-. apply lv_at_in in S. cbn [opt_map]. unfold V2IeF.opt_lv. rewrite lv_size. pose proof (V1Amplify.tbcd_back s). lia.
Qed.
Lemma removelast_short {A} (l : list A) : (length (removelast l) <= length l)%nat.
Proof. induction l as [|x [|y l] IH]; [apply le_n|cbn; lia|]. change (removelast (x :: y :: l)) with (x :: removelast (y :: l)). cbn [length] in *. lia. Qed.
Lemma area_size a k : length (presence_area_enc a k) = 4%nat.
Proof. destruct a; reflexivity. Qed.
Lemma areas_size : forall l, length (presence_areas_enc l) = (4 * length l)%nat.
Proof.
  induction l as [|a [|c l] IH]; [reflexivity|apply area_size|]. change (presence_areas_enc (a :: c :: l)) with (presence_area_enc a true ++ presence_areas_enc (c :: l)).
  rewrite app_length, area_size, IH. cbn [length]. lia.
Qed.
Lemma s1ap_size c : length (s1ap_enc c) = 2%nat.
Proof. destruct c; reflexivity. Qed.
Lemma tliv_size a l i v : length (tliv a l i v) = (4 + length v)%nat.
Proof. reflexivity. Qed.
Lemma source_type_size_le s : (length (source_type_enc s) <= 8)%nat.
Proof.
  destruct s as [v|v|]; cbn [source_type_enc]; [|rewrite CellIdentifier_size; lia|cbn; lia]. unfold SourceRncIdentifier_enc. rewrite !app_length, plmn_len, enc_be_length.
  pose proof (opt_be_size 2 (sr_ext v)). lia.
Qed.
Lemma uli_in' x b c l : loc_loop (to_flags x) b c = Ok l -> (length (let (fl, o) := loc_first 0 (loc_sort l) in fl :: o) <= 57)%nat.
Proof. apply uli_in. Qed.
Lemma ecgis_in e n b c l k : many (fun t => orelse (Ecgi_dec t) e) (fun _ : ecgi => 7%nat) n b c = Ok (l, k) -> (length (enc_all Ecgi_enc l) <= length b)%nat.
Proof. apply many_fit. intros t x H. apply orelse_in, Ecgi_long in H. rewrite Ecgi_size. auto. Qed.
Lemma target_in b t : target_type_dec b = Ok t -> (length (target_type_enc t) <= 20)%nat.
Proof.
  unfold target_type_dec. intros H. apply bind_inv in H as (x & _ & H). apply bind_inv in H as (r & _ & H).
  repeat match type of H with (if ?c then _ else _) = _ => destruct c end; try (unfold tt_of in H; apply bind_inv in H as (y & Y & H); apply orelse_in in Y);
    apply Ok_inj in H; subst t; cbn [target_type_enc]; try (cbn; lia).
  - unfold RncIdentifier_enc. rewrite !app_length, enc_be_length. pose proof (opt_be_size 2 (rn_ext y)). pose proof (removelast_short (Rai_enc (rn_rai y))) as R. rewrite Rai_size in R. lia.
  - unfold MacroEnbIdentifier_enc. rewrite app_length, MacroEnbId_size, enc_be_length. lia.
  - rewrite CellIdentifier_size. lia.
  - unfold MacroEnbIdentifier_enc. rewrite app_length, MacroEnbId_size, enc_be_length. lia.
  - unfold ExtendedMacroEnbIdentifier_enc. rewrite app_length, ExtMacroEnbId_size, enc_be_length. lia.
  - unfold GNbIdentifier_dec in Y. apply need_in in Y as [_ Y]. do 3 apply bind_inv in Y as (? & _ & Y). apply bind_inv in Y as (e & E & Y). apply Ok_inj in Y. subst y. apply slice_in in E.
    unfold GNbIdentifier_enc. cbn [gn_plmn gn_length gn_id gn_etac]. rewrite !app_length, plmn_len, enc_be_length. cbn [length]. lia.
  - unfold MacronGeNbIdentifier_dec in Y. apply need_in in Y as [_ Y]. do 2 apply bind_inv in Y as (? & _ & Y). apply bind_inv in Y as (e & E & Y). apply Ok_inj in Y. subst y. apply slice_in in E.
    unfold MacronGeNbIdentifier_enc. cbn [mn_enb mn_etac]. rewrite app_length, MacroEnbId_size. lia.
  - unfold ExtendedGeNbIdentifier_dec in Y. apply need_in in Y as [_ Y]. do 2 apply bind_inv in Y as (? & _ & Y). apply bind_inv in Y as (e & E & Y). apply Ok_inj in Y. subst y. apply slice_in in E.
    unfold ExtendedGeNbIdentifier_enc. cbn [xn_enb xn_etac]. rewrite app_length, ExtMacroEnbId_size. lia.
  - unfold EnGNbIdentifier_dec in Y. apply need_in in Y as [_ Y]. do 3 apply bind_inv in Y as (? & _ & Y). destruct (bit _ 64); [|discriminate Y]. apply need_in in Y as [_ Y].
    apply bind_inv in Y as (? & _ & Y). destruct (bit _ 128); [|discriminate Y]. apply need_in in Y as [_ Y]. apply bind_inv in Y as (e & E & Y). apply Ok_inj in Y. subst y. apply slice_in in E.
    unfold EnGNbIdentifier_enc. cbn [eg_plmn eg_length eg_id eg_tac eg_etac opt_octets]. rewrite !app_length, plmn_len, enc_be_length. pose proof (opt_be_size 2 (Some x3)). cbn [length]. lia.
Qed.

(* --- every kind --------------------------------------------------------------------------------------------------- *)
Definition vol (b : list N) : nat := (16 * length b + 200)%nat.
Ltac vinv1 :=
  match goal with
  | H : Err _ = Ok _ |- _ => discriminate H
  | H : Panic = Ok _ |- _ => discriminate H
  | H : Diverge = Ok _ |- _ => discriminate H
  | H : need _ _ _ _ = Ok _ |- _ => apply need_in in H as [? H]
  | H : hdr4 _ _ = Ok _ |- _ => apply hdr4_in in H as (? & ? & H); cbv beta in H
  | H : checked _ _ _ _ _ = Ok _ |- _ => apply checked_in in H
  | H : bind _ _ = Ok _ |- _ => apply bind_inv in H as (? & ? & H); cbv beta in H
  | H : orelse _ _ = Ok _ |- _ => apply orelse_in in H
  | H : Ok (_, _, _, _) = Ok _ |- _ => apply Ok_inj in H; injection H; clear H; intros; subst
  | H : Ok (_, _, _) = Ok _ |- _ => apply Ok_inj in H; injection H; clear H; intros; subst
  | H : Ok (_, _) = Ok _ |- _ => apply Ok_inj in H; injection H; clear H; intros; subst
  | H : Ok _ = Ok _ |- _ => apply Ok_inj in H; subst
  | H : (let (_, _) := ?x in _) = Ok _ |- _ => destruct x
  | H : (let _ := _ in _) = Ok _ |- _ => cbv zeta in H
  | H : (if ?c then _ else _) = Ok _ |- _ => destruct c
  | H : @slice _ _ _ _ = Ok _ |- _ => apply slice_in in H
  | H : @slice_from _ _ _ = Ok _ |- _ => apply from_in in H
  | H : lv_at _ _ _ = Ok (_, _) |- _ => apply lv_at_in in H
  | H : lv_raw _ _ = Ok (_, _) |- _ => apply lv_raw_in in H
  | H : utf8_or _ _ = Ok _ |- _ => apply utf8_or_in in H
  | H : labels_decode _ = Ok _ |- _ => apply name_size in H
  | H : cap_at _ _ _ = Ok (_, _) |- _ => apply cap_in in H
  | H : optlv_at _ _ _ = Ok (_, _) |- _ => apply optlv_in in H
  | H : rates_at _ _ _ = Ok (_, _) |- _ => apply rates_in in H
  | H : old_at _ _ _ _ = Ok (_, _) |- _ => apply old_in in H
  | H : nh_at _ _ _ = Ok (_, _, _) |- _ => apply nh_in in H
  | H : drx_at _ _ _ = Ok (_, _) |- _ => apply drx_in in H
  | H : auth_at AuthQuintuplet_dec _ _ _ _ _ = Ok (_, _) |- _ => apply quints_in in H
  | H : auth_at AuthQuadruplet_dec _ _ _ _ _ = Ok (_, _) |- _ => apply quads_in in H
  | H : trips_at _ _ _ = Ok (_, _) |- _ => apply trips_in in H
  | H : presence_areas_loop _ _ _ = Ok _ |- _ => apply areas_in in H
  | H : mdt_plmns_loop _ _ _ = Ok _ |- _ => apply mdt_in in H
  | H : loc_loop (to_flags _) _ _ = Ok _ |- _ => apply uli_in' in H
  | H : amm_field _ _ = Ok (_, _) |- _ => apply amm_in in H
  | H : multicast_ip_at _ _ = Ok (_, _) |- _ => apply multicast_in in H
  | H : user_digits _ _ _ = Ok (_, _) |- _ => apply user_in in H
  | H : many_checked Tai_dec _ _ _ _ _ = Ok (_, _) |- _ => apply (checked_fit Tai_dec 5 5) in H; [|lia|exact Tai_long]
  | H : many_checked Rai_dec _ _ _ _ _ = Ok (_, _) |- _ => apply (checked_fit Rai_dec 7 6) in H; [|lia|exact Rai_long]
  | H : many_checked MacroEnbId_dec _ _ _ _ _ = Ok (_, _) |- _ => apply (checked_fit MacroEnbId_dec 6 6) in H; [|lia|exact Macro_long]
  | H : many_checked ExtMacroEnbId_dec _ _ _ _ _ = Ok (_, _) |- _ => apply (checked_fit ExtMacroEnbId_dec 6 6) in H; [|lia|exact ExtMacro_long]
  | H : many_checked Ecgi_dec _ _ _ _ _ = Ok (_, _) |- _ => apply (checked_fit Ecgi_dec 7 7) in H; [|lia|exact Ecgi_long]
  | H : many_checked Sai_dec _ _ _ _ _ = Ok (_, _) |- _ => apply (checked_fit Sai_dec 7 7) in H; [|lia|exact Sai_long]
  | H : many_checked Cgi_dec _ _ _ _ _ = Ok (_, _) |- _ => apply (checked_fit Cgi_dec 7 7) in H; [|lia|exact Cgi_long]
  | H : many _ _ _ _ _ = Ok (_, _) |- _ => apply ecgis_in in H
  | H : target_type_dec _ = Ok _ |- _ => apply target_in in H
  | H : at_ _ _ = Ok _ |- _ => clear H
  | H : be_at _ _ _ = Ok _ |- _ => clear H
  | H : plmn_at _ _ = Ok _ |- _ => clear H
  | x : (_ * _)%type |- _ => destruct x
  end.
Ltac vproj := cbn [p_mcc p_mnc p_three cgi_plmn cgi_lac cgi_ci sai_plmn sai_lac sai_sac rai_plmn rai_lac rai_rac tai_plmn tai_tac ecgi_plmn ecgi_eci lai_plmn lai_lac me_plmn me_id xe_plmn xe_smenb xe_id at_rand at_sres at_kc aq_rand aq_xres aq_ck aq_ik aq_autn ad_rand ad_xres ad_autn ad_kasme rm_apn rm_ul rm_exc rm_dl rm_validity ax_una ax_gena ax_gana ax_ina ax_ena ax_hnna ax_nbna ax_ecna ex_nruna ex_nrusrna ex_nrna ex_ussrna ex_nrsrna amm_ul amm_dl oe_ksi oe_ncc oe_kasme oe_next_hop af_ics af_vf am_classmark2 am_classmark3 am_codecs ambr_ul ambr_dl ar_ul ar_exc ar_dl ar_validity arc_cap arc_name arp_pci arp_pl arp_pvi bf_asi bf_vind bf_vb bf_ppc bq_pvi bq_pl bq_pci bq_qci bq_maxbr_ul bq_maxbr_dl bq_gbr_ul bq_gbr_dl ca_value ca_pce ca_bce ca_cs ca_offend ctr_tzcr ctr_sncr ci_sgnipdn ci_scnipdn ci_awopdn ci_ihcsi ct_timestamp ct_counter et_unit et_value xt_plmn xt_id xt_events xt_ne xt_depth xt_ifs xt_ip fc_type fc_field fq_qci fq_maxbr_ul fq_maxbr_dl fq_gbr_ul fq_gbr_dl fs_node fs_csid ft_if ft_teid ft_v4 ft_v6 gc_plmn gc_id gu_plmn gu_mmegi gu_mmec gu_mtmsi hc_profiles hc_max_cid i_daf i_dtf i_hi i_dfi i_oi i_isrsi i_israi i_sgwci i_sqci i_uimsi i_cfsi i_crsi i_ps i_pt i_si i_msv i_retloc i_pbic i_srni i_s6af i_s4af i_mbmdt i_israu i_ccrsi i_cprai i_arrl i_ppoff i_ppon i_ppsi i_csfbi i_clii i_cpsr i_nsi i_uasi i_dtci i_bdwi i_psci i_pcri i_aosi i_aopi i_roaai i_epcosi i_cpopci i_pmtsmi i_s11tf i_pnsi i_unaccsi i_wpmsi i_g5snn26 i_reprefi i_g5siwki i_eevrsi i_ltemui i_ltempi i_enbcrsi i_tspcmi i_csrmfi i_mtedtn i_mtedta i_n5gnmi i_g5cnrs i_g5cnri i_s5rho i_ethpdn i_nspusi i_pgwrnsi i_rppcsi i_pgwchi i_sissme i_nsenbi i_idfupf i_emci i_ltemsai i_srtpi i_upipsi i4_prefix i4_ip ml_ul ml_dl mf_msri mf_lmri mm_teid mm_a1 mm_a2 mm_hc sd_seconds sd_days md_job md_meas md_trigger md_interval md_amount md_rsrp md_rsrq md_area md_rrm md_lte md_pos md_plmns e_sec e_ksi e_int e_ciph e_dl e_ul e_kasme e_quads e_quints e_drx e_nh e_ncc e_sambr e_uambr e_ue e_ms e_mei e_access e_old e_vdn e_radio e_ext e_addsec e_nrsec e_rates e_core e_radioid e_ensct g_sec g_cksn g_ciph g_kc g_quints g_drx g_sambr g_uambr g_ue g_ms g_mei g_access g_vdn g_higher t_sec t_cksn t_ciph t_kc t_trips t_drx t_sambr t_uambr t_ue t_ms t_mei t_access t_vdn c_sec c_ksi c_ciph c_int c_gupii c_ck c_ik c_quints c_drx c_sambr c_uambr c_ue c_ms c_mei c_access c_vdn c_higher c_iov d_sec d_ksi d_ck d_ik d_quads d_quints d_drx d_sambr d_uambr d_ue d_ms d_mei d_access d_vdn d_rates q_sec q_ksi q_ciph q_int q_gupii q_ck q_ik q_quints q_drx q_sambr q_uambr q_ue q_ms q_mei q_access q_vdn q_higher q_iov q_ext mx_ref mx_id mx_rmplrt mx_ext mi_nsui mi_nsur mi_nscf mi_ref mi_id mi_reports mi_ext nf_prn nf_mabr nf_ntsr nf_ciot nf_s1un nf_eth nf_mtedt nf_psset ni_name ni_realm pf_ebi pf_id pg_ebi pg_policy p5_pqi p5_gfbr p5_mfbr p5_range pn_nsapi pn_dl pn_ul pn_send pn_recv pa_inapra pa_action pa_prai pa_tai pa_rai pa_macro pa_home pa_ecgi pa_sai pa_cgi pa_ext pr_area pr_more pe_id pe_value ps_plmn ps_cgi rc_nsapi rc_dlg rc_ulg rc_dlp rc_ulp ru_imsi ru_msisdn ru_imei s3_ip s3_gre s3_ebis s1_ebi s1_ip s1_teid rr_irsgw rr_irpgw rr_rat rr_ebi rr_start rr_end rr_dl rr_ul rr_transfer sa_vehicle sa_pedestrian pc_ul pc_dl sg_ip sg_port ce_plmn ce_lac ce_rac ce_ci sr_plmn sr_id sr_ext si_target si_source sp_ext sp_data sn_nanpi sn_msisdn rn_rai rn_id rn_ext mt_enb mt_tac xt_enb xt_tac gn_plmn gn_length gn_id gn_etac mn_enb mn_etac xn_enb xn_etac eg_plmn eg_length eg_id eg_tac eg_etac th_unit th_value th_factor ti_plmn ti_id ti_events ti_ne ti_depth ti_ifs ti_ip tr_plmn tr_id tx_flag tx_id tw_ssid tw_bssid tw_civic tw_plmn tw_name tw_relay tw_circuit tm_mcm tm_scm uc_plmn uc_csgid uc_mode uc_lcsg uc_cmi tz_zone tz_dst wo_eutran wo_utran].
Ltac vsize := repeat (rewrite app_length || rewrite enc_be_length || rewrite plmn_len || rewrite lv_size || rewrite Cgi_size || rewrite Sai_size || rewrite Rai_size || rewrite Tai_size || rewrite Ecgi_size || rewrite Lai_size || rewrite MacroEnbId_size || rewrite ExtMacroEnbId_size || rewrite CellIdentifier_size || rewrite s1ap_size || rewrite areas_size || rewrite tliv_size || cbn [length multicast_ip ip_lv addr_kind opt_octets]).
Ltac vbound :=
  repeat match goal with
  | |- context [length (opt_ambr ?o)] => pose proof (opt_ambr_size o); generalize dependent (length (opt_ambr o)); intros
  | |- context [length (V2IeD.higher_enc ?o)] => pose proof (higher_size o); generalize dependent (length (V2IeD.higher_enc o)); intros
  | |- context [length (ext_access_enc ?o)] => pose proof (ext_access_size o); generalize dependent (length (ext_access_enc o)); intros
  | |- context [length (tbcd_encode (tbcd_decode ?s))] => pose proof (V1Amplify.tbcd_back s); generalize dependent (length (tbcd_encode (tbcd_decode s))); intros
  | |- context [length (utf8 ?o)] => match goal with H : (length (utf8 o) <= _)%nat |- _ => fail 1 | _ => pose proof (utf8_size o) end
  | |- context [length (enc_all (enc_be 2) (chunks16 ?o))] => pose proof (enc_chunks_size o); generalize dependent (length (enc_all (enc_be 2) (chunks16 o))); intros
  | |- context [length (enc_all plmn_enc ?o)] => rewrite (enc_fixed plmn_enc 3 o) by exact plmn_len
  | |- context [length (enc_all Tai_enc (firstn ?n ?o))] => pose proof (enc_firstn Tai_enc 5 n o Tai_size); generalize dependent (length (enc_all Tai_enc (firstn n o))); intros
  | |- context [length (enc_all Rai_enc (firstn ?n ?o))] => pose proof (enc_firstn Rai_enc 7 n o Rai_size); generalize dependent (length (enc_all Rai_enc (firstn n o))); intros
  | |- context [length (enc_all Ecgi_enc (firstn ?n ?o))] => pose proof (enc_firstn Ecgi_enc 7 n o Ecgi_size); generalize dependent (length (enc_all Ecgi_enc (firstn n o))); intros
  | |- context [length (enc_all Sai_enc (firstn ?n ?o))] => pose proof (enc_firstn Sai_enc 7 n o Sai_size); generalize dependent (length (enc_all Sai_enc (firstn n o))); intros
  | |- context [length (enc_all Cgi_enc (firstn ?n ?o))] => pose proof (enc_firstn Cgi_enc 7 n o Cgi_size); generalize dependent (length (enc_all Cgi_enc (firstn n o))); intros
  | |- context [length (enc_all MacroEnbId_enc (firstn ?n ?o))] => pose proof (enc_firstn MacroEnbId_enc 6 n o MacroEnbId_size); generalize dependent (length (enc_all MacroEnbId_enc (firstn n o))); intros
  | |- context [length (enc_all ExtMacroEnbId_enc (firstn ?n ?o))] => pose proof (enc_firstn ExtMacroEnbId_enc 6 n o ExtMacroEnbId_size); generalize dependent (length (enc_all ExtMacroEnbId_enc (firstn n o))); intros
  | |- context [V2IeF.opt_lv (Some ?l)] => change (V2IeF.opt_lv (Some l)) with (lv l); rewrite lv_size
  | |- context [V2IeF.opt_lv None] => change (V2IeF.opt_lv None) with (@nil N); cbn [length]
  | |- context [length (opt1 ?o)] => pose proof (opt1_size o); generalize dependent (length (opt1 o)); intros
  | |- context [length (source_type_enc ?o)] => pose proof (source_type_size_le o); generalize dependent (length (source_type_enc o)); intros
  | |- context [length match ?o with Some i => [i] | None => [] end] => fold (opt1 o)
  | |- context [if ?c then _ else _] => destruct c; vsize
  | |- context [firstn 8 ?l] => pose proof (firstn_le_length 8 l); generalize dependent (length (firstn 8 l)); intros
  | |- context [length (opt_be ?k ?o)] => pose proof (opt_be_size k o); generalize dependent (length (opt_be k o)); intros
  end.
Ltac vol u mm v := unfold u; intros; repeat vinv1; unfold std, vol, mm; (rewrite marshal_size || idtac); cbn [ie_v]; unfold v; vproj; vsize; vbound; cbn [length] in *; lia.
Lemma AbsoluteTimeMbmsDataTransfer_vol m b x : AbsoluteTimeMbmsDataTransfer_unmarshal m b = Ok x -> (length (AbsoluteTimeMbmsDataTransfer_marshal x) <= vol b)%nat.
Proof. vol AbsoluteTimeMbmsDataTransfer_unmarshal AbsoluteTimeMbmsDataTransfer_marshal AbsoluteTimeMbmsDataTransfer_value. Qed.
Lemma ActionIndication_vol m b x : ActionIndication_unmarshal m b = Ok x -> (length (ActionIndication_marshal x) <= vol b)%nat.
Proof. vol ActionIndication_unmarshal ActionIndication_marshal ActionIndication_value. Qed.
Lemma AdditionalFlagsSrvcc_vol m b x : AdditionalFlagsSrvcc_unmarshal m b = Ok x -> (length (AdditionalFlagsSrvcc_marshal x) <= vol b)%nat.
Proof. vol AdditionalFlagsSrvcc_unmarshal AdditionalFlagsSrvcc_marshal AdditionalFlagsSrvcc_value. Qed.
Lemma AdditionalMmContextForSrvcc_vol m b x : AdditionalMmContextForSrvcc_unmarshal m b = Ok x -> (length (AdditionalMmContextForSrvcc_marshal x) <= vol b)%nat.
Proof. vol AdditionalMmContextForSrvcc_unmarshal AdditionalMmContextForSrvcc_marshal AdditionalMmContextForSrvcc_value. Qed.
Lemma AdditionalRrmPolicyIndex_vol m b x : AdditionalRrmPolicyIndex_unmarshal m b = Ok x -> (length (AdditionalRrmPolicyIndex_marshal x) <= vol b)%nat.
Proof. vol AdditionalRrmPolicyIndex_unmarshal AdditionalRrmPolicyIndex_marshal AdditionalRrmPolicyIndex_value. Qed.
Lemma AlternativeImsi_vol m b x : AlternativeImsi_unmarshal m b = Ok x -> (length (AlternativeImsi_marshal x) <= vol b)%nat.
Proof. vol AlternativeImsi_unmarshal AlternativeImsi_marshal AlternativeImsi_value. Qed.
Lemma Ambr_vol m b x : Ambr_unmarshal m b = Ok x -> (length (Ambr_marshal x) <= vol b)%nat.
Proof. vol Ambr_unmarshal Ambr_marshal Ambr_value. Qed.
Lemma Apco_vol m b x : Apco_unmarshal m b = Ok x -> (length (Apco_marshal x) <= vol b)%nat.
Proof. vol Apco_unmarshal Apco_marshal Apco_value. Qed.
Lemma Apn_vol m b x : Apn_unmarshal m b = Ok x -> (length (Apn_marshal x) <= vol b)%nat.
Proof. vol Apn_unmarshal Apn_marshal Apn_value. Qed.
Lemma ApnRateControlStatus_vol m b x : ApnRateControlStatus_unmarshal m b = Ok x -> (length (ApnRateControlStatus_marshal x) <= vol b)%nat.
Proof. vol ApnRateControlStatus_unmarshal ApnRateControlStatus_marshal ApnRateControlStatus_value. Qed.
Lemma ApnRelativeCapacity_vol m b x : ApnRelativeCapacity_unmarshal m b = Ok x -> (length (ApnRelativeCapacity_marshal x) <= vol b)%nat.
Proof. vol ApnRelativeCapacity_unmarshal ApnRelativeCapacity_marshal ApnRelativeCapacity_value. Qed.
Lemma ApnRestriction_vol m b x : ApnRestriction_unmarshal m b = Ok x -> (length (ApnRestriction_marshal x) <= vol b)%nat.
Proof. vol ApnRestriction_unmarshal ApnRestriction_marshal ApnRestriction_value. Qed.
Lemma Arp_vol m b x : Arp_unmarshal m b = Ok x -> (length (Arp_marshal x) <= vol b)%nat.
Proof. vol Arp_unmarshal Arp_marshal Arp_value. Qed.
Lemma BearerFlags_vol m b x : BearerFlags_unmarshal m b = Ok x -> (length (BearerFlags_marshal x) <= vol b)%nat.
Proof. vol BearerFlags_unmarshal BearerFlags_marshal BearerFlags_value. Qed.
Lemma BearerQos_vol m b x : BearerQos_unmarshal m b = Ok x -> (length (BearerQos_marshal x) <= vol b)%nat.
Proof. vol BearerQos_unmarshal BearerQos_marshal BearerQos_value. Qed.
Lemma BearerTft_vol m b x : BearerTft_unmarshal m b = Ok x -> (length (BearerTft_marshal x) <= vol b)%nat.
Proof. vol BearerTft_unmarshal BearerTft_marshal BearerTft_value. Qed.
Lemma BitRate_vol m b x : BitRate_unmarshal m b = Ok x -> (length (BitRate_marshal x) <= vol b)%nat.
Proof. vol BitRate_unmarshal BitRate_marshal BitRate_value. Qed.
Lemma CIoTOptimizationSupportIndication_vol m b x : CIoTOptimizationSupportIndication_unmarshal m b = Ok x -> (length (CIoTOptimizationSupportIndication_marshal x) <= vol b)%nat.
Proof. vol CIoTOptimizationSupportIndication_unmarshal CIoTOptimizationSupportIndication_marshal CIoTOptimizationSupportIndication_value. Qed.
Lemma CSGInformationReportingAction_vol m b x : CSGInformationReportingAction_unmarshal m b = Ok x -> (length (CSGInformationReportingAction_marshal x) <= vol b)%nat.
Proof. vol CSGInformationReportingAction_unmarshal CSGInformationReportingAction_marshal CSGInformationReportingAction_value. Qed.
Lemma Cause_vol m b x : Cause_unmarshal m b = Ok x -> (length (Cause_marshal x) <= vol b)%nat.
Proof. vol Cause_unmarshal Cause_marshal Cause_value. Qed.
Lemma ChangeReportingAction_vol m b x : ChangeReportingAction_unmarshal m b = Ok x -> (length (ChangeReportingAction_marshal x) <= vol b)%nat.
Proof. vol ChangeReportingAction_unmarshal ChangeReportingAction_marshal ChangeReportingAction_value. Qed.
Lemma ChangeToReportFlags_vol m b x : ChangeToReportFlags_unmarshal m b = Ok x -> (length (ChangeToReportFlags_marshal x) <= vol b)%nat.
Proof. vol ChangeToReportFlags_unmarshal ChangeToReportFlags_marshal ChangeToReportFlags_value. Qed.
Lemma ChannelNeeded_vol m b x : ChannelNeeded_unmarshal m b = Ok x -> (length (ChannelNeeded_marshal x) <= vol b)%nat.
Proof. vol ChannelNeeded_unmarshal ChannelNeeded_marshal ChannelNeeded_value. Qed.
Lemma ChargingCharacteristics_vol m b x : ChargingCharacteristics_unmarshal m b = Ok x -> (length (ChargingCharacteristics_marshal x) <= vol b)%nat.
Proof. vol ChargingCharacteristics_unmarshal ChargingCharacteristics_marshal ChargingCharacteristics_value. Qed.
Lemma ChargingId_vol m b x : ChargingId_unmarshal m b = Ok x -> (length (ChargingId_marshal x) <= vol b)%nat.
Proof. vol ChargingId_unmarshal ChargingId_marshal ChargingId_value. Qed.
Lemma CnOperatorSelectionEntity_vol m b x : CnOperatorSelectionEntity_unmarshal m b = Ok x -> (length (CnOperatorSelectionEntity_marshal x) <= vol b)%nat.
Proof. vol CnOperatorSelectionEntity_unmarshal CnOperatorSelectionEntity_marshal CnOperatorSelectionEntity_value. Qed.
Lemma CompleteRequestMessage_vol m b x : CompleteRequestMessage_unmarshal m b = Ok x -> (length (CompleteRequestMessage_marshal x) <= vol b)%nat.
Proof. vol CompleteRequestMessage_unmarshal CompleteRequestMessage_marshal CompleteRequestMessage_value. Qed.
Lemma Counter_vol m b x : Counter_unmarshal m b = Ok x -> (length (Counter_marshal x) <= vol b)%nat.
Proof. vol Counter_unmarshal Counter_marshal Counter_value. Qed.
Lemma CsgId_vol m b x : CsgId_unmarshal m b = Ok x -> (length (CsgId_marshal x) <= vol b)%nat.
Proof. vol CsgId_unmarshal CsgId_marshal CsgId_value. Qed.
Lemma CsgMembershipIndication_vol m b x : CsgMembershipIndication_unmarshal m b = Ok x -> (length (CsgMembershipIndication_marshal x) <= vol b)%nat.
Proof. vol CsgMembershipIndication_unmarshal CsgMembershipIndication_marshal CsgMembershipIndication_value. Qed.
Lemma DelayValue_vol m b x : DelayValue_unmarshal m b = Ok x -> (length (DelayValue_marshal x) <= vol b)%nat.
Proof. vol DelayValue_unmarshal DelayValue_marshal DelayValue_value. Qed.
Lemma DetachType_vol m b x : DetachType_unmarshal m b = Ok x -> (length (DetachType_marshal x) <= vol b)%nat.
Proof. vol DetachType_unmarshal DetachType_marshal DetachType_value. Qed.
Lemma Ebi_vol m b x : Ebi_unmarshal m b = Ok x -> (length (Ebi_marshal x) <= vol b)%nat.
Proof. vol Ebi_unmarshal Ebi_marshal Ebi_value. Qed.
Lemma EcgiList_vol m b x : EcgiList_unmarshal m b = Ok x -> (length (EcgiList_marshal x) <= vol b)%nat.
Proof. vol EcgiList_unmarshal EcgiList_marshal EcgiList_value. Qed.
Lemma EmlppPriority_vol m b x : EmlppPriority_unmarshal m b = Ok x -> (length (EmlppPriority_marshal x) <= vol b)%nat.
Proof. vol EmlppPriority_unmarshal EmlppPriority_marshal EmlppPriority_value. Qed.
Lemma EpcTimer_vol m b x : EpcTimer_unmarshal m b = Ok x -> (length (EpcTimer_marshal x) <= vol b)%nat.
Proof. vol EpcTimer_unmarshal EpcTimer_marshal EpcTimer_value. Qed.
Lemma Epco_vol m b x : Epco_unmarshal m b = Ok x -> (length (Epco_marshal x) <= vol b)%nat.
Proof. vol Epco_unmarshal Epco_marshal Epco_value. Qed.
Lemma ExtendedTraceInformation_vol m b x : ExtendedTraceInformation_unmarshal m b = Ok x -> (length (ExtendedTraceInformation_marshal x) <= vol b)%nat.
Proof. vol ExtendedTraceInformation_unmarshal ExtendedTraceInformation_marshal ExtendedTraceInformation_value. Qed.
Lemma Fcause_vol m b x : Fcause_unmarshal m b = Ok x -> (length (Fcause_marshal x) <= vol b)%nat.
Proof. vol Fcause_unmarshal Fcause_marshal Fcause_value. Qed.
Lemma Fcontainer_vol m b x : Fcontainer_unmarshal m b = Ok x -> (length (Fcontainer_marshal x) <= vol b)%nat.
Proof. vol Fcontainer_unmarshal Fcontainer_marshal Fcontainer_value. Qed.
Lemma FlowQos_vol m b x : FlowQos_unmarshal m b = Ok x -> (length (FlowQos_marshal x) <= vol b)%nat.
Proof. vol FlowQos_unmarshal FlowQos_marshal FlowQos_value. Qed.
Lemma Fqcsid_vol m b x : Fqcsid_unmarshal m b = Ok x -> (length (Fqcsid_marshal x) <= vol b)%nat.
Proof. vol Fqcsid_unmarshal Fqcsid_marshal Fqcsid_value. Qed.
Lemma Fqdn_vol m b x : Fqdn_unmarshal m b = Ok x -> (length (Fqdn_marshal x) <= vol b)%nat.
Proof. vol Fqdn_unmarshal Fqdn_marshal Fqdn_value. Qed.
Lemma Fteid_vol m b x : Fteid_unmarshal m b = Ok x -> (length (Fteid_marshal x) <= vol b)%nat.
Proof. vol Fteid_unmarshal Fteid_marshal Fteid_value. Qed.
Lemma GlobalCnId_vol m b x : GlobalCnId_unmarshal m b = Ok x -> (length (GlobalCnId_marshal x) <= vol b)%nat.
Proof. vol GlobalCnId_unmarshal GlobalCnId_marshal GlobalCnId_value. Qed.
Lemma GroupId_vol m b x : GroupId_unmarshal m b = Ok x -> (length (GroupId_marshal x) <= vol b)%nat.
Proof. vol GroupId_unmarshal GroupId_marshal GroupId_value. Qed.
Lemma Guti_vol m b x : Guti_unmarshal m b = Ok x -> (length (Guti_marshal x) <= vol b)%nat.
Proof. vol Guti_unmarshal Guti_marshal Guti_value. Qed.
Lemma HeaderCompressionConfiguration_vol m b x : HeaderCompressionConfiguration_unmarshal m b = Ok x -> (length (HeaderCompressionConfiguration_marshal x) <= vol b)%nat.
Proof. vol HeaderCompressionConfiguration_unmarshal HeaderCompressionConfiguration_marshal HeaderCompressionConfiguration_value. Qed.
Lemma HenbInfoReporting_vol m b x : HenbInfoReporting_unmarshal m b = Ok x -> (length (HenbInfoReporting_marshal x) <= vol b)%nat.
Proof. vol HenbInfoReporting_unmarshal HenbInfoReporting_marshal HenbInfoReporting_value. Qed.
Lemma HopCounter_vol m b x : HopCounter_unmarshal m b = Ok x -> (length (HopCounter_marshal x) <= vol b)%nat.
Proof. vol HopCounter_unmarshal HopCounter_marshal HopCounter_value. Qed.
Lemma Imsi_vol m b x : Imsi_unmarshal m b = Ok x -> (length (Imsi_marshal x) <= vol b)%nat.
Proof. vol Imsi_unmarshal Imsi_marshal Imsi_value. Qed.
Lemma Indication_vol m b x : Indication_unmarshal m b = Ok x -> (length (Indication_marshal x) <= vol b)%nat.
Proof. vol Indication_unmarshal Indication_marshal Indication_value. Qed.
Lemma IntegerNumber_vol m b x : IntegerNumber_unmarshal m b = Ok x -> (length (IntegerNumber_marshal x) <= vol b)%nat.
Proof. vol IntegerNumber_unmarshal IntegerNumber_marshal IntegerNumber_value. Qed.
Lemma Ip4Cp_vol m b x : Ip4Cp_unmarshal m b = Ok x -> (length (Ip4Cp_marshal x) <= vol b)%nat.
Proof. vol Ip4Cp_unmarshal Ip4Cp_marshal Ip4Cp_value. Qed.
Lemma IpAddress_vol m b x : IpAddress_unmarshal m b = Ok x -> (length (IpAddress_marshal x) <= vol b)%nat.
Proof. vol IpAddress_unmarshal IpAddress_marshal IpAddress_value. Qed.
Lemma Ldn_vol m b x : Ldn_unmarshal m b = Ok x -> (length (Ldn_marshal x) <= vol b)%nat.
Proof. vol Ldn_unmarshal Ldn_marshal Ldn_value. Qed.
Lemma MappedUeUsageType_vol m b x : MappedUeUsageType_unmarshal m b = Ok x -> (length (MappedUeUsageType_marshal x) <= vol b)%nat.
Proof. vol MappedUeUsageType_unmarshal MappedUeUsageType_marshal MappedUeUsageType_value. Qed.
Lemma MaxPacketLossRate_vol m b x : MaxPacketLossRate_unmarshal m b = Ok x -> (length (MaxPacketLossRate_marshal x) <= vol b)%nat.
Proof. vol MaxPacketLossRate_unmarshal MaxPacketLossRate_marshal MaxPacketLossRate_value. Qed.
Lemma MbmsDistributionAck_vol m b x : MbmsDistributionAck_unmarshal m b = Ok x -> (length (MbmsDistributionAck_marshal x) <= vol b)%nat.
Proof. vol MbmsDistributionAck_unmarshal MbmsDistributionAck_marshal MbmsDistributionAck_value. Qed.
Lemma MbmsFlags_vol m b x : MbmsFlags_unmarshal m b = Ok x -> (length (MbmsFlags_marshal x) <= vol b)%nat.
Proof. vol MbmsFlags_unmarshal MbmsFlags_marshal MbmsFlags_value. Qed.
Lemma MbmsFlowId_vol m b x : MbmsFlowId_unmarshal m b = Ok x -> (length (MbmsFlowId_marshal x) <= vol b)%nat.
Proof. vol MbmsFlowId_unmarshal MbmsFlowId_marshal MbmsFlowId_value. Qed.
Lemma MbmsIpMulticastDistribution_vol m b x : MbmsIpMulticastDistribution_unmarshal m b = Ok x -> (length (MbmsIpMulticastDistribution_marshal x) <= vol b)%nat.
Proof. vol MbmsIpMulticastDistribution_unmarshal MbmsIpMulticastDistribution_marshal MbmsIpMulticastDistribution_value. Qed.
Lemma MbmsServiceArea_vol m b x : MbmsServiceArea_unmarshal m b = Ok x -> (length (MbmsServiceArea_marshal x) <= vol b)%nat.
Proof. vol MbmsServiceArea_unmarshal MbmsServiceArea_marshal MbmsServiceArea_value. Qed.
Lemma MbmsSessionDuration_vol m b x : MbmsSessionDuration_unmarshal m b = Ok x -> (length (MbmsSessionDuration_marshal x) <= vol b)%nat.
Proof. vol MbmsSessionDuration_unmarshal MbmsSessionDuration_marshal MbmsSessionDuration_value. Qed.
Lemma MbmsSessionId_vol m b x : MbmsSessionId_unmarshal m b = Ok x -> (length (MbmsSessionId_marshal x) <= vol b)%nat.
Proof. vol MbmsSessionId_unmarshal MbmsSessionId_marshal MbmsSessionId_value. Qed.
Lemma MbmsTimeToDataTransfer_vol m b x : MbmsTimeToDataTransfer_unmarshal m b = Ok x -> (length (MbmsTimeToDataTransfer_marshal x) <= vol b)%nat.
Proof. vol MbmsTimeToDataTransfer_unmarshal MbmsTimeToDataTransfer_marshal MbmsTimeToDataTransfer_value. Qed.
Lemma MdtConfiguration_vol m b x : MdtConfiguration_unmarshal m b = Ok x -> (length (MdtConfiguration_marshal x) <= vol b)%nat.
Proof. vol MdtConfiguration_unmarshal MdtConfiguration_marshal MdtConfiguration_value. Qed.
Lemma Mei_vol m b x : Mei_unmarshal m b = Ok x -> (length (Mei_marshal x) <= vol b)%nat.
Proof. vol Mei_unmarshal Mei_marshal Mei_value. Qed.
Lemma Metric_vol m b x : Metric_unmarshal m b = Ok x -> (length (Metric_marshal x) <= vol b)%nat.
Proof. vol Metric_unmarshal Metric_marshal Metric_value. Qed.
Lemma MilliSecondTimeStamp_vol m b x : MilliSecondTimeStamp_unmarshal m b = Ok x -> (length (MilliSecondTimeStamp_marshal x) <= vol b)%nat.
Proof. vol MilliSecondTimeStamp_unmarshal MilliSecondTimeStamp_marshal MilliSecondTimeStamp_value. Qed.
Lemma MonitoringEventExtensionInfo_vol m b x : MonitoringEventExtensionInfo_unmarshal m b = Ok x -> (length (MonitoringEventExtensionInfo_marshal x) <= vol b)%nat.
Proof. vol MonitoringEventExtensionInfo_unmarshal MonitoringEventExtensionInfo_marshal MonitoringEventExtensionInfo_value. Qed.
Lemma MonitoringEventInformation_vol m b x : MonitoringEventInformation_unmarshal m b = Ok x -> (length (MonitoringEventInformation_marshal x) <= vol b)%nat.
Proof. vol MonitoringEventInformation_unmarshal MonitoringEventInformation_marshal MonitoringEventInformation_value. Qed.
Lemma Msisdn_vol m b x : Msisdn_unmarshal m b = Ok x -> (length (Msisdn_marshal x) <= vol b)%nat.
Proof. vol Msisdn_unmarshal Msisdn_marshal Msisdn_value. Qed.
Lemma NodeFeatures_vol m b x : NodeFeatures_unmarshal m b = Ok x -> (length (NodeFeatures_marshal x) <= vol b)%nat.
Proof. vol NodeFeatures_unmarshal NodeFeatures_marshal NodeFeatures_value. Qed.
Lemma NodeIdentifier_vol m b x : NodeIdentifier_unmarshal m b = Ok x -> (length (NodeIdentifier_marshal x) <= vol b)%nat.
Proof. vol NodeIdentifier_unmarshal NodeIdentifier_marshal NodeIdentifier_value. Qed.
Lemma NodeNumber_vol m b x : NodeNumber_unmarshal m b = Ok x -> (length (NodeNumber_marshal x) <= vol b)%nat.
Proof. vol NodeNumber_unmarshal NodeNumber_marshal NodeNumber_value. Qed.
Lemma NodeType_vol m b x : NodeType_unmarshal m b = Ok x -> (length (NodeType_marshal x) <= vol b)%nat.
Proof. vol NodeType_unmarshal NodeType_marshal NodeType_value. Qed.
Lemma PC5QosFlow_vol m b x : PC5QosFlow_unmarshal m b = Ok x -> (length (PC5QosFlow_marshal x) <= vol b)%nat.
Proof. vol PC5QosFlow_unmarshal PC5QosFlow_marshal PC5QosFlow_value. Qed.
Lemma PSCellId_vol m b x : PSCellId_unmarshal m b = Ok x -> (length (PSCellId_marshal x) <= vol b)%nat.
Proof. vol PSCellId_unmarshal PSCellId_marshal PSCellId_value. Qed.
Lemma PacketFlowId_vol m b x : PacketFlowId_unmarshal m b = Ok x -> (length (PacketFlowId_marshal x) <= vol b)%nat.
Proof. vol PacketFlowId_unmarshal PacketFlowId_marshal PacketFlowId_value. Qed.
Lemma PagingServiceInfo_vol m b x : PagingServiceInfo_unmarshal m b = Ok x -> (length (PagingServiceInfo_marshal x) <= vol b)%nat.
Proof. vol PagingServiceInfo_unmarshal PagingServiceInfo_marshal PagingServiceInfo_value. Qed.
Lemma Pco_vol m b x : Pco_unmarshal m b = Ok x -> (length (Pco_marshal x) <= vol b)%nat.
Proof. vol Pco_unmarshal Pco_marshal Pco_value. Qed.
Lemma PdnAddressAllocation_vol m b x : PdnAddressAllocation_unmarshal m b = Ok x -> (length (PdnAddressAllocation_marshal x) <= vol b)%nat.
Proof. vol PdnAddressAllocation_unmarshal PdnAddressAllocation_marshal PdnAddressAllocation_value. Qed.
Lemma PdnType_vol m b x : PdnType_unmarshal m b = Ok x -> (length (PdnType_marshal x) <= vol b)%nat.
Proof. vol PdnType_unmarshal PdnType_marshal PdnType_value. Qed.
Lemma PduNumbers_vol m b x : PduNumbers_unmarshal m b = Ok x -> (length (PduNumbers_marshal x) <= vol b)%nat.
Proof. vol PduNumbers_unmarshal PduNumbers_marshal PduNumbers_value. Qed.
Lemma PgwFqdn_vol m b x : PgwFqdn_unmarshal m b = Ok x -> (length (PgwFqdn_marshal x) <= vol b)%nat.
Proof. vol PgwFqdn_unmarshal PgwFqdn_marshal PgwFqdn_value. Qed.
Lemma PlmnId_vol m b x : PlmnId_unmarshal m b = Ok x -> (length (PlmnId_marshal x) <= vol b)%nat.
Proof. vol PlmnId_unmarshal PlmnId_marshal PlmnId_value. Qed.
Lemma PortNumber_vol m b x : PortNumber_unmarshal m b = Ok x -> (length (PortNumber_marshal x) <= vol b)%nat.
Proof. vol PortNumber_unmarshal PortNumber_marshal PortNumber_value. Qed.
Lemma PresenceReportingAreaAction_vol m b x : PresenceReportingAreaAction_unmarshal m b = Ok x -> (length (PresenceReportingAreaAction_marshal x) <= vol b)%nat.
Proof. vol PresenceReportingAreaAction_unmarshal PresenceReportingAreaAction_marshal PresenceReportingAreaAction_value. Qed.
Lemma PresenceReportingAreaInformation_vol m b x : PresenceReportingAreaInformation_unmarshal m b = Ok x -> (length (PresenceReportingAreaInformation_marshal x) <= vol b)%nat.
Proof. vol PresenceReportingAreaInformation_unmarshal PresenceReportingAreaInformation_marshal PresenceReportingAreaInformation_value. Qed.
Lemma PrivateExtension_vol m b x : PrivateExtension_unmarshal m b = Ok x -> (length (PrivateExtension_marshal x) <= vol b)%nat.
Proof. vol PrivateExtension_unmarshal PrivateExtension_marshal PrivateExtension_value. Qed.
Lemma Pti_vol m b x : Pti_unmarshal m b = Ok x -> (length (Pti_marshal x) <= vol b)%nat.
Proof. vol Pti_unmarshal Pti_marshal Pti_value. Qed.
Lemma Ptmsi_vol m b x : Ptmsi_unmarshal m b = Ok x -> (length (Ptmsi_marshal x) <= vol b)%nat.
Proof. vol Ptmsi_unmarshal Ptmsi_marshal Ptmsi_value. Qed.
Lemma PtmsiSignature_vol m b x : PtmsiSignature_unmarshal m b = Ok x -> (length (PtmsiSignature_marshal x) <= vol b)%nat.
Proof. vol PtmsiSignature_unmarshal PtmsiSignature_marshal PtmsiSignature_value. Qed.
Lemma RabContext_vol m b x : RabContext_unmarshal m b = Ok x -> (length (RabContext_marshal x) <= vol b)%nat.
Proof. vol RabContext_unmarshal RabContext_marshal RabContext_value. Qed.
Lemma RanNasCause_vol m b x : RanNasCause_unmarshal m b = Ok x -> (length (RanNasCause_marshal x) <= vol b)%nat.
Proof. vol RanNasCause_unmarshal RanNasCause_marshal RanNasCause_value. Qed.
Lemma RatType_vol m b x : RatType_unmarshal m b = Ok x -> (length (RatType_marshal x) <= vol b)%nat.
Proof. vol RatType_unmarshal RatType_marshal RatType_value. Qed.
Lemma Recovery_vol m b x : Recovery_unmarshal m b = Ok x -> (length (Recovery_marshal x) <= vol b)%nat.
Proof. vol Recovery_unmarshal Recovery_marshal Recovery_value. Qed.
Lemma RemoteUeIpInformation_vol m b x : RemoteUeIpInformation_unmarshal m b = Ok x -> (length (RemoteUeIpInformation_marshal x) <= vol b)%nat.
Proof. vol RemoteUeIpInformation_unmarshal RemoteUeIpInformation_marshal RemoteUeIpInformation_value. Qed.
Lemma RemoteUserId_vol m b x : RemoteUserId_unmarshal m b = Ok x -> (length (RemoteUserId_marshal x) <= vol b)%nat.
Proof. vol RemoteUserId_unmarshal RemoteUserId_marshal RemoteUserId_value. Qed.
Lemma RfspIndex_vol m b x : RfspIndex_unmarshal m b = Ok x -> (length (RfspIndex_marshal x) <= vol b)%nat.
Proof. vol RfspIndex_unmarshal RfspIndex_marshal RfspIndex_value. Qed.
Lemma S103pdf_vol m b x : S103pdf_unmarshal m b = Ok x -> (length (S103pdf_marshal x) <= vol b)%nat.
Proof. vol S103pdf_unmarshal S103pdf_marshal S103pdf_value. Qed.
Lemma S1udf_vol m b x : S1udf_unmarshal m b = Ok x -> (length (S1udf_marshal x) <= vol b)%nat.
Proof. vol S1udf_unmarshal S1udf_marshal S1udf_value. Qed.
Lemma SecondaryRatUsageDataReport_vol m b x : SecondaryRatUsageDataReport_unmarshal m b = Ok x -> (length (SecondaryRatUsageDataReport_marshal x) <= vol b)%nat.
Proof. vol SecondaryRatUsageDataReport_unmarshal SecondaryRatUsageDataReport_marshal SecondaryRatUsageDataReport_value. Qed.
Lemma SelectionMode_vol m b x : SelectionMode_unmarshal m b = Ok x -> (length (SelectionMode_marshal x) <= vol b)%nat.
Proof. vol SelectionMode_unmarshal SelectionMode_marshal SelectionMode_value. Qed.
Lemma ServiceIndicator_vol m b x : ServiceIndicator_unmarshal m b = Ok x -> (length (ServiceIndicator_marshal x) <= vol b)%nat.
Proof. vol ServiceIndicator_unmarshal ServiceIndicator_marshal ServiceIndicator_value. Qed.
Lemma ServicesAuthorized_vol m b x : ServicesAuthorized_unmarshal m b = Ok x -> (length (ServicesAuthorized_marshal x) <= vol b)%nat.
Proof. vol ServicesAuthorized_unmarshal ServicesAuthorized_marshal ServicesAuthorized_value. Qed.
Lemma ServingNetwork_vol m b x : ServingNetwork_unmarshal m b = Ok x -> (length (ServingNetwork_marshal x) <= vol b)%nat.
Proof. vol ServingNetwork_unmarshal ServingNetwork_marshal ServingNetwork_value. Qed.
Lemma ServingPlmnRateControl_vol m b x : ServingPlmnRateControl_unmarshal m b = Ok x -> (length (ServingPlmnRateControl_marshal x) <= vol b)%nat.
Proof. vol ServingPlmnRateControl_unmarshal ServingPlmnRateControl_marshal ServingPlmnRateControl_value. Qed.
Lemma SgiPtpTunnelAddress_vol m b x : SgiPtpTunnelAddress_unmarshal m b = Ok x -> (length (SgiPtpTunnelAddress_marshal x) <= vol b)%nat.
Proof. vol SgiPtpTunnelAddress_unmarshal SgiPtpTunnelAddress_marshal SgiPtpTunnelAddress_value. Qed.
Lemma SourceIdentification_vol m b x : SourceIdentification_unmarshal m b = Ok x -> (length (SourceIdentification_marshal x) <= vol b)%nat.
Proof. vol SourceIdentification_unmarshal SourceIdentification_marshal SourceIdentification_value. Qed.
Lemma SourceRncPdcpContextInfo_vol m b x : SourceRncPdcpContextInfo_unmarshal m b = Ok x -> (length (SourceRncPdcpContextInfo_marshal x) <= vol b)%nat.
Proof. vol SourceRncPdcpContextInfo_unmarshal SourceRncPdcpContextInfo_marshal SourceRncPdcpContextInfo_value. Qed.
Lemma SpecialIEWithTypeExt_vol m b x : SpecialIEWithTypeExt_unmarshal m b = Ok x -> (length (SpecialIEWithTypeExt_marshal x) <= vol b)%nat.
Proof. vol SpecialIEWithTypeExt_unmarshal SpecialIEWithTypeExt_marshal SpecialIEWithTypeExt_value. Qed.
Lemma Spi_vol m b x : Spi_unmarshal m b = Ok x -> (length (Spi_marshal x) <= vol b)%nat.
Proof. vol Spi_unmarshal Spi_marshal Spi_value. Qed.
Lemma Sqn_vol m b x : Sqn_unmarshal m b = Ok x -> (length (Sqn_marshal x) <= vol b)%nat.
Proof. vol Sqn_unmarshal Sqn_marshal Sqn_value. Qed.
Lemma SrvccCause_vol m b x : SrvccCause_unmarshal m b = Ok x -> (length (SrvccCause_marshal x) <= vol b)%nat.
Proof. vol SrvccCause_unmarshal SrvccCause_marshal SrvccCause_value. Qed.
Lemma StnSr_vol m b x : StnSr_unmarshal m b = Ok x -> (length (StnSr_marshal x) <= vol b)%nat.
Proof. vol StnSr_unmarshal StnSr_marshal StnSr_value. Qed.
Lemma TargetIdentification_vol m b x : TargetIdentification_unmarshal m b = Ok x -> (length (TargetIdentification_marshal x) <= vol b)%nat.
Proof. vol TargetIdentification_unmarshal TargetIdentification_marshal TargetIdentification_value. Qed.
Lemma Throttling_vol m b x : Throttling_unmarshal m b = Ok x -> (length (Throttling_marshal x) <= vol b)%nat.
Proof. vol Throttling_unmarshal Throttling_marshal Throttling_value. Qed.
Lemma Tmgi_vol m b x : Tmgi_unmarshal m b = Ok x -> (length (Tmgi_marshal x) <= vol b)%nat.
Proof. vol Tmgi_unmarshal Tmgi_marshal Tmgi_value. Qed.
Lemma Tmsi_vol m b x : Tmsi_unmarshal m b = Ok x -> (length (Tmsi_marshal x) <= vol b)%nat.
Proof. vol Tmsi_unmarshal Tmsi_marshal Tmsi_value. Qed.
Lemma TraceInformation_vol m b x : TraceInformation_unmarshal m b = Ok x -> (length (TraceInformation_marshal x) <= vol b)%nat.
Proof. vol TraceInformation_unmarshal TraceInformation_marshal TraceInformation_value. Qed.
Lemma TraceReference_vol m b x : TraceReference_unmarshal m b = Ok x -> (length (TraceReference_marshal x) <= vol b)%nat.
Proof. vol TraceReference_unmarshal TraceReference_marshal TraceReference_value. Qed.
Lemma TrafficAggregateDescription_vol m b x : TrafficAggregateDescription_unmarshal m b = Ok x -> (length (TrafficAggregateDescription_marshal x) <= vol b)%nat.
Proof. vol TrafficAggregateDescription_unmarshal TrafficAggregateDescription_marshal TrafficAggregateDescription_value. Qed.
Lemma TransactionIdentifier_vol m b x : TransactionIdentifier_unmarshal m b = Ok x -> (length (TransactionIdentifier_marshal x) <= vol b)%nat.
Proof. vol TransactionIdentifier_unmarshal TransactionIdentifier_marshal TransactionIdentifier_value. Qed.
Lemma TwanIdTimeStamp_vol m b x : TwanIdTimeStamp_unmarshal m b = Ok x -> (length (TwanIdTimeStamp_marshal x) <= vol b)%nat.
Proof. vol TwanIdTimeStamp_unmarshal TwanIdTimeStamp_marshal TwanIdTimeStamp_value. Qed.
Lemma Twmi_vol m b x : Twmi_unmarshal m b = Ok x -> (length (Twmi_marshal x) <= vol b)%nat.
Proof. vol Twmi_unmarshal Twmi_marshal Twmi_value. Qed.
Lemma Uci_vol m b x : Uci_unmarshal m b = Ok x -> (length (Uci_marshal x) <= vol b)%nat.
Proof. vol Uci_unmarshal Uci_marshal Uci_value. Qed.
Lemma UeTimeZone_vol m b x : UeTimeZone_unmarshal m b = Ok x -> (length (UeTimeZone_marshal x) <= vol b)%nat.
Proof. vol UeTimeZone_unmarshal UeTimeZone_marshal UeTimeZone_value. Qed.
Lemma Uli_vol m b x : Uli_unmarshal m b = Ok x -> (length (Uli_marshal x) <= vol b)%nat.
Proof. vol Uli_unmarshal Uli_marshal Uli_value. Qed.
Lemma UliTimestamp_vol m b x : UliTimestamp_unmarshal m b = Ok x -> (length (UliTimestamp_marshal x) <= vol b)%nat.
Proof. vol UliTimestamp_unmarshal UliTimestamp_marshal UliTimestamp_value. Qed.
Lemma UpFunctionSelectionIndicationFlags_vol m b x : UpFunctionSelectionIndicationFlags_unmarshal m b = Ok x -> (length (UpFunctionSelectionIndicationFlags_marshal x) <= vol b)%nat.
Proof. vol UpFunctionSelectionIndicationFlags_unmarshal UpFunctionSelectionIndicationFlags_marshal UpFunctionSelectionIndicationFlags_value. Qed.
Lemma UpSecurityPolicy_vol m b x : UpSecurityPolicy_unmarshal m b = Ok x -> (length (UpSecurityPolicy_marshal x) <= vol b)%nat.
Proof. vol UpSecurityPolicy_unmarshal UpSecurityPolicy_marshal UpSecurityPolicy_value. Qed.
Lemma WlanOffloadIndication_vol m b x : WlanOffloadIndication_unmarshal m b = Ok x -> (length (WlanOffloadIndication_marshal x) <= vol b)%nat.
Proof. vol WlanOffloadIndication_unmarshal WlanOffloadIndication_marshal WlanOffloadIndication_value. Qed.
Lemma MmContextGsmKeyTriplets_vol m b x : MmContextGsmKeyTriplets_unmarshal m b = Ok x -> (length (MmContextGsmKeyTriplets_marshal x) <= vol b)%nat.
Proof. vol MmContextGsmKeyTriplets_unmarshal MmContextGsmKeyTriplets_marshal MmContextGsmKeyTriplets_value. Qed.
Lemma MmContextUmtsKeyCipherQuintuplets_vol m b x : MmContextUmtsKeyCipherQuintuplets_unmarshal m b = Ok x -> (length (MmContextUmtsKeyCipherQuintuplets_marshal x) <= vol b)%nat.
Proof. vol MmContextUmtsKeyCipherQuintuplets_unmarshal MmContextUmtsKeyCipherQuintuplets_marshal MmContextUmtsKeyCipherQuintuplets_value. Qed.
Lemma MmContextGsmKeyCipherQuintuplets_vol m b x : MmContextGsmKeyCipherQuintuplets_unmarshal m b = Ok x -> (length (MmContextGsmKeyCipherQuintuplets_marshal x) <= vol b)%nat.
Proof. vol MmContextGsmKeyCipherQuintuplets_unmarshal MmContextGsmKeyCipherQuintuplets_marshal MmContextGsmKeyCipherQuintuplets_value. Qed.
Lemma MmContextUmtsKeyQuintuplets_vol m b x : MmContextUmtsKeyQuintuplets_unmarshal m b = Ok x -> (length (MmContextUmtsKeyQuintuplets_marshal x) <= vol b)%nat.
Proof. vol MmContextUmtsKeyQuintuplets_unmarshal MmContextUmtsKeyQuintuplets_marshal MmContextUmtsKeyQuintuplets_value. Qed.
Lemma MmContextEpsSecurityContextQuadruplets_vol m b x : MmContextEpsSecurityContextQuadruplets_unmarshal m b = Ok x -> (length (MmContextEpsSecurityContextQuadruplets_marshal x) <= vol b)%nat.
Proof. vol MmContextEpsSecurityContextQuadruplets_unmarshal MmContextEpsSecurityContextQuadruplets_marshal MmContextEpsSecurityContextQuadruplets_value. Qed.
Lemma MmContextUmtsKeyQuadrupletsQuintuplets_vol m b x : MmContextUmtsKeyQuadrupletsQuintuplets_unmarshal m b = Ok x -> (length (MmContextUmtsKeyQuadrupletsQuintuplets_marshal x) <= vol b)%nat.
Proof. vol MmContextUmtsKeyQuadrupletsQuintuplets_unmarshal MmContextUmtsKeyQuadrupletsQuintuplets_marshal MmContextUmtsKeyQuadrupletsQuintuplets_value. Qed.

(* --- groups keep members of those they were given ---------------------------------------------------------------------- *)
Definition wt {A} (p : ie -> option A) (c : A -> ie) (e : ie) : nat := match p e with Some k => length (ie_marshal (c k)) | None => 0%nat end.
Lemma encoder_one e : length (encoder [e]) = length (ie_marshal e).
Proof. unfold encoder. cbn [map concat]. rewrite app_nil_r. reflexivity. Qed.
Lemma encoder_cons e l : length (encoder (e :: l)) = (length (ie_marshal e) + length (encoder l))%nat.
Proof. unfold encoder. cbn [map concat]. apply app_length. Qed.
Lemma encoder_size l k : length (encoder (l ++ k)) = (length (encoder l) + length (encoder k))%nat.
Proof. unfold encoder. rewrite map_app, concat_app. apply app_length. Qed.
Lemma weights (ws : list (ie -> nat)) l : (forall e, list_sum (map (fun w => w e) ws) <= length (ie_marshal e))%nat ->
  (list_sum (map (fun w => list_sum (map w l)) ws) <= length (encoder l))%nat.
Proof.
  intros H. induction l as [|e l IH].
  - apply Nat.eq_le_incl. induction ws as [|w ws IHw]; [reflexivity|]. cbn [map list_sum fold_right] in *. apply IHw. intros e. specialize (H e). unfold list_sum in *. cbn [map fold_right] in H. lia.
  - rewrite encoder_cons. specialize (H e). assert (S : list_sum (map (fun w : ie -> nat => list_sum (map w (e :: l))) ws) = (list_sum (map (fun w => w e) ws) + list_sum (map (fun w => list_sum (map w l)) ws))%nat).
    { clear. unfold list_sum. induction ws as [|w ws IH]; [reflexivity|]. cbn [map fold_right] in *. rewrite IH. lia. }
    lia.
Qed.
Section Picks.
  Context {A : Type} (p : ie -> option A) (c : A -> ie).
  Lemma first_w l : (length (encoder (opt_ies c (first_of p l))) <= list_sum (map (wt p c) l))%nat.
  Proof.
    induction l as [|e l IH]; [apply le_n|]. unfold list_sum in *. cbn [first_of map fold_right]. unfold wt at 1. destruct (p e); [cbn [opt_ies]; rewrite encoder_one|]; lia.
  Qed.
  Lemma last_w l : (length (encoder (opt_ies c (last_of p l))) <= list_sum (map (wt p c) l))%nat.
  Proof.
    induction l as [|e l IH]; [apply le_n|]. unfold list_sum in *. cbn [last_of map fold_right]. unfold wt at 1.
    destruct (last_of p l); [|destruct (p e)]; cbn [opt_ies] in *; rewrite ?encoder_one in *; [destruct (p e)| |cbn]; lia.
  Qed.
  Lemma all_w l : (length (encoder (map c (all_of p l))) <= list_sum (map (wt p c) l))%nat.
  Proof.
    induction l as [|e l IH]; [apply le_n|]. unfold list_sum in *. cbn [all_of map fold_right]. unfold wt at 1. destruct (p e); [cbn [map]; rewrite encoder_cons|]; lia.
  Qed.
  Lemma lists_w l : (length (encoder (map c (V2Grouped.opt_list (match last_of p l with Some k => Some [k] | None => None end)))) <= list_sum (map (wt p c) l))%nat.
  Proof. pose proof (last_w l) as H. destruct (last_of p l); exact H. Qed.
  Lemma first_d d l : (length (encoder [c (default d (first_of p l))]) <= length (ie_marshal (c d)) + list_sum (map (wt p c) l))%nat.
  Proof. pose proof (first_w l) as H. rewrite encoder_one. destruct (first_of p l); cbn [default opt_ies] in *; [rewrite encoder_one in H|]; lia. Qed.
  Lemma last_d d l : (length (encoder [c (default d (last_of p l))]) <= length (ie_marshal (c d)) + list_sum (map (wt p c) l))%nat.
  Proof. pose proof (last_w l) as H. rewrite encoder_one. destruct (last_of p l); cbn [default opt_ies] in *; [rewrite encoder_one in H|]; lia. Qed.
End Picks.
Ltac weigh :=
  cbv beta iota delta [map list_sum fold_right wt pick as_AbsoluteTimeMbmsDataTransfer as_ActionIndication as_AdditionalFlagsSrvcc as_AdditionalMmContextForSrvcc as_AdditionalRrmPolicyIndex as_AlternativeImsi as_Apco as_Apn as_ApnAmbr as_ApnRateControlStatus as_ApnRelativeCapacity as_ApnRestriction as_Arp as_BearerContext as_BearerFlags as_BearerQos as_BearerTft as_BitRate as_CIoTOptimizationSupportIndication as_CSGInformationReportingAction as_Cause as_ChangeReportingAction as_ChangeToReportFlags as_ChannelNeeded as_ChargingCharacteristics as_ChargingId as_CnOperatorSelectionEntity as_CompleteRequestMessage as_Counter as_CsgId as_CsgMembershipIndication as_DelayValue as_DetachType as_Ebi as_EcgiList as_EmlppPriority as_EpcTimer as_Epco as_ExtendedTraceInformation as_Fcause as_Fcontainer as_FlowQos as_Fqcsid as_Fqdn as_Fteid as_GlobalCnId as_GroupId as_Guti as_HeaderCompressionConfiguration as_HenbInfoReporting as_HopCounter as_Imsi as_Indication as_IntegerNumber as_Ip4Cp as_IpAddress as_Ldn as_LoadControlInfo as_MappedUeUsageType as_MaxPacketLossRate as_MbmsDistributionAck as_MbmsFlags as_MbmsFlowId as_MbmsIpMulticastDistribution as_MbmsSa as_MbmsSd as_MbmsSessionId as_MbmsTimeToDataTransfer as_MdtConfiguration as_Mei as_Metric as_MilliSecondTimeStamp as_MmContext as_MonitoringEventExtensionInfo as_MonitoringEventInformation as_Msisdn as_NodeFeatures as_NodeIdentifier as_NodeNumber as_NodeType as_OverloadControlInfo as_PC5QosFlow as_PC5QosParameters as_PSCellId as_PacketFlowId as_PagingServiceInfo as_Pco as_PdnAddressAllocation as_PdnConnections as_PdnType as_PduNumbers as_PgwChangeInfo as_PgwFqdn as_PlmnId as_PortNumber as_PresenceReportingAreaAction as_PresenceReportingAreaInformation as_PrivateExtension as_Pti as_Ptmsi as_PtmsiSignature as_RabContext as_RanNasCause as_RatType as_Recovery as_RemoteUeContext as_RemoteUeIpInformation as_RemoteUserId as_RfspIndex as_S103pdf as_S1udf as_ScefPdnConnections as_SecondaryRatUsageDataReport as_SelectionMode as_ServiceIndicator as_ServicesAuthorized as_ServingNetwork as_ServingPlmnRateControl as_SgiPtpTunnelAddress as_SourceIdentification as_SpecialIEWithTypeExt as_Spi as_Sqn as_SrcRncPdcpCtxInfo as_SrvccCause as_StnSr as_TargetIdentification as_Throttling as_Tmgi as_Tmsi as_TraceInformation as_TraceReference as_TrafficAggregateDescription as_TransactionIdentifier as_TwanId as_TwanIdTimeStamp as_Twmi as_Uci as_UeTimeZone as_Uli as_UliTimestamp as_Unknown as_UpFunctionSelectionIndicationFlags as_UpSecurityPolicy as_V2xInformation as_WlanOffloadIndication];
  repeat match goal with |- context [ins_is ?n ?i] => unfold ins_is | |- context [ins_any _] => unfold ins_any | |- context [ins_below ?n ?i] => unfold ins_below end;
  repeat match goal with |- context [(?a =? ?b)%N] => destruct (N.eqb_spec a b) | |- context [(?a <? ?b)%N] => destruct (a <? b)%N end; try (exfalso; congruence); cbv iota; lia.
Ltac defaults :=
  repeat match goal with H : context [length (ie_marshal (?c ?d))] |- _ =>
    match d with Apn_default => idtac | Ebi_default => idtac | Fteid_default => idtac | Ambr_default => idtac | Sqn_default => idtac | Metric_default => idtac | EpcTimer_default => idtac | RemoteUserId_default => idtac | NodeIdentifier_default => idtac end;
    let v := eval vm_compute in (length (ie_marshal (c d))) in change (length (ie_marshal (c d))) with v in H end.
Lemma BearerContext_keep l : (length (encoder (BearerContext_members (BearerContext_from l))) <= 60 + length (encoder l))%nat.
Proof.
  assert (Q : forall e, (list_sum (map (fun w => w e) [wt (pick as_Cause (ins_is 0)) IE_Cause; wt (pick as_Ebi (ins_is 0)) IE_Ebi; wt (pick as_BearerTft (ins_is 0)) IE_BearerTft; wt (pick as_Fteid ins_any) IE_Fteid; wt (pick as_BearerQos (ins_is 0)) IE_BearerQos; wt (pick as_ChargingId (ins_is 0)) IE_ChargingId; wt (pick as_BearerFlags (ins_is 0)) IE_BearerFlags; wt (pick as_Pco (ins_is 0)) IE_Pco; wt (pick as_Apco (ins_is 0)) IE_Apco; wt (pick as_Epco (ins_is 0)) IE_Epco; wt (pick as_MaxPacketLossRate (ins_is 0)) IE_MaxPacketLossRate; wt (pick as_RanNasCause (ins_is 0)) IE_RanNasCause]) <= length (ie_marshal e))%nat) by (intros e; destruct e; weigh).
  apply (weights _ l) in Q. cbn [map list_sum fold_right] in Q. pose proof (first_w (pick as_Cause (ins_is 0)) IE_Cause l); pose proof (first_d (pick as_Ebi (ins_is 0)) IE_Ebi Ebi_default l); pose proof (first_w (pick as_BearerTft (ins_is 0)) IE_BearerTft l); pose proof (all_w (pick as_Fteid ins_any) IE_Fteid l); pose proof (first_w (pick as_BearerQos (ins_is 0)) IE_BearerQos l); pose proof (first_w (pick as_ChargingId (ins_is 0)) IE_ChargingId l); pose proof (first_w (pick as_BearerFlags (ins_is 0)) IE_BearerFlags l); pose proof (first_w (pick as_Pco (ins_is 0)) IE_Pco l); pose proof (first_w (pick as_Apco (ins_is 0)) IE_Apco l); pose proof (first_w (pick as_Epco (ins_is 0)) IE_Epco l); pose proof (first_w (pick as_MaxPacketLossRate (ins_is 0)) IE_MaxPacketLossRate l); pose proof (first_w (pick as_RanNasCause (ins_is 0)) IE_RanNasCause l).
  unfold BearerContext_members, BearerContext_from. cbn [bc_ebi bc_cause bc_tft bc_fteids bc_qos bc_charging bc_flags bc_pco bc_apco bc_epco bc_loss bc_ran bc_bss bc_ti]. rewrite ?encoder_size. defaults. unfold list_sum in *. cbn [map fold_right] in *. lia.
Qed.
Lemma BearerContext_vol dec m b x : BearerContext_unmarshal dec m b = Ok x -> exists g, GroupedIe_unmarshal dec m b = Ok g /\ (length (BearerContext_marshal x) <= 64 + length (encoder (ie_v g)))%nat.
Proof.
  unfold BearerContext_unmarshal. intros H. apply bind_inv in H as (g & G & H). exists g. split; [exact G|].
  assert (E : x = regroup BearerContext_from g) by (cbv zeta in H; repeat match type of H with (if ?c then _ else _) = _ => destruct c; try discriminate H | match ?c with _ => _ end = _ => destruct c; try discriminate H end; apply Ok_inj in H; congruence).
  subst x. unfold BearerContext_marshal. rewrite marshal_size. unfold regroup. cbn [ie_v]. rewrite <- BearerContext_members_value. pose proof (BearerContext_keep (ie_v g)). lia.
Qed.
Lemma LoadControl_keep l : (length (encoder (LoadControl_members (LoadControl_from l))) <= 60 + length (encoder l))%nat.
Proof.
  assert (Q : forall e, (list_sum (map (fun w => w e) [wt (pick as_Sqn ins_any) IE_Sqn; wt (pick as_Metric ins_any) IE_Metric; wt as_ApnRelativeCapacity IE_ApnRelativeCapacity]) <= length (ie_marshal e))%nat) by (intros e; destruct e; weigh).
  apply (weights _ l) in Q. cbn [map list_sum fold_right] in Q. pose proof (last_d (pick as_Sqn ins_any) IE_Sqn Sqn_default l); pose proof (last_d (pick as_Metric ins_any) IE_Metric Metric_default l); pose proof (lists_w as_ApnRelativeCapacity IE_ApnRelativeCapacity l).
  unfold LoadControl_members, LoadControl_from. cbn [lc_sqn lc_metric lc_list]. rewrite ?encoder_size. defaults. unfold list_sum in *. cbn [map fold_right] in *. lia.
Qed.
Lemma LoadControl_vol dec m b x : LoadControl_unmarshal dec m b = Ok x -> exists g, GroupedIe_unmarshal dec m b = Ok g /\ (length (LoadControl_marshal x) <= 64 + length (encoder (ie_v g)))%nat.
Proof.
  unfold LoadControl_unmarshal. intros H. apply bind_inv in H as (g & G & H). exists g. split; [exact G|].
  assert (E : x = regroup LoadControl_from g) by (cbv zeta in H; repeat match type of H with (if ?c then _ else _) = _ => destruct c; try discriminate H | match ?c with _ => _ end = _ => destruct c; try discriminate H end; apply Ok_inj in H; congruence).
  subst x. unfold LoadControl_marshal. rewrite marshal_size. unfold regroup. cbn [ie_v]. rewrite <- LoadControl_members_value. pose proof (LoadControl_keep (ie_v g)). lia.
Qed.
Lemma OverloadControlInfo_keep l : (length (encoder (OverloadControlInfo_members (OverloadControlInfo_from l))) <= 60 + length (encoder l))%nat.
Proof.
  assert (Q : forall e, (list_sum (map (fun w => w e) [wt (pick as_Sqn ins_any) IE_Sqn; wt (pick as_Metric ins_any) IE_Metric; wt (pick as_EpcTimer ins_any) IE_EpcTimer; wt as_Apn IE_Apn]) <= length (ie_marshal e))%nat) by (intros e; destruct e; weigh).
  apply (weights _ l) in Q. cbn [map list_sum fold_right] in Q. pose proof (last_d (pick as_Sqn ins_any) IE_Sqn Sqn_default l); pose proof (last_d (pick as_Metric ins_any) IE_Metric Metric_default l); pose proof (last_d (pick as_EpcTimer ins_any) IE_EpcTimer EpcTimer_default l); pose proof (lists_w as_Apn IE_Apn l).
  unfold OverloadControlInfo_members, OverloadControlInfo_from. cbn [oc_sqn oc_metric oc_validity oc_list]. rewrite ?encoder_size. defaults. unfold list_sum in *. cbn [map fold_right] in *. lia.
Qed.
Lemma OverloadControlInfo_vol dec m b x : OverloadControlInfo_unmarshal dec m b = Ok x -> exists g, GroupedIe_unmarshal dec m b = Ok g /\ (length (OverloadControlInfo_marshal x) <= 64 + length (encoder (ie_v g)))%nat.
Proof.
  unfold OverloadControlInfo_unmarshal. intros H. apply bind_inv in H as (g & G & H). exists g. split; [exact G|].
  assert (E : x = regroup OverloadControlInfo_from g) by (cbv zeta in H; repeat match type of H with (if ?c then _ else _) = _ => destruct c; try discriminate H | match ?c with _ => _ end = _ => destruct c; try discriminate H end; apply Ok_inj in H; congruence).
  subst x. unfold OverloadControlInfo_marshal. rewrite marshal_size. unfold regroup. cbn [ie_v]. rewrite <- OverloadControlInfo_members_value. pose proof (OverloadControlInfo_keep (ie_v g)). lia.
Qed.
Lemma PC5QosParameters_keep l : (length (encoder (PC5QosParameters_members (PC5QosParameters_from l))) <= 60 + length (encoder l))%nat.
Proof.
  assert (Q : forall e, (list_sum (map (fun w => w e) [wt (pick as_PC5QosFlow (ins_is 0)) IE_PC5QosFlow; wt (pick as_BitRate (ins_is 0)) IE_BitRate]) <= length (ie_marshal e))%nat) by (intros e; destruct e; weigh).
  apply (weights _ l) in Q. cbn [map list_sum fold_right] in Q. pose proof (all_w (pick as_PC5QosFlow (ins_is 0)) IE_PC5QosFlow l); pose proof (first_w (pick as_BitRate (ins_is 0)) IE_BitRate l).
  unfold PC5QosParameters_members, PC5QosParameters_from. cbn [p5_flows p5_abrs]. rewrite ?encoder_size. defaults. unfold list_sum in *. cbn [map fold_right] in *. lia.
Qed.
Lemma PC5QosParameters_vol dec m b x : PC5QosParameters_unmarshal dec m b = Ok x -> exists g, GroupedIe_unmarshal dec m b = Ok g /\ (length (PC5QosParameters_marshal x) <= 64 + length (encoder (ie_v g)))%nat.
Proof.
  unfold PC5QosParameters_unmarshal. intros H. apply bind_inv in H as (g & G & H). exists g. split; [exact G|].
  assert (E : x = regroup PC5QosParameters_from g) by (cbv zeta in H; repeat match type of H with (if ?c then _ else _) = _ => destruct c; try discriminate H | match ?c with _ => _ end = _ => destruct c; try discriminate H end; apply Ok_inj in H; congruence).
  subst x. unfold PC5QosParameters_marshal. rewrite marshal_size. unfold regroup. cbn [ie_v]. rewrite <- PC5QosParameters_members_value. pose proof (PC5QosParameters_keep (ie_v g)). lia.
Qed.
Lemma PdnConnections_keep l : (length (encoder (PdnConnections_members (PdnConnections_from l))) <= 60 + length (encoder l))%nat.
Proof.
  assert (Q : forall e, (list_sum (map (fun w => w e) [wt (pick as_Apn (ins_is 0)) IE_Apn; wt (pick as_ApnRestriction (ins_is 0)) IE_ApnRestriction; wt (pick as_SelectionMode (ins_is 0)) IE_SelectionMode; wt (pick as_IpAddress (ins_is 0)) IE_IpAddress; wt (pick as_IpAddress (ins_is 1)) IE_IpAddress; wt (pick as_Ebi (ins_is 0)) IE_Ebi; wt (pick as_Fteid (ins_is 0)) IE_Fteid; wt (pick as_Fqdn (ins_is 0)) IE_Fqdn; wt (pick as_BearerContext (ins_is 0)) IE_BearerContext; wt (pick as_ApnAmbr (ins_is 0)) IE_ApnAmbr; wt (pick as_ChargingCharacteristics (ins_is 0)) IE_ChargingCharacteristics; wt (pick as_ChangeReportingAction (ins_is 0)) IE_ChangeReportingAction; wt (pick as_CSGInformationReportingAction (ins_is 0)) IE_CSGInformationReportingAction; wt (pick as_HenbInfoReporting (ins_is 0)) IE_HenbInfoReporting; wt (pick as_Indication (ins_is 0)) IE_Indication; wt (pick as_Spi (ins_is 0)) IE_Spi; wt (pick as_ChangeToReportFlags (ins_is 0)) IE_ChangeToReportFlags; wt (pick as_Fqdn (ins_is 1)) IE_Fqdn; wt (pick as_PresenceReportingAreaAction (ins_is 0)) IE_PresenceReportingAreaAction; wt (pick as_WlanOffloadIndication (ins_is 0)) IE_WlanOffloadIndication; wt (pick as_RemoteUeContext (ins_is 0)) IE_RemoteUeContext; wt (pick as_PdnType (ins_is 0)) IE_PdnType; wt (pick as_HeaderCompressionConfiguration (ins_is 0)) IE_HeaderCompressionConfiguration]) <= length (ie_marshal e))%nat) by (intros e; destruct e; weigh).
  apply (weights _ l) in Q. cbn [map list_sum fold_right] in Q. pose proof (last_d (pick as_Apn (ins_is 0)) IE_Apn Apn_default l); pose proof (first_w (pick as_ApnRestriction (ins_is 0)) IE_ApnRestriction l); pose proof (first_w (pick as_SelectionMode (ins_is 0)) IE_SelectionMode l); pose proof (first_w (pick as_IpAddress (ins_is 0)) IE_IpAddress l); pose proof (first_w (pick as_IpAddress (ins_is 1)) IE_IpAddress l); pose proof (last_d (pick as_Ebi (ins_is 0)) IE_Ebi Ebi_default l); pose proof (last_d (pick as_Fteid (ins_is 0)) IE_Fteid Fteid_default l); pose proof (first_w (pick as_Fqdn (ins_is 0)) IE_Fqdn l); pose proof (all_w (pick as_BearerContext (ins_is 0)) IE_BearerContext l); pose proof (last_d (pick as_ApnAmbr (ins_is 0)) IE_ApnAmbr Ambr_default l); pose proof (first_w (pick as_ChargingCharacteristics (ins_is 0)) IE_ChargingCharacteristics l); pose proof (first_w (pick as_ChangeReportingAction (ins_is 0)) IE_ChangeReportingAction l); pose proof (first_w (pick as_CSGInformationReportingAction (ins_is 0)) IE_CSGInformationReportingAction l); pose proof (first_w (pick as_HenbInfoReporting (ins_is 0)) IE_HenbInfoReporting l); pose proof (first_w (pick as_Indication (ins_is 0)) IE_Indication l); pose proof (first_w (pick as_Spi (ins_is 0)) IE_Spi l); pose proof (first_w (pick as_ChangeToReportFlags (ins_is 0)) IE_ChangeToReportFlags l); pose proof (first_w (pick as_Fqdn (ins_is 1)) IE_Fqdn l); pose proof (first_w (pick as_PresenceReportingAreaAction (ins_is 0)) IE_PresenceReportingAreaAction l); pose proof (first_w (pick as_WlanOffloadIndication (ins_is 0)) IE_WlanOffloadIndication l); pose proof (all_w (pick as_RemoteUeContext (ins_is 0)) IE_RemoteUeContext l); pose proof (first_w (pick as_PdnType (ins_is 0)) IE_PdnType l); pose proof (first_w (pick as_HeaderCompressionConfiguration (ins_is 0)) IE_HeaderCompressionConfiguration l).
  unfold PdnConnections_members, PdnConnections_from. cbn [pn_apn pn_restriction pn_selection pn_ipv4 pn_ipv6 pn_ebi pn_pgw pn_node_name pn_bearers pn_ambr pn_charging pn_reporting pn_csg pn_henb pn_indication pn_spi pn_report_flags pn_home pn_praa pn_wlan pn_remotes pn_pdn_type pn_compr pn_change pn_policy]. rewrite ?encoder_size. defaults. unfold list_sum in *. cbn [map fold_right] in *. lia.
Qed.
Lemma PdnConnections_vol dec m b x : PdnConnections_unmarshal dec m b = Ok x -> exists g, GroupedIe_unmarshal dec m b = Ok g /\ (length (PdnConnections_marshal x) <= 64 + length (encoder (ie_v g)))%nat.
Proof.
  unfold PdnConnections_unmarshal. intros H. apply bind_inv in H as (g & G & H). exists g. split; [exact G|].
  assert (E : x = regroup PdnConnections_from g) by (cbv zeta in H; repeat match type of H with (if ?c then _ else _) = _ => destruct c; try discriminate H | match ?c with _ => _ end = _ => destruct c; try discriminate H end; apply Ok_inj in H; congruence).
  subst x. unfold PdnConnections_marshal. rewrite marshal_size. unfold regroup. cbn [ie_v]. rewrite <- PdnConnections_members_value. pose proof (PdnConnections_keep (ie_v g)). lia.
Qed.
Lemma PgwChangeInfo_keep l : (length (encoder (PgwChangeInfo_members (PgwChangeInfo_from l))) <= 60 + length (encoder l))%nat.
Proof.
  assert (Q : forall e, (list_sum (map (fun w => w e) [wt (pick as_IpAddress (ins_below 4)) IE_IpAddress; wt (pick as_PgwFqdn (ins_below 2)) IE_PgwFqdn; wt (pick as_Fqcsid (ins_is 0)) IE_Fqcsid; wt (pick as_GroupId (ins_below 2)) IE_GroupId]) <= length (ie_marshal e))%nat) by (intros e; destruct e; weigh).
  apply (weights _ l) in Q. cbn [map list_sum fold_right] in Q. pose proof (all_w (pick as_IpAddress (ins_below 4)) IE_IpAddress l); pose proof (all_w (pick as_PgwFqdn (ins_below 2)) IE_PgwFqdn l); pose proof (all_w (pick as_Fqcsid (ins_is 0)) IE_Fqcsid l); pose proof (all_w (pick as_GroupId (ins_below 2)) IE_GroupId l).
  unfold PgwChangeInfo_members, PgwChangeInfo_from. cbn [pw_fqdns pw_ips pw_fqcsid pw_groupids]. rewrite ?encoder_size. defaults. unfold list_sum in *. cbn [map fold_right] in *. lia.
Qed.
Lemma PgwChangeInfo_vol dec m b x : PgwChangeInfo_unmarshal dec m b = Ok x -> exists g, GroupedIe_unmarshal dec m b = Ok g /\ (length (PgwChangeInfo_marshal x) <= 64 + length (encoder (ie_v g)))%nat.
Proof.
  unfold PgwChangeInfo_unmarshal. intros H. apply bind_inv in H as (g & G & H). exists g. split; [exact G|].
  assert (E : x = regroup PgwChangeInfo_from g) by (cbv zeta in H; repeat match type of H with (if ?c then _ else _) = _ => destruct c; try discriminate H | match ?c with _ => _ end = _ => destruct c; try discriminate H end; apply Ok_inj in H; congruence).
  subst x. unfold PgwChangeInfo_marshal. rewrite marshal_size. unfold regroup. cbn [ie_v]. rewrite <- PgwChangeInfo_members_value. pose proof (PgwChangeInfo_keep (ie_v g)). lia.
Qed.
Lemma RemoteUeContext_keep l : (length (encoder (RemoteUeContext_members (RemoteUeContext_from l))) <= 60 + length (encoder l))%nat.
Proof.
  assert (Q : forall e, (list_sum (map (fun w => w e) [wt (pick as_RemoteUserId ins_any) IE_RemoteUserId; wt (pick as_RemoteUeIpInformation ins_any) IE_RemoteUeIpInformation]) <= length (ie_marshal e))%nat) by (intros e; destruct e; weigh).
  apply (weights _ l) in Q. cbn [map list_sum fold_right] in Q. pose proof (last_d (pick as_RemoteUserId ins_any) IE_RemoteUserId RemoteUserId_default l); pose proof (last_w (pick as_RemoteUeIpInformation ins_any) IE_RemoteUeIpInformation l).
  unfold RemoteUeContext_members, RemoteUeContext_from. cbn [re_user_id re_ue_ip]. rewrite ?encoder_size. defaults. unfold list_sum in *. cbn [map fold_right] in *. lia.
Qed.
Lemma RemoteUeContext_vol dec m b x : RemoteUeContext_unmarshal dec m b = Ok x -> exists g, GroupedIe_unmarshal dec m b = Ok g /\ (length (RemoteUeContext_marshal x) <= 64 + length (encoder (ie_v g)))%nat.
Proof.
  unfold RemoteUeContext_unmarshal. intros H. apply bind_inv in H as (g & G & H). exists g. split; [exact G|].
  assert (E : x = regroup RemoteUeContext_from g) by (cbv zeta in H; repeat match type of H with (if ?c then _ else _) = _ => destruct c; try discriminate H | match ?c with _ => _ end = _ => destruct c; try discriminate H end; apply Ok_inj in H; congruence).
  subst x. unfold RemoteUeContext_marshal. rewrite marshal_size. unfold regroup. cbn [ie_v]. rewrite <- RemoteUeContext_members_value. pose proof (RemoteUeContext_keep (ie_v g)). lia.
Qed.
Lemma ScefPdnConnections_keep l : (length (encoder (ScefPdnConnections_members (ScefPdnConnections_from l))) <= 60 + length (encoder l))%nat.
Proof.
  assert (Q : forall e, (list_sum (map (fun w => w e) [wt (pick as_Apn (ins_is 0)) IE_Apn; wt (pick as_Ebi (ins_is 0)) IE_Ebi; wt (pick as_NodeIdentifier (ins_is 0)) IE_NodeIdentifier]) <= length (ie_marshal e))%nat) by (intros e; destruct e; weigh).
  apply (weights _ l) in Q. cbn [map list_sum fold_right] in Q. pose proof (last_d (pick as_Apn (ins_is 0)) IE_Apn Apn_default l); pose proof (last_d (pick as_Ebi (ins_is 0)) IE_Ebi Ebi_default l); pose proof (last_d (pick as_NodeIdentifier (ins_is 0)) IE_NodeIdentifier NodeIdentifier_default l).
  unfold ScefPdnConnections_members, ScefPdnConnections_from. cbn [sf_apn sf_ebi sf_scef]. rewrite ?encoder_size. defaults. unfold list_sum in *. cbn [map fold_right] in *. lia.
Qed.
Lemma ScefPdnConnections_vol dec m b x : ScefPdnConnections_unmarshal dec m b = Ok x -> exists g, GroupedIe_unmarshal dec m b = Ok g /\ (length (ScefPdnConnections_marshal x) <= 64 + length (encoder (ie_v g)))%nat.
Proof.
  unfold ScefPdnConnections_unmarshal. intros H. apply bind_inv in H as (g & G & H). exists g. split; [exact G|].
  assert (E : x = regroup ScefPdnConnections_from g) by (cbv zeta in H; repeat match type of H with (if ?c then _ else _) = _ => destruct c; try discriminate H | match ?c with _ => _ end = _ => destruct c; try discriminate H end; apply Ok_inj in H; congruence).
  subst x. unfold ScefPdnConnections_marshal. rewrite marshal_size. unfold regroup. cbn [ie_v]. rewrite <- ScefPdnConnections_members_value. pose proof (ScefPdnConnections_keep (ie_v g)). lia.
Qed.
Lemma V2xInformation_keep l : (length (encoder (V2xInformation_members (V2xInformation_from l))) <= 60 + length (encoder l))%nat.
Proof.
  assert (Q : forall e, (list_sum (map (fun w => w e) [wt (pick as_ServicesAuthorized (ins_below 2)) IE_ServicesAuthorized; wt (pick as_BitRate (ins_below 2)) IE_BitRate; wt (pick as_PC5QosParameters (ins_is 0)) IE_PC5QosParameters]) <= length (ie_marshal e))%nat) by (intros e; destruct e; weigh).
  apply (weights _ l) in Q. cbn [map list_sum fold_right] in Q. pose proof (all_w (pick as_ServicesAuthorized (ins_below 2)) IE_ServicesAuthorized l); pose proof (all_w (pick as_BitRate (ins_below 2)) IE_BitRate l); pose proof (first_w (pick as_PC5QosParameters (ins_is 0)) IE_PC5QosParameters l).
  unfold V2xInformation_members, V2xInformation_from. cbn [vx_auth vx_brs vx_qos]. rewrite ?encoder_size. defaults. unfold list_sum in *. cbn [map fold_right] in *. lia.
Qed.
Lemma V2xInformation_vol dec m b x : V2xInformation_unmarshal dec m b = Ok x -> exists g, GroupedIe_unmarshal dec m b = Ok g /\ (length (V2xInformation_marshal x) <= 64 + length (encoder (ie_v g)))%nat.
Proof.
  unfold V2xInformation_unmarshal. intros H. apply bind_inv in H as (g & G & H). exists g. split; [exact G|].
  assert (E : x = regroup V2xInformation_from g) by (cbv zeta in H; repeat match type of H with (if ?c then _ else _) = _ => destruct c; try discriminate H | match ?c with _ => _ end = _ => destruct c; try discriminate H end; apply Ok_inj in H; congruence).
  subst x. unfold V2xInformation_marshal. rewrite marshal_size. unfold regroup. cbn [ie_v]. rewrite <- V2xInformation_members_value. pose proof (V2xInformation_keep (ie_v g)). lia.
Qed.

(* --- one element ------------------------------------------------------------------------------------------------------- *)
Lemma lift_inv {A} (c : A -> ie) r e : lift c r = Ok e -> exists x, r = Ok x /\ e = c x.
Proof. unfold lift. intros H. apply bind_inv in H as (x & X & H). apply Ok_inj in H. eauto. Qed.
Lemma MmContext_vol m b x : MmContext_unmarshal m b = Ok x -> (length (MmContext_marshal x) <= vol b)%nat.
Proof.
  unfold MmContext_unmarshal. intros H. apply bind_inv in H as (t & _ & H).
  repeat match type of H with (if ?c then _ else _) = _ => destruct c end; try discriminate H; apply bind_inv in H as (y & Y & H); apply Ok_inj in H; subst x; unfold MmContext_marshal;
    first [exact (MmContextGsmKeyTriplets_vol _ _ _ Y)|exact (MmContextUmtsKeyCipherQuintuplets_vol _ _ _ Y)|exact (MmContextGsmKeyCipherQuintuplets_vol _ _ _ Y)|exact (MmContextUmtsKeyQuintuplets_vol _ _ _ Y)|exact (MmContextEpsSecurityContextQuadruplets_vol _ _ _ Y)|exact (MmContextUmtsKeyQuadrupletsQuintuplets_vol _ _ _ Y)].
Qed.
Lemma Unknown_vol m b x : Unknown_unmarshal m b = Ok x -> (length (Unknown_marshal x) <= vol b)%nat.
Proof. unfold Unknown_unmarshal. intros H. repeat vinv1; unfold vol, Unknown_marshal; rewrite marshal_size; unfold Unknown_value; cbn [ie_v]; cbn [length] in *; lia. Qed.
Lemma decode_one_vol dec m b e : decode_one dec m b = Ok e ->
  (length (ie_marshal e) <= vol b)%nat \/
  In (nth 0 b 0) [93; 109; 180; 181; 191; 195; 208; 209; 214] /\ exists g, GroupedIe_unmarshal dec m b = Ok g /\ (length (ie_marshal e) <= 64 + length (encoder (ie_v g)))%nat.
Proof.
  unfold decode_one. intros H. apply bind_inv in H as (t & T & H). cbv beta in H. assert (T0 : nth 0 b 0 = t) by (destruct b; [discriminate T|apply Ok_inj in T; exact T]). rewrite T0. clear T T0.
  repeat match type of H with (if ?c then lift _ _ else _) = _ => destruct c eqn:C; [apply lift_inv in H as (x & X & ->)|clear C] end; [..|apply lift_inv in H as (x & X & ->)].
  - left. exact (Imsi_vol _ _ _ X).
  - left. exact (Cause_vol _ _ _ X).
  - left. exact (Recovery_vol _ _ _ X).
  - left. exact (StnSr_vol _ _ _ X).
  - left. exact (SrvccCause_vol _ _ _ X).
  - left. exact (Apn_vol _ _ _ X).
  - left. exact (Ambr_vol _ _ _ X).
  - left. exact (Ebi_vol _ _ _ X).
  - left. exact (IpAddress_vol _ _ _ X).
  - left. exact (Mei_vol _ _ _ X).
  - left. exact (Msisdn_vol _ _ _ X).
  - left. exact (Indication_vol _ _ _ X).
  - left. exact (Pco_vol _ _ _ X).
  - left. exact (PdnAddressAllocation_vol _ _ _ X).
  - left. exact (BearerQos_vol _ _ _ X).
  - left. exact (FlowQos_vol _ _ _ X).
  - left. exact (RatType_vol _ _ _ X).
  - left. exact (ServingNetwork_vol _ _ _ X).
  - left. exact (BearerTft_vol _ _ _ X).
  - left. exact (TrafficAggregateDescription_vol _ _ _ X).
  - left. exact (Uli_vol _ _ _ X).
  - left. exact (Fteid_vol _ _ _ X).
  - left. exact (Tmsi_vol _ _ _ X).
  - left. exact (GlobalCnId_vol _ _ _ X).
  - left. exact (S103pdf_vol _ _ _ X).
  - left. exact (S1udf_vol _ _ _ X).
  - left. exact (DelayValue_vol _ _ _ X).
  - right. apply N.eqb_eq in C. subst t. split; [cbn [In]; tauto|exact (BearerContext_vol _ _ _ _ X)].
  - left. exact (ChargingId_vol _ _ _ X).
  - left. exact (ChargingCharacteristics_vol _ _ _ X).
  - left. exact (TraceInformation_vol _ _ _ X).
  - left. exact (BearerFlags_vol _ _ _ X).
  - left. exact (PdnType_vol _ _ _ X).
  - left. exact (Pti_vol _ _ _ X).
  - left. exact (MmContext_vol _ _ _ X).
  - right. apply N.eqb_eq in C. subst t. split; [cbn [In]; tauto|exact (PdnConnections_vol _ _ _ _ X)].
  - left. exact (PduNumbers_vol _ _ _ X).
  - left. exact (Ptmsi_vol _ _ _ X).
  - left. exact (PtmsiSignature_vol _ _ _ X).
  - left. exact (HopCounter_vol _ _ _ X).
  - left. exact (UeTimeZone_vol _ _ _ X).
  - left. exact (TraceReference_vol _ _ _ X).
  - left. exact (CompleteRequestMessage_vol _ _ _ X).
  - left. exact (Guti_vol _ _ _ X).
  - left. exact (Fcontainer_vol _ _ _ X).
  - left. exact (Fcause_vol _ _ _ X).
  - left. exact (PlmnId_vol _ _ _ X).
  - left. exact (TargetIdentification_vol _ _ _ X).
  - left. exact (PacketFlowId_vol _ _ _ X).
  - left. exact (RabContext_vol _ _ _ X).
  - left. exact (SourceRncPdcpContextInfo_vol _ _ _ X).
  - left. exact (PortNumber_vol _ _ _ X).
  - left. exact (ApnRestriction_vol _ _ _ X).
  - left. exact (SelectionMode_vol _ _ _ X).
  - left. exact (SourceIdentification_vol _ _ _ X).
  - left. exact (ChangeReportingAction_vol _ _ _ X).
  - left. exact (Fqcsid_vol _ _ _ X).
  - left. exact (ChannelNeeded_vol _ _ _ X).
  - left. exact (EmlppPriority_vol _ _ _ X).
  - left. exact (NodeType_vol _ _ _ X).
  - left. exact (Fqdn_vol _ _ _ X).
  - left. exact (TransactionIdentifier_vol _ _ _ X).
  - left. exact (MbmsSessionDuration_vol _ _ _ X).
  - left. exact (MbmsServiceArea_vol _ _ _ X).
  - left. exact (MbmsSessionId_vol _ _ _ X).
  - left. exact (MbmsFlowId_vol _ _ _ X).
  - left. exact (MbmsIpMulticastDistribution_vol _ _ _ X).
  - left. exact (MbmsDistributionAck_vol _ _ _ X).
  - left. exact (RfspIndex_vol _ _ _ X).
  - left. exact (Uci_vol _ _ _ X).
  - left. exact (CSGInformationReportingAction_vol _ _ _ X).
  - left. exact (CsgId_vol _ _ _ X).
  - left. exact (CsgMembershipIndication_vol _ _ _ X).
  - left. exact (ServiceIndicator_vol _ _ _ X).
  - left. exact (DetachType_vol _ _ _ X).
  - left. exact (Ldn_vol _ _ _ X).
  - left. exact (NodeFeatures_vol _ _ _ X).
  - left. exact (MbmsTimeToDataTransfer_vol _ _ _ X).
  - left. exact (Throttling_vol _ _ _ X).
  - left. exact (Arp_vol _ _ _ X).
  - left. exact (EpcTimer_vol _ _ _ X).
  - left. exact (Spi_vol _ _ _ X).
  - left. exact (Tmgi_vol _ _ _ X).
  - left. exact (AdditionalMmContextForSrvcc_vol _ _ _ X).
  - left. exact (AdditionalFlagsSrvcc_vol _ _ _ X).
  - left. exact (MdtConfiguration_vol _ _ _ X).
  - left. exact (Apco_vol _ _ _ X).
  - left. exact (AbsoluteTimeMbmsDataTransfer_vol _ _ _ X).
  - left. exact (HenbInfoReporting_vol _ _ _ X).
  - left. exact (Ip4Cp_vol _ _ _ X).
  - left. exact (ChangeToReportFlags_vol _ _ _ X).
  - left. exact (ActionIndication_vol _ _ _ X).
  - left. exact (ActionIndication_vol _ _ _ X).
  - left. exact (UliTimestamp_vol _ _ _ X).
  - left. exact (MbmsFlags_vol _ _ _ X).
  - left. exact (RanNasCause_vol _ _ _ X).
  - left. exact (CnOperatorSelectionEntity_vol _ _ _ X).
  - left. exact (Twmi_vol _ _ _ X).
  - left. exact (NodeNumber_vol _ _ _ X).
  - left. exact (NodeIdentifier_vol _ _ _ X).
  - left. exact (PresenceReportingAreaAction_vol _ _ _ X).
  - left. exact (PresenceReportingAreaInformation_vol _ _ _ X).
  - left. exact (TwanIdTimeStamp_vol _ _ _ X).
  - right. apply N.eqb_eq in C. subst t. split; [cbn [In]; tauto|exact (OverloadControlInfo_vol _ _ _ _ X)].
  - right. apply N.eqb_eq in C. subst t. split; [cbn [In]; tauto|exact (LoadControl_vol _ _ _ _ X)].
  - left. exact (Metric_vol _ _ _ X).
  - left. exact (Sqn_vol _ _ _ X).
  - left. exact (ApnRelativeCapacity_vol _ _ _ X).
  - left. exact (WlanOffloadIndication_vol _ _ _ X).
  - left. exact (PagingServiceInfo_vol _ _ _ X).
  - left. exact (IntegerNumber_vol _ _ _ X).
  - left. exact (MilliSecondTimeStamp_vol _ _ _ X).
  - left. exact (MonitoringEventInformation_vol _ _ _ X).
  - left. exact (EcgiList_vol _ _ _ X).
  - right. apply N.eqb_eq in C. subst t. split; [cbn [In]; tauto|exact (RemoteUeContext_vol _ _ _ _ X)].
  - left. exact (RemoteUserId_vol _ _ _ X).
  - left. exact (RemoteUeIpInformation_vol _ _ _ X).
  - left. exact (CIoTOptimizationSupportIndication_vol _ _ _ X).
  - right. apply N.eqb_eq in C. subst t. split; [cbn [In]; tauto|exact (ScefPdnConnections_vol _ _ _ _ X)].
  - left. exact (HeaderCompressionConfiguration_vol _ _ _ X).
  - left. exact (Epco_vol _ _ _ X).
  - left. exact (ServingPlmnRateControl_vol _ _ _ X).
  - left. exact (Counter_vol _ _ _ X).
  - left. exact (MappedUeUsageType_vol _ _ _ X).
  - left. exact (SecondaryRatUsageDataReport_vol _ _ _ X).
  - left. exact (UpFunctionSelectionIndicationFlags_vol _ _ _ X).
  - left. exact (MaxPacketLossRate_vol _ _ _ X).
  - left. exact (ApnRateControlStatus_vol _ _ _ X).
  - left. exact (ExtendedTraceInformation_vol _ _ _ X).
  - left. exact (MonitoringEventExtensionInfo_vol _ _ _ X).
  - left. exact (AdditionalRrmPolicyIndex_vol _ _ _ X).
  - right. apply N.eqb_eq in C. subst t. split; [cbn [In]; tauto|exact (V2xInformation_vol _ _ _ _ X)].
  - right. apply N.eqb_eq in C. subst t. split; [cbn [In]; tauto|exact (PC5QosParameters_vol _ _ _ _ X)].
  - left. exact (ServicesAuthorized_vol _ _ _ X).
  - left. exact (BitRate_vol _ _ _ X).
  - left. exact (PC5QosFlow_vol _ _ _ X).
  - left. exact (SgiPtpTunnelAddress_vol _ _ _ X).
  - right. apply N.eqb_eq in C. subst t. split; [cbn [In]; tauto|exact (PgwChangeInfo_vol _ _ _ _ X)].
  - left. exact (PgwFqdn_vol _ _ _ X).
  - left. exact (GroupId_vol _ _ _ X).
  - left. exact (PSCellId_vol _ _ _ X).
  - left. exact (UpSecurityPolicy_vol _ _ _ X).
  - left. exact (AlternativeImsi_vol _ _ _ X).
  - left. exact (SpecialIEWithTypeExt_vol _ _ _ X).
  - left. exact (PrivateExtension_vol _ _ _ X).
  - left. exact (Unknown_vol _ _ _ X).
Qed.
