(* V2CommonFacts.v - facts about V2Common.v *)
From Verif Require Export V2IeFacts V2OkCommon.
Local Open Scope N_scope.
#[global] Arguments plmn_at : simpl never.
#[global] Arguments lv_at : simpl never.
#[global] Arguments plmn_enc : simpl never.
#[global] Arguments lv : simpl never.

(* PLMN *)
Lemma plmn_len p : length (plmn_enc p) = 3%nat.
Proof. apply mcc_mnc_length. Qed.
Lemma plmn_at_cons x b k : plmn_at (x :: b) (S k) = plmn_at b k.
Proof. reflexivity. Qed.
Lemma plmn_at_skip p b i : (length p <= i)%nat -> plmn_at (p ++ b) i = plmn_at b (i - length p).
Proof. intros. unfold plmn_at. rewrite slice_skip by lia. replace (i + 3 - length p)%nat with (i - length p + 3)%nat by lia. reflexivity. Qed.
Lemma plmn_at_here p r : plmn_ok p -> plmn_at (plmn_enc p ++ r) 0 = Ok p.
Proof.
  destruct p as [c n t]. intros [H1 H2]. cbn in H1, H2. unfold plmn_at. rewrite slice_here by reflexivity. cbn [bind].
  unfold plmn_enc. cbn [p_mcc p_mnc p_three]. rewrite <- (app_nil_r (mcc_mnc_encode c n t)).
  rewrite plmn_exact; [reflexivity|assumption|destruct t; lia|destruct t; auto].
Qed.
Lemma plmn_at_here_nil p : plmn_ok p -> plmn_at (plmn_enc p) 0 = Ok p.
Proof. rewrite <- (app_nil_r (plmn_enc p)). apply plmn_at_here. Qed.
Lemma returns_plmn_at {A} b i (k : plmn -> res A) : (i + 3 <= length b)%nat -> (forall p, returns (k p)) ->
  returns (bind (plmn_at b i) k).
Proof.
  intros H K. unfold plmn_at. rewrite slice_ok by lia. cbn [bind].
  assert (Hl : length (firstn (i + 3 - i) (skipn i b)) = 3%nat) by (rewrite firstn_length, skipn_length; lia).
  destruct (firstn _ _) as [|x [|y [|z [|? ?]]]]; try discriminate Hl. cbn. apply K.
Qed.

(* length-value *)
Lemma lv_len x : length (lv x) = S (length x).
Proof. reflexivity. Qed.
Lemma lv_at_here p x r e i : nlen x < 256 -> i = length p ->
  lv_at (p ++ lv x ++ r) i e = Ok (x, (i + 1 + length x)%nat).
Proof.
  intros H ->. unfold lv_at, lv. rewrite at_skip by lia. rewrite Nat.sub_diag. cbn [app]. rewrite at_0. cbn [bind].
  rewrite N.mod_small by assumption. cbv zeta. unfold nlen. rewrite Nat2N.id.
  destruct (Nat.leb_spec (length p + 1 + length x) (length (p ++ N.of_nat (length x) :: x ++ r))) as [Hl|Hl];
    [|rewrite app_length in Hl; cbn [length] in Hl; rewrite app_length in Hl; lia].
  change (p ++ N.of_nat (length x) :: x ++ r) with (p ++ [N.of_nat (length x)] ++ x ++ r). rewrite app_assoc.
  rewrite slice_mid by (rewrite app_length; cbn [length]; lia). reflexivity.
Qed.
Lemma lv_at_cons x b k e : lv_at (x :: b) (S k) e = let? (s, c) := lv_at b k e in Ok (s, S c).
Proof.
  unfold lv_at. rewrite at_cons. destruct (at_ b k) as [n| | |]; cbn [bind]; try reflexivity. cbv zeta.
  cbn [length Nat.add]. cbn [Nat.leb]. destruct (_ <=? _)%nat; [|reflexivity].
  rewrite slice_cons. destruct (slice b _ _); reflexivity.
Qed.
Lemma returns_lv_at {A} b c e (k : list N * nat -> res A) : (c < length b)%nat ->
  (forall s c', (c + 1 <= c')%nat -> (c' <= length b)%nat -> returns (k (s, c'))) -> returns (bind (lv_at b c e) k).
Proof.
  intros H K. unfold lv_at. destruct (at_lt (E := GTPV2Error) b c H) as (x & -> & _). cbn [bind]. cbv zeta.
  destruct (Nat.leb_spec (c + 1 + N.to_nat x) (length b)); [|exact I].
  rewrite slice_ok by lia. cbn [bind]. apply K; lia.
Qed.

(* prefixes of known length *)
Lemma slice0_app {E} v r n : n = length v -> @slice E (v ++ r) 0 n = Ok v.
Proof. apply slice_here. Qed.

Ltac rdx := repeat first
  [ rewrite at_0 | rewrite at_cons | rewrite be_at_cons | rewrite slice_cons | rewrite plmn_at_cons | rewrite lv_at_cons
  | rewrite be_at_enc by bnd | rewrite be_at_enc_nil by bnd
  | rewrite plmn_at_here by assumption | rewrite plmn_at_here_nil by assumption
  | rewrite be_at_skip by (rewrite ?plmn_len; lens); rewrite ?enc_be_length, ?plmn_len; cbn [Nat.sub]
  | rewrite at_skip by (rewrite ?plmn_len; lens); rewrite ?enc_be_length, ?plmn_len; cbn [Nat.sub]
  | rewrite plmn_at_skip by (rewrite ?plmn_len; lens); rewrite ?enc_be_length, ?plmn_len; cbn [Nat.sub]
  | rewrite slice_skip by (rewrite ?plmn_len; lens); rewrite ?enc_be_length, ?plmn_len; cbn [Nat.sub]
  | progress cbn [bind app] ].
Ltac lensp := rewrite ?app_length, ?plmn_len, ?enc_be_length; cbn [length app]; rewrite ?app_length, ?plmn_len, ?enc_be_length; cbn [length]; lens.

Lemma Cgi_rt v r : Cgi_ok v -> Cgi_dec (Cgi_enc v ++ r) = Ok v.
Proof. destruct v. intros (H1 & H2 & H3). cbn in *. unfold Cgi_dec, Cgi_enc. cbn. rewrite <- !app_assoc. rewrite need_ok by lensp. rdx. reflexivity. Qed.
Lemma Cgi_size v : length (Cgi_enc v) = 7%nat.
Proof. unfold Cgi_enc. lensp. Qed.
Lemma Sai_rt v r : Sai_ok v -> Sai_dec (Sai_enc v ++ r) = Ok v.
Proof. destruct v. intros (H1 & H2 & H3). cbn in *. unfold Sai_dec, Sai_enc. cbn. rewrite <- !app_assoc. rewrite need_ok by lensp. rdx. reflexivity. Qed.
Lemma Sai_size v : length (Sai_enc v) = 7%nat.
Proof. unfold Sai_enc. lensp. Qed.
Lemma Rai_rt v r : Rai_ok v -> Rai_dec (Rai_enc v ++ r) = Ok v.
Proof. destruct v. intros (H1 & H2 & H3). cbn in *. unfold Rai_dec, Rai_enc. cbn. rewrite <- !app_assoc. rewrite need_ok by lensp. rdx. reflexivity. Qed.
Lemma Rai_size v : length (Rai_enc v) = 7%nat.
Proof. unfold Rai_enc. lensp. Qed.
Lemma Tai_rt v r : Tai_ok v -> Tai_dec (Tai_enc v ++ r) = Ok v.
Proof. destruct v. intros (H1 & H2). cbn in *. unfold Tai_dec, Tai_enc. cbn. rewrite <- !app_assoc. rewrite need_ok by lensp. rdx. reflexivity. Qed.
Lemma Tai_size v : length (Tai_enc v) = 5%nat.
Proof. unfold Tai_enc. lensp. Qed.
Lemma Ecgi_rt v r : Ecgi_ok v -> Ecgi_dec (Ecgi_enc v ++ r) = Ok v.
Proof. destruct v. intros (H1 & H2). cbn in *. unfold Ecgi_dec, Ecgi_enc. cbn. rewrite <- !app_assoc. rewrite need_ok by lensp. rdx. reflexivity. Qed.
Lemma Ecgi_size v : length (Ecgi_enc v) = 7%nat.
Proof. unfold Ecgi_enc. lensp. Qed.
Lemma Lai_rt v r : Lai_ok v -> Lai_dec (Lai_enc v ++ r) = Ok v.
Proof. destruct v. intros (H1 & H2). cbn in *. unfold Lai_dec, Lai_enc. cbn. rewrite <- !app_assoc. rewrite need_ok by lensp. rdx. reflexivity. Qed.
Lemma Lai_size v : length (Lai_enc v) = 5%nat.
Proof. unfold Lai_enc. lensp. Qed.
Lemma MacroEnbId_rt v r : MacroEnbId_ok v -> MacroEnbId_dec (MacroEnbId_enc v ++ r) = Ok v.
Proof. destruct v. intros (H1 & H2). cbn in *. unfold MacroEnbId_dec, MacroEnbId_enc. cbn. rewrite <- !app_assoc. rewrite need_ok by lensp. rdx. reflexivity. Qed.
Lemma MacroEnbId_size v : length (MacroEnbId_enc v) = 6%nat.
Proof. unfold MacroEnbId_enc. lensp. Qed.

Lemma ext_enb_sweep : forallb (fun x => (N.land (N.land (N.lor x 128) 131) 3 =? x) && (N.shiftr (N.land (N.lor x 128) 131) 7 =? 1)) (upto 4) = true.
Proof. reflexivity. Qed.
Lemma ExtMacroEnbId_rt v r : ExtMacroEnbId_ok v -> ExtMacroEnbId_dec (ExtMacroEnbId_enc v ++ r) = Ok v.
Proof.
  destruct v as [p s i]. intros (H1 & H2). cbn [xe_plmn xe_smenb xe_id] in *. unfold ExtMacroEnbId_dec, ExtMacroEnbId_enc.
  cbn [xe_plmn xe_smenb xe_id]. cbv zeta. rewrite <- !app_assoc. rewrite need_ok by lensp. rdx. cbv zeta. destruct s.
  - change (2 ^ 18) with 262144 in H2.
    pose proof (sweep 4 _ ext_enb_sweep ((i / 65536) mod 256) ltac:(lia)) as S. cbv beta in S.
    apply andb_prop in S as [S1 S2]. apply N.eqb_eq in S1, S2. rewrite S1, S2. change (1 =? 0) with false. change (1 =? 1) with true. cbv iota.
    replace (be24 _ _ _) with i; [reflexivity|unfold be24; lia].
  - change (2 ^ 23) with 8388608 in H2. rewrite N.shiftr_div_pow2. change (2 ^ 7) with 128.
    replace ((i / 65536) mod 256 / 128) with 0 by lia. change (0 =? 0) with true. cbv iota.
    replace (be24 _ _ _) with i; [reflexivity|unfold be24; lia].
Qed.
Lemma ExtMacroEnbId_size v : length (ExtMacroEnbId_enc v) = 6%nat.
Proof. unfold ExtMacroEnbId_enc. cbv zeta. lensp. Qed.

Lemma AuthTriplet_rt v r : AuthTriplet_ok v -> AuthTriplet_dec (AuthTriplet_enc v ++ r) = Ok v.
Proof.
  destruct v as [a b c]. intros (H1 & H2 & H3). cbn in *. unfold AuthTriplet_dec, AuthTriplet_enc. cbn. rewrite <- !app_assoc.
  rewrite need_ok by lens. rewrite slice_here by lia. cbn [bind].
  rewrite (slice_mid a b) by lia. cbn [bind].
  rewrite (app_assoc a b), (slice_mid (a ++ b) c) by lens. reflexivity.
Qed.
Lemma AuthTriplet_size v : AuthTriplet_ok v -> length (AuthTriplet_enc v) = 28%nat.
Proof. intros (H1 & H2 & H3). unfold AuthTriplet_enc. lens. Qed.

Lemma AuthQuintuplet_rt v r : AuthQuintuplet_ok v -> AuthQuintuplet_dec (AuthQuintuplet_enc v ++ r) = Ok v.
Proof.
  destruct v as [a x c i n]. intros (H1 & H2 & H3 & H4 & H5). cbn in *. unfold AuthQuintuplet_dec, AuthQuintuplet_enc. cbn [aq_rand aq_xres aq_ck aq_ik aq_autn].
  rewrite <- !app_assoc. rewrite need_ok by lens. rewrite slice_here by lia. cbn [bind].
  rewrite lv_at_here by lia. cbn [bind].
  rewrite need_ok by (rewrite ?app_length, ?lv_len, ?app_length, ?lv_len; lia).
  rewrite (app_assoc a (lv x)), (slice_mid (a ++ lv x) c) by (rewrite ?app_length, ?lv_len, ?app_length, ?lv_len; lia). cbn [bind].
  rewrite (app_assoc (a ++ lv x) c), (slice_mid ((a ++ lv x) ++ c) i) by (rewrite ?app_length, ?lv_len, ?app_length, ?lv_len; lia). cbn [bind].
  rewrite (app_assoc ((a ++ lv x) ++ c) i), lv_at_here by (rewrite ?app_length, ?lv_len, ?app_length, ?lv_len; lia). reflexivity.
Qed.
Lemma AuthQuintuplet_size_ok v : AuthQuintuplet_ok v -> length (AuthQuintuplet_enc v) = AuthQuintuplet_size v.
Proof. intros (H1 & H2 & H3 & H4 & H5). unfold AuthQuintuplet_enc, AuthQuintuplet_size. rewrite ?app_length, ?lv_len, ?app_length, ?lv_len. lia. Qed.

Lemma AuthQuadruplet_rt v r : AuthQuadruplet_ok v -> AuthQuadruplet_dec (AuthQuadruplet_enc v ++ r) = Ok v.
Proof.
  destruct v as [a x n k]. intros (H1 & H2 & H3 & H4). cbn in *. unfold AuthQuadruplet_dec, AuthQuadruplet_enc. cbn [ad_rand ad_xres ad_autn ad_kasme].
  rewrite <- !app_assoc. rewrite need_ok by (rewrite ?app_length, ?lv_len, ?app_length, ?lv_len; lia). rewrite slice_here by lia. cbn [bind].
  rewrite lv_at_here by lia. cbn [bind].
  rewrite (app_assoc a (lv x)), lv_at_here by (rewrite ?app_length, ?lv_len, ?app_length, ?lv_len; lia). cbn [bind].
  rewrite need_ok by (rewrite ?app_length, ?lv_len, ?app_length, ?lv_len; lia).
  rewrite (app_assoc (a ++ lv x) (lv n)), (slice_mid ((a ++ lv x) ++ lv n) k) by (rewrite ?app_length, ?lv_len, ?app_length, ?lv_len; lia). reflexivity.
Qed.
Lemma AuthQuadruplet_size_ok v : AuthQuadruplet_ok v -> length (AuthQuadruplet_enc v) = AuthQuadruplet_size v.
Proof. intros (H1 & H2 & H3 & H4). unfold AuthQuadruplet_enc, AuthQuadruplet_size. rewrite ?app_length, ?lv_len, ?app_length, ?lv_len. lia. Qed.

(* UTF-8 *)
Ltac ifs := repeat match goal with
  | |- context [?a <? ?b] => destruct (N.ltb_spec a b); try lia
  | |- context [?a <=? ?b] => destruct (N.leb_spec a b); try lia
  | |- context [?a =? ?b] => destruct (N.eqb_spec a b); try lia
  end; cbn [andb].
Lemma lossy1 a r : a < 128 -> utf8_lossy (a :: r) = a :: utf8_lossy r.
Proof. intros H. cbn [utf8_lossy]. apply N.ltb_lt in H. rewrite H. reflexivity. Qed.
Lemma lossy2 a d r : (a <? 128) = false -> (194 <=? a) && (a <=? 223) = true -> cont d = true ->
  utf8_lossy (a :: d :: r) = ((a - 192) * 64 + (d - 128)) :: utf8_lossy r.
Proof. intros H1 H2 H3. cbn [utf8_lossy]. rewrite H1, H2, H3. reflexivity. Qed.
Lemma lossy3 a d e r : (a <? 128) = false -> (194 <=? a) && (a <=? 223) = false -> (224 <=? a) && (a <=? 239) = true ->
  second_ok a d = true -> cont e = true ->
  utf8_lossy (a :: d :: e :: r) = ((a - 224) * 4096 + (d - 128) * 64 + (e - 128)) :: utf8_lossy r.
Proof. intros H1 H2 H3 H4 H5. cbn [utf8_lossy]. rewrite H1, H2, H3, H4, H5. reflexivity. Qed.
Lemma lossy4 a d e f r : (a <? 128) = false -> (194 <=? a) && (a <=? 223) = false -> (224 <=? a) && (a <=? 239) = false ->
  (240 <=? a) && (a <=? 244) = true ->
  second_ok a d = true -> cont e = true -> cont f = true ->
  utf8_lossy (a :: d :: e :: f :: r) = ((a - 240) * 262144 + (d - 128) * 4096 + (e - 128) * 64 + (f - 128)) :: utf8_lossy r.
Proof. intros H1 H2 H3 H4 H5 H6 H7. cbn [utf8_lossy]. rewrite H1, H2, H3, H4, H5, H6, H7. reflexivity. Qed.
Lemma utf8_lossy_char c r : scalar c -> utf8_lossy (utf8_char c ++ r) = c :: utf8_lossy r.
Proof.
  intros H. unfold scalar in H. unfold utf8_char.
  destruct (N.ltb_spec c 128) as [H1|H1]; [apply lossy1; assumption|].
  destruct (N.ltb_spec c 2048) as [H2|H2].
  { assert (A : 2 <= c / 64 <= 31) by lia. assert (B : c mod 64 < 64) by lia. assert (D : c = c / 64 * 64 + c mod 64) by lia.
    generalize dependent (c / 64). intros q A D. generalize dependent (c mod 64). intros w B D. clear H.
    cbn [app]. rewrite lossy2; unfold cont; [f_equal; lia|ifs; reflexivity..]. }
  destruct (N.ltb_spec c 65536) as [H3|H3].
  { assert (A : c / 4096 < 16) by (clear H; lia). assert (B : c mod 64 < 64) by (clear; lia). assert (C : (c / 64) mod 64 < 64) by (clear; lia).
    assert (D : c = c / 4096 * 4096 + ((c / 64) mod 64) * 64 + c mod 64) by (clear; lia).
    generalize dependent (c / 4096). intros q A D. generalize dependent (c mod 64). intros w B D.
    generalize dependent ((c / 64) mod 64). intros z C D.
    cbn [app]. rewrite lossy3; unfold second_ok, cont; [f_equal; lia|ifs; reflexivity..]. }
  { assert (A : c / 262144 <= 4) by (clear -H H3; lia). assert (A2 : c / 262144 = 4 -> (c / 4096) mod 64 < 16) by (clear -H H3; lia).
    assert (A1 : c / 262144 = 0 -> 16 <= (c / 4096) mod 64) by (clear -H H3; lia).
    assert (B : c mod 64 < 64) by (clear; lia). assert (C : (c / 64) mod 64 < 64) by (clear; lia). assert (C' : (c / 4096) mod 64 < 64) by (clear; lia).
    assert (D : c = c / 262144 * 262144 + ((c / 4096) mod 64) * 4096 + ((c / 64) mod 64) * 64 + c mod 64) by (clear; lia).
    generalize dependent (c / 262144). intros q A A2 A1 D. generalize dependent (c mod 64). intros w B D.
    generalize dependent ((c / 64) mod 64). intros z C D. generalize dependent ((c / 4096) mod 64). intros y A2 A1 C' D.
    clear H H1 H2 H3. cbn [app]. rewrite lossy4; unfold second_ok, cont; [f_equal; lia|clear D; ifs; reflexivity..]. }
Qed.
Lemma utf8_lossy_utf8 s : Forall scalar s -> utf8_lossy (utf8 s) = s.
Proof.
  unfold utf8. induction 1 as [|c s Hc Hs IH]; [reflexivity|]. cbn [map concat]. rewrite utf8_lossy_char, IH by assumption. reflexivity.
Qed.

Lemma ApnRateControlStatusMM_rt v r : ApnRateControlStatusMM_ok v ->
  ApnRateControlStatusMM_dec (ApnRateControlStatusMM_enc v ++ r) = Ok v.
Proof.
  destruct v as [a u e d w]. intros (H1 & H2 & H3 & H4 & H5 & H6). cbn [rm_apn rm_ul rm_exc rm_dl rm_validity] in *.
  unfold ApnRateControlStatusMM_dec, ApnRateControlStatusMM_enc. cbn [rm_apn rm_ul rm_exc rm_dl rm_validity]. cbv zeta.
  set (body := enc_be 2 (nlen (utf8 a)) ++ utf8 a ++ enc_be 4 u ++ enc_be 4 e ++ enc_be 4 d ++ w). assert (Hb : length body = (22 + length (utf8 a))%nat) by (unfold body; lens).
  assert (Hn : nlen body < 65536) by (unfold nlen in *; lia).
  rewrite <- app_assoc. rewrite need_ok by lens. rewrite be_at_enc by bnd. cbn [bind].
  rewrite need_ok by (rewrite !app_length, enc_be_length; unfold nlen; lia).
  assert (F : be_at (enc_be 2 (nlen body) ++ body ++ r) 2 2 = Ok (nlen (utf8 a))).
  { rewrite be_at_skip by lens. rewrite enc_be_length. cbn [Nat.sub]. unfold body. rewrite <- !app_assoc. apply be_at_enc. bnd. }
  rewrite F. cbn [bind]. replace (N.to_nat (nlen (utf8 a))) with (length (utf8 a)) by (unfold nlen; lia).
  rewrite need_ok by (rewrite !app_length, enc_be_length, Hb; lia).
  assert (E : enc_be 2 (nlen body) ++ body ++ r
    = (enc_be 2 (nlen body) ++ enc_be 2 (nlen (utf8 a))) ++ utf8 a ++ enc_be 4 u ++ enc_be 4 e ++ enc_be 4 d ++ w ++ r).
  { unfold body. rewrite <- !app_assoc. reflexivity. }
  rewrite E. set (p := enc_be 2 (nlen body) ++ enc_be 2 (nlen (utf8 a))).
  assert (Hp : length p = 4%nat) by (unfold p; lens).
  rewrite slice_mid by lia. cbn [bind].
  rewrite need_ok by (rewrite !app_length, !enc_be_length; lia).
  rewrite (app_assoc p). set (q := p ++ utf8 a). assert (Hq : length q = (4 + length (utf8 a))%nat) by (unfold q; rewrite app_length; lia).
  set (tl := w ++ r). assert (G0 : be_at (q ++ enc_be 4 u ++ enc_be 4 e ++ enc_be 4 d ++ tl) (4 + length (utf8 a)) 4 = Ok u).
  { rewrite be_at_skip by lia. replace (_ - _)%nat with 0%nat by lia. apply be_at_enc. bnd. }
  assert (G1 : be_at (q ++ enc_be 4 u ++ enc_be 4 e ++ enc_be 4 d ++ tl) (4 + length (utf8 a) + 4) 4 = Ok e).
  { rewrite be_at_skip by lia. replace (_ - _)%nat with 4%nat by lia. rd. reflexivity. }
  assert (G2 : be_at (q ++ enc_be 4 u ++ enc_be 4 e ++ enc_be 4 d ++ tl) (4 + length (utf8 a) + 8) 4 = Ok d).
  { rewrite be_at_skip by lia. replace (_ - _)%nat with 8%nat by lia. rd. reflexivity. }
  rewrite G0, G1, G2. cbn [bind]. unfold tl. rewrite (app_assoc (enc_be 4 e)), (app_assoc (enc_be 4 u)), (app_assoc q).
  rewrite slice_mid by (rewrite !app_length, !enc_be_length; lia). cbn [bind].
  rewrite utf8_lossy_utf8 by assumption. reflexivity.
Qed.
Lemma ApnRateControlStatusMM_size_ok v : ApnRateControlStatusMM_ok v ->
  length (ApnRateControlStatusMM_enc v) = ApnRateControlStatusMM_size v.
Proof.
  intros (H1 & H2 & H3 & H4 & H5 & H6). unfold ApnRateControlStatusMM_enc, ApnRateControlStatusMM_size. cbv zeta. lens.
Qed.

Lemma AccessRestriction_rt v : AccessRestrictionMM_of (AccessRestrictionMM_to v) = v.
Proof. destruct v. bools. Qed.
Lemma ExtendedAccessRestriction_rt v : ExtendedAccessRestrictionMM_of (ExtendedAccessRestrictionMM_to v) = v.
Proof. destruct v. bools. Qed.
Lemma AmbrMM_rt v r : AmbrMM_ok v -> AmbrMM_dec (AmbrMM_enc v ++ r) = Ok v.
Proof. destruct v. intros (H1 & H2). cbn in *. unfold AmbrMM_dec, AmbrMM_enc. cbn. rewrite <- !app_assoc. rewrite need_ok by lens. rd. reflexivity. Qed.
Lemma AmbrMM_size v : length (AmbrMM_enc v) = 8%nat.
Proof. unfold AmbrMM_enc. lens. Qed.

Lemma OldEps_rt v r : OldEpsSecurityContext_ok v -> OldEpsSecurityContext_dec (OldEpsSecurityContext_enc v ++ r) = Ok v.
Proof.
  destruct v as [ksi ncc k nh]. intros (H1 & H2 & H3). cbn [oe_ksi oe_ncc oe_kasme oe_next_hop] in *.
  unfold OldEpsSecurityContext_dec, OldEpsSecurityContext_enc. cbn [oe_ksi oe_ncc oe_kasme oe_next_hop]. cbv zeta.
  cbn [app]. rewrite at_0. cbn [bind]. destruct nh as [n|], ncc as [c|]; try contradiction; cbn [is_some].
  - destruct H3 as [Hn Hc]. rewrite <- app_assoc. rewrite !slice_cons. rewrite slice_here by lia. rewrite (slice_mid k n) by lia. cbn [bind].
    rewrite !need_ok by lens.
    cases_lt 8%nat H1; cases_lt 8%nat Hc.
  - rewrite app_nil_r. rewrite !slice_cons. rewrite slice_here by lia. cbn [bind]. rewrite !need_ok by lens. cases_lt 8%nat H1.
Qed.
Lemma OldEps_size v : OldEpsSecurityContext_ok v -> length (OldEpsSecurityContext_enc v) = OldEpsSecurityContext_size v.
Proof.
  destruct v as [ksi ncc k nh]. intros (H1 & H2 & H3). cbn [oe_ksi oe_ncc oe_kasme oe_next_hop] in *.
  unfold OldEpsSecurityContext_enc, OldEpsSecurityContext_size. cbv zeta. destruct nh as [n|], ncc as [c|]; try contradiction; cbn; rewrite app_length; cbn; lia.
Qed.

(* lists *)
Lemma slice_from_app {E} p r i : i = length p -> @slice_from E (p ++ r) i = Ok r.
Proof.
  intros ->. unfold slice_from. rewrite app_length. destruct (Nat.leb_spec (length p) (length p + length r)); [|lia].
  rewrite skipn_app, skipn_all, Nat.sub_diag. reflexivity.
Qed.
Lemma slice_from_ok {E} (b : list N) i : (i <= length b)%nat -> @slice_from E b i = Ok (skipn i b).
Proof. intros. unfold slice_from. destruct (Nat.leb_spec i (length b)); [reflexivity|lia]. Qed.
Lemma many_rt {A} (dec : list N -> res A) size enc xs : 
  Forall (fun x => (forall r, dec (enc x ++ r) = Ok x) /\ size x = length (enc x)) xs -> forall p r c,
  c = length p ->
  many dec size (length xs) (p ++ enc_all enc xs ++ r) c = Ok (xs, (length p + length (enc_all enc xs))%nat).
Proof.
  induction 1 as [|x xs [Hx Hs] Hxs IH]; intros p r c ->; [cbn; rewrite Nat.add_0_r; reflexivity|].
  cbn [length many]. unfold enc_all in *. cbn [map concat]. rewrite slice_from_app by reflexivity. cbn [bind].
  rewrite <- app_assoc, Hx. cbn [bind]. rewrite (app_assoc p), (IH (p ++ enc x) r) by (rewrite app_length; lia). cbn [bind].
  rewrite !app_length, Nat.add_assoc. reflexivity.
Qed.
Lemma many_len {A} (dec : list N -> res A) size n b : forall c xs c', many dec size n b c = Ok (xs, c') ->
  length xs = n.
Proof.
  induction n as [|n IH]; intros c xs c' H; cbn in H.
  - apply Ok_inj in H. injection H as <- <-. reflexivity.
  - destruct (slice_from b c); try discriminate. cbn in H. destruct (dec a); try discriminate. cbn in H.
    destruct (many dec size n b (c + size a0)) as [[ys c1]| | |] eqn:E; try discriminate. cbn in H. apply Ok_inj in H.
    injection H as <- <-. cbn. f_equal. eapply IH, E.
Qed.
Lemma returns_many {A B} (dec : list N -> res A) size (k : list A * nat -> res B) n b : 
  (forall t, returns (dec t)) -> (forall t x, dec t = Ok x -> (size x <= length t)%nat) -> forall c,
  (c <= length b)%nat -> (forall xs c', (c <= c')%nat -> (c' <= length b)%nat -> returns (k (xs, c'))) ->
  returns (bind (many dec size n b c) k).
Proof.
  intros Hd Hs. assert (G : forall c, (c <= length b)%nat ->
    match many dec size n b c with Ok (xs, c') => (c <= c')%nat /\ (c' <= length b)%nat | Err _ => True | _ => False end).
  { induction n as [|n IH]; intros c Hc; cbn [many]; [lia|]. rewrite slice_from_ok by assumption. cbn [bind].
    pose proof (Hd (skipn c b)) as D. pose proof (Hs (skipn c b)) as S. destruct (dec (skipn c b)) as [x| | |]; try contradiction; [|exact I].
    cbn [bind]. specialize (S x eq_refl). rewrite skipn_length in S. specialize (IH (c + size x)%nat ltac:(lia)).
    destruct (many dec size n b (c + size x)) as [[ys c1]| | |]; try contradiction; [|exact I]. cbn [bind]. lia. }
  intros c Hc K. specialize (G c Hc). destruct (many dec size n b c) as [[xs c']| | |]; try contradiction; [|exact I].
  apply K; apply G.
Qed.
(* with a fixed stride the bound on the whole is enough *)
Lemma returns_many_fixed {A B} (dec : list N -> res A) s (k : list A * nat -> res B) n b :
  (forall t, returns (dec t)) -> forall c, (c + s * n <= length b)%nat ->
  (forall xs, length xs = n -> returns (k (xs, (c + s * n)%nat))) ->
  returns (bind (many dec (fun _ => s) n b c) k).
Proof.
  intros Hd. assert (G : forall c, (c + s * n <= length b)%nat ->
    match many dec (fun _ => s) n b c with Ok (xs, c') => c' = (c + s * n)%nat /\ length xs = n | Err _ => True | _ => False end).
  { induction n as [|n IH]; intros c Hc; cbn [many]; [cbn; lia|]. rewrite slice_from_ok by lia. cbn [bind].
    pose proof (Hd (skipn c b)) as D. destruct (dec (skipn c b)) as [x| | |]; try contradiction; [|exact I].
    cbn [bind]. specialize (IH (c + s)%nat ltac:(lia)).
    destruct (many dec (fun _ => s) n b (c + s)) as [[ys c1]| | |]; try contradiction; [|exact I]. cbn [bind length]. lia. }
  intros c Hc K. specialize (G c Hc). destruct (many dec (fun _ => s) n b c) as [[xs c']| | |]; try contradiction; [|exact I].
  destruct G as [-> G]. apply K, G.
Qed.
Lemma returns_orelse {A} (r : res A) e : returns r -> returns (orelse r e).
Proof. destruct r; cbn; auto. Qed.
Lemma enc_all_len {A} (enc : A -> list N) k xs : Forall (fun x => length (enc x) = k) xs ->
  length (enc_all enc xs) = (k * length xs)%nat.
Proof. unfold enc_all. induction 1 as [|x xs Hx Hxs IH]; cbn; [lia|]. rewrite app_length, Hx, IH. lia. Qed.
Lemma chunks16_enc xs : Forall u16 xs -> chunks16 (enc_all (enc_be 2) xs) = xs.
Proof.
  unfold enc_all. induction 1 as [|x xs Hx Hxs IH]; [reflexivity|]. cbn [map concat].
  change (enc_be 2 x) with [(x / 256 ^ N.of_nat 1) mod 256; (x / 256 ^ N.of_nat 0) mod 256]. cbn [app chunks16]. rewrite IH. f_equal.
  change (256 ^ N.of_nat 1) with 256. change (256 ^ N.of_nat 0) with 1. unfold be16, u16 in *. lia.
Qed.

(* crash freedom of the decoders that check their length *)
Ltac cdec := intros b; match goal with |- returns (?f _) => unfold f end;
  repeat first [ match goal with |- returns (bind (plmn_at _ _) _) => apply returns_plmn_at; [lia|intros] end
               | match goal with |- returns (bind (lv_at _ _ _) _) => apply returns_lv_at; [try lia|intros] end
               | safe1 ].
Lemma Cgi_dec_returns : forall b, returns (Cgi_dec b). Proof. cdec. Qed.
Lemma Sai_dec_returns : forall b, returns (Sai_dec b). Proof. cdec. Qed.
Lemma Rai_dec_returns : forall b, returns (Rai_dec b). Proof. cdec. Qed.
Lemma Tai_dec_returns : forall b, returns (Tai_dec b). Proof. cdec. Qed.
Lemma Ecgi_dec_returns : forall b, returns (Ecgi_dec b). Proof. cdec. Qed.
Lemma Lai_dec_returns : forall b, returns (Lai_dec b). Proof. cdec. Qed.
Lemma MacroEnbId_dec_returns : forall b, returns (MacroEnbId_dec b). Proof. cdec. Qed.
Lemma ExtMacroEnbId_dec_returns : forall b, returns (ExtMacroEnbId_dec b). Proof. cdec. Qed.
Lemma AuthTriplet_dec_returns : forall b, returns (AuthTriplet_dec b). Proof. cdec. Qed.
Lemma AmbrMM_dec_returns : forall b, returns (AmbrMM_dec b). Proof. cdec. Qed.

(* decoding inside an IE *)
Lemma returns_dec {A B} (dec : list N -> res A) t (k : A -> res B) : (forall b, returns (dec b)) ->
  (forall x, returns (k x)) -> returns (bind (dec t) k).
Proof. intros H K. specialize (H t). destruct (dec t); try contradiction; [apply K|exact I]. Qed.
Lemma returns_slice_from {A} b i (k : list N -> res A) : (i <= length b)%nat ->
  (forall s, length s = (length b - i)%nat -> returns (k s)) -> returns (bind (slice_from b i) k).
Proof. intros H K. rewrite slice_from_ok by assumption. apply K, skipn_length. Qed.
Ltac safe2 := repeat first
  [ match goal with |- returns (bind (plmn_at _ _) _) => apply returns_plmn_at; [try lia|intros] end
  | match goal with |- returns (bind (lv_at _ _ _) _) => apply returns_lv_at; [try lia|intros] end
  | match goal with |- returns (bind (slice_from _ _) _) => apply returns_slice_from; [try lia|intros] end
  | safe1 ].
Ltac ie_safe2 := intros; match goal with |- returns (?f _ _) => unfold f end; safe2.
(* comparisons of literals *)
Ltac eqbs := repeat match goal with
  | |- context [?a =? ?b] => let c := eval vm_compute in (a =? b) in
      first [constr_eq c true; change (a =? b) with true | constr_eq c false; change (a =? b) with false]
  | |- context [?a <? ?b] => let c := eval vm_compute in (a <? b) in
      first [constr_eq c true; change (a <? b) with true | constr_eq c false; change (a <? b) with false]
  | |- context [?a <=? ?b] => let c := eval vm_compute in (a <=? b) in
      first [constr_eq c true; change (a <=? b) with true | constr_eq c false; change (a <=? b) with false]
  end; cbv iota.
Ltac hdp := rewrite ?need_ok by lensp; rewrite hdr4_cons;
  match goal with H : be16 _ _ = _ |- _ => rewrite H end.
(* an octet made of flags *)
Definition oct8 (a b c d e f g h : bool) : N :=
  flag a 128 + flag b 64 + flag c 32 + flag d 16 + flag e 8 + flag f 4 + flag g 2 + flag h 1.
Lemma oct8_bits a b c d e f g h :
  bit (oct8 a b c d e f g h) 128 = a /\ bit (oct8 a b c d e f g h) 64 = b /\ bit (oct8 a b c d e f g h) 32 = c /\
  bit (oct8 a b c d e f g h) 16 = d /\ bit (oct8 a b c d e f g h) 8 = e /\ bit (oct8 a b c d e f g h) 4 = f /\
  bit (oct8 a b c d e f g h) 2 = g /\ bit (oct8 a b c d e f g h) 1 = h.
Proof. destruct a, b, c, d, e, f, g, h; repeat split; reflexivity. Qed.
