(* V2IeDFacts.v - round trip and size of the MM contexts of V2IeD.v *)
From Verif Require Export V2Cursor V2OkD.
Local Open Scope N_scope.
#[global] Arguments opt_lv : simpl never.
#[global] Arguments opt_list : simpl never.
#[global] Arguments opt_ambr : simpl never.
#[global] Arguments opt_oct : simpl never.
#[global] Arguments enc_all : simpl never.
#[global] Arguments OldEpsSecurityContext_enc : simpl never.

Lemma opt_count_small {A} (ok : A -> Prop) o : vectors_ok ok o -> opt_count o < 6 /\ opt_count o = match o with Some l => nlen l | None => 0 end.
Proof.
  destruct o as [l|]; cbn; [|lia]. intros [H _]. rewrite N.mod_small by (unfold nlen; lia). unfold nlen. lia.
Qed.
Lemma reads_auth {A} (dec : list N -> res A) size enc (ok : A -> Prop) T o :
  (forall x, ok x -> (forall r, dec (enc x ++ r) = Ok x) /\ size x = length (enc x)) -> vectors_ok ok o ->
  reads (auth_at dec size T (opt_count o)) (opt_list enc o) o.
Proof.
  intros He Ho B c R Hp. destruct (opt_count_small ok o Ho) as [Hs E]. unfold auth_at. rewrite E. destruct o as [l|].
  - cbn in Ho. destruct Ho as [Hl Hf].
    destruct (N.eqb_spec (nlen l) 0) as [Z|_]; [unfold nlen in Z; lia|].
    destruct (N.leb_spec (nlen l) 5) as [_|Z]; [|unfold nlen in Z; lia].
    replace (N.to_nat (nlen l)) with (length l) by (unfold nlen; lia).
    rewrite (reads_many dec size enc l) with (R := R); [reflexivity| |exact Hp].
    eapply Forall_impl; [|exact Hf]. exact He.
  - cbn. rewrite Nat.add_0_r. reflexivity.
Qed.
Lemma reads_quints T o : vectors_ok AuthQuintuplet_ok o ->
  reads (auth_at AuthQuintuplet_dec AuthQuintuplet_size T (opt_count o)) (opt_list AuthQuintuplet_enc o) o.
Proof. apply reads_auth. intros x Hx. split; [intros; apply AuthQuintuplet_rt, Hx|symmetry; apply AuthQuintuplet_size_ok, Hx]. Qed.
Lemma reads_quads T o : vectors_ok AuthQuadruplet_ok o ->
  reads (auth_at AuthQuadruplet_dec AuthQuadruplet_size T (opt_count o)) (opt_list AuthQuadruplet_enc o) o.
Proof. apply reads_auth. intros x Hx. split; [intros; apply AuthQuadruplet_rt, Hx|symmetry; apply AuthQuadruplet_size_ok, Hx]. Qed.
Lemma reads_trips o : vectors_ok AuthTriplet_ok o -> reads (trips_at (opt_count o)) (opt_list AuthTriplet_enc o) o.
Proof.
  intros Ho B c R Hp. assert (G : reads (auth_at AuthTriplet_dec (fun _ => 28%nat) 103 (opt_count o)) (opt_list AuthTriplet_enc o) o).
  { refine (reads_auth _ _ _ AuthTriplet_ok _ _ _ Ho). intros x Hx. split; [intros; apply AuthTriplet_rt, Hx|symmetry; apply AuthTriplet_size, Hx]. }
  pose proof (G B c R Hp) as E. destruct (opt_count_small _ o Ho) as [Hs Es]. unfold trips_at. rewrite E.
  destruct o as [l|]; [|rewrite Es; unfold opt_list; cbn [length]; eqbs; rewrite Nat.add_0_r; reflexivity].
  destruct Ho as [Hl Hf]. rewrite Es.
  destruct (N.eqb_spec (nlen l) 0) as [Z|_]; [unfold nlen in Z; lia|].
  destruct (N.leb_spec (nlen l) 5) as [_|Z]; [|unfold nlen in Z; lia].
  rewrite need_ok; [reflexivity|]. apply at_pos_len in Hp. rewrite Hp, app_length. cbn [opt_list]. unfold opt_list.
  rewrite (enc_all_len _ 28) by (eapply Forall_impl; [|exact Hf]; apply AuthTriplet_size). unfold nlen. lia.
Qed.
Lemma reads_drx o : drx_ok o -> reads (drx_at (is_some o)) (opt_oct o) o.
Proof.
  intros H B c R Hp. unfold drx_at. destruct o as [l|]; cbn in H; cbn [is_some andb].
  - cbn [opt_oct] in *. unfold opt_oct in *. pose proof (at_pos_len _ _ _ Hp) as L. rewrite app_length in L. destruct (Nat.leb_spec (c + 2) (length B)); [|lia].
    rewrite (at_pos_slice B c l R) by (assumption || lia). cbn [bind]. do 2 f_equal. lia.
  - cbn. rewrite Nat.add_0_r. reflexivity.
Qed.
Lemma reads_ambr T o : opt_ok AmbrMM_ok o -> reads (ambr_at T (is_some o)) (opt_ambr o) o.
Proof.
  intros H B c R Hp. unfold ambr_at. destruct o as [l|]; cbn in H; cbn [is_some].
  - unfold opt_ambr in *. pose proof (at_pos_len _ _ _ Hp) as L. rewrite app_length, AmbrMM_size in L.
    rewrite need_ok by lia. rewrite (at_pos_from B c _ Hp). cbn [bind]. rewrite AmbrMM_rt by assumption. cbn [orelse bind].
    rewrite AmbrMM_size. reflexivity.
  - cbn. rewrite Nat.add_0_r. reflexivity.
Qed.
Lemma lv_first_pos x : x <> [] -> nlen x < 256 -> exists n, lv x = n :: x /\ (0 <? n) = true.
Proof. intros H1 H2. unfold lv. rewrite N.mod_small by assumption. eexists. split; [reflexivity|]. apply nonempty_len in H1. apply N.ltb_lt. lia. Qed.
Lemma reads_cap T o : cap_ok o -> reads (cap_at T) (opt_lv o) o.
Proof.
  intros H B c R Hp. unfold cap_at. destruct o as [l|]; [|contradiction]. destruct H as [H1 H2]. unfold opt_lv in *.
  destruct (lv_first_pos l H1 H2) as (n & E & Hn). rewrite (at_pos_at B c n (l ++ R)) by (rewrite E in Hp; exact Hp). cbn [bind]. rewrite Hn.
  rewrite (reads_lv l _ H2 B c R Hp). reflexivity.
Qed.
Lemma reads_optlv T o : optlv_ok o -> reads (optlv_at T) (opt_lv o) o.
Proof.
  intros H B c R Hp. unfold optlv_at. destruct o as [l|]; unfold opt_lv in *.
  - destruct H as [H1 H2].
    destruct (lv_first_pos l H1 H2) as (n & E & Hn). rewrite (at_pos_at B c n (l ++ R)) by (rewrite E in Hp; exact Hp). cbn [bind]. rewrite Hn.
    rewrite (reads_lv l _ H2 B c R Hp). reflexivity.
  - rewrite (at_pos_at B c 0 R) by exact Hp. reflexivity.
Qed.
Lemma reads_access a : reads access_at [AccessRestrictionMM_to a] a.
Proof. intros B c R Hp. unfold access_at. rewrite (at_pos_at _ _ _ _ Hp). cbn [bind]. rewrite AccessRestriction_rt. reflexivity. Qed.
Lemma reads_old T o : opt_ok OldEpsSecurityContext_ok o ->
  reads (old_at T (is_some o)) (match o with Some o => OldEpsSecurityContext_enc o | None => [] end) o.
Proof.
  intros H B c R Hp. unfold old_at. destruct o as [l|]; cbn in H; cbn [is_some].
  - rewrite (at_pos_from B c _ Hp). cbn [bind]. rewrite OldEps_rt by assumption. cbn [orelse bind].
    rewrite OldEps_size by assumption. reflexivity.
  - cbn. rewrite Nat.add_0_r. reflexivity.
Qed.
Lemma reads_nh nh ncc : match nh, ncc with
  | Some i, Some j => length i = 32%nat /\ j < 8 | None, None => True | _, _ => False end ->
  reads (nh_at (is_some nh))
    (match nh, ncc with Some i, Some j => i ++ [N.land j 7] | Some i, None => i ++ [0] | None, _ => [] end) (nh, ncc).
Proof.
  intros H B c R Hp. unfold nh_at. destruct nh as [i|], ncc as [j|]; try contradiction; cbn [is_some andb].
  - destruct H as [Hi Hj]. pose proof (at_pos_len _ _ _ Hp) as L. rewrite !app_length in L. cbn [length] in L.
    destruct (Nat.leb_spec (c + 33) (length B)); [|lia]. rewrite <- app_assoc in Hp.
    rewrite (at_pos_slice B c i _ _ Hp) by lia. cbn [bind]. apply at_pos_next in Hp. rewrite Hi in Hp.
    rewrite (at_pos_at _ _ _ _ Hp). cbn [bind]. rewrite app_length. cbn [length].
    replace (N.land j 7) with j by (cases_lt 8%nat Hj). do 3 f_equal. lia.
  - cbn. rewrite Nat.add_0_r. reflexivity.
Qed.
Lemma reads_ext T x : reads (ext_access_at T) (ext_access_enc (Some x)) (Some x).
Proof.
  intros B c R Hp. unfold ext_access_at. cbn [ext_access_enc app] in *. rewrite (at_pos_at _ _ _ _ Hp). cbn [bind]. eqbs.
  pose proof (at_pos_len _ _ _ Hp) as L. cbn [length] in L. rewrite need_ok by lia.
  apply at_pos_cons in Hp. rewrite (at_pos_at _ _ _ _ Hp). cbn [bind]. rewrite ExtendedAccessRestriction_rt. reflexivity.
Qed.
Lemma reads_higher : reads higher_at (higher_enc true) true.
Proof.
  intros B c R Hp. unfold higher_at. cbn [higher_enc app] in *. rewrite (at_pos_at _ _ _ _ Hp). cbn [bind]. cbv zeta.
  pose proof (at_pos_len _ _ _ Hp) as L. cbn [length] in L. change (N.to_nat 1) with 1%nat.
  destruct (Nat.leb_spec (c + 1 + 1) (length B)); [|lia].
  apply at_pos_cons in Hp. rewrite (at_pos_at _ _ _ _ Hp). cbn [bind length]. eqbs. do 2 f_equal. lia.
Qed.

(* the flag octets *)
Lemma mm_first_bits sec drx ksi : ksi < 8 ->
  bit (mm_first sec drx ksi) 8 = drx /\ SecurityMode_of (N.shiftr (mm_first sec drx ksi) 5) = sec /\ N.land (mm_first sec drx ksi) 7 = ksi.
Proof. intros H. cases_lt 8%nat H; destruct sec, drx; repeat split; reflexivity. Qed.
Lemma eps_first_bits sec nh drx ksi : ksi < 8 ->
  let x := N.lor (N.lor (N.lor (shl8 (SecurityMode_to sec) 5) (flag nh 16)) (flag drx 8)) (N.land ksi 7) in
  bit x 16 = nh /\ bit x 8 = drx /\ SecurityMode_of (N.shiftr x 5) = sec /\ N.land x 7 = ksi.
Proof. intros H. cases_lt 8%nat H; destruct sec, drx, nh; repeat split; reflexivity. Qed.
Lemma gsm_second_bits n u s : n < 6 ->
  let x := N.lor (shl8 n 5) (ambr_flags u s) in
  N.shiftr x 5 = n /\ bit x 1 = s /\ bit x 2 = u.
Proof. intros H. cases_lt 6%nat H; destruct u, s; repeat split; reflexivity. Qed.
Lemma qq_second_bits n k u s : n < 6 -> k < 6 ->
  let x := N.lor (N.lor (shl8 n 5) (shl8 k 2)) (flag u 2 + flag s 1) in
  N.shiftr x 5 = n /\ N.shiftr (N.land x 28) 2 = k /\ bit x 1 = s /\ bit x 2 = u.
Proof. intros H H2. cases_lt 6%nat H; cases_lt 6%nat H2; destruct u, s; repeat split; reflexivity. Qed.
Lemma umts_second_bits q i g a u s : opt_count q < 6 ->
  let x := umts_second q i g a u s in
  N.shiftr x 5 = opt_count q /\ bit x 16 = i /\ bit x 8 = g /\ bit x 4 = a /\ bit x 1 = s /\ bit x 2 = u.
Proof. unfold umts_second. generalize (opt_count q). intros n H. cases_lt 6%nat H; destruct i, g, a, u, s; repeat split; reflexivity. Qed.
Lemma umts_third_bits int ciph : CipherValues_of (N.land (umts_third int ciph) 7) = ciph /\
  umts_int (is_some int) (umts_third int ciph) = int.
Proof. destruct int as [i|]; [destruct i|]; destruct ciph; split; reflexivity. Qed.
Lemma eps_third_bits s i c :
  let x := N.lor (flag s 128) (N.lor (shl8 (NasIntegrityProtectionValues_to i) 4) (NasCipherValues_to c)) in
  (N.shiftr x 7 =? 1) = s /\ NasIntegrityProtectionValues_of (N.land (N.shiftr x 4) 7) = i /\ NasCipherValues_of (N.land x 15) = c.
Proof. destruct s, i, c; repeat split; reflexivity. Qed.
Lemma cipher_rt c : CipherValues_of (CipherValues_to c) = c.
Proof. destruct c; reflexivity. Qed.

Lemma cap_len o : cap_ok o -> (2 <= length (opt_lv o))%nat.
Proof. destruct o as [l|]; [|contradiction]. intros [H _]. unfold opt_lv. rewrite lv_len. destruct l; [contradiction|]. cbn. lia. Qed.
Ltac mmstep := first
  [ step ltac:(apply reads_quints; assumption) | step ltac:(apply reads_quads; assumption)
  | step ltac:(apply reads_trips; assumption) | step ltac:(apply reads_drx; assumption) | step ltac:(apply reads_ambr; assumption)
  | step ltac:(apply reads_cap; assumption) | step ltac:(apply reads_access) | step ltac:(apply reads_optlv; assumption)
  | step ltac:(apply reads_old; assumption) | step ltac:(apply reads_nh; assumption)
  | step ltac:(apply reads_higher) | step ltac:(apply reads_ext) ]; cbn [bind].

Lemma reads_iov T c : reads (iov_at T true) [c] (Some c).
Proof.
  intros B p R Hp. unfold iov_at. pose proof (at_pos_len _ _ _ Hp) as L. cbn [andb]. destruct (Nat.leb_spec p (length B)); [|lia].
  rewrite (at_pos_at _ _ _ _ Hp). reflexivity.
Qed.
Lemma higher_step {X} h i B c R (k : bool * nat -> res X) out : (h = false -> i <> 1) ->
  at_pos B c (higher_enc h ++ [i] ++ R) ->
  (forall c', at_pos B c' ([i] ++ R) -> k (h, c') = out) -> bind (higher_at B c) k = out.
Proof.
  intros Hi Hp K. destruct h.
  - rewrite (reads_higher B c _ Hp). cbn [bind]. apply K. apply at_pos_next in Hp. exact Hp.
  - cbn [higher_enc app] in Hp. unfold higher_at. rewrite (at_pos_at _ _ _ _ Hp). cbn [bind]. cbv zeta. change (N.to_nat 0) with 0%nat. rewrite Nat.add_0_r.
    pose proof (at_pos_len _ _ _ Hp) as L. cbn [length] in L. destruct (Nat.leb_spec (c + 1) (length B)); [|lia].
    apply at_pos_cons in Hp. rewrite (at_pos_at _ _ _ _ Hp). cbn [bind].
    destruct (N.eqb_spec i 1); [exfalso; apply Hi; auto|]. apply K. exact Hp.
Qed.
(* [cbn [bind]] on these long bodies makes the kernel compare them by unfolding: rewrite instead *)
Lemma at_4th (B : list N) a b c d x4 x5 x6 R : B = a :: b :: c :: d :: ([x4; x5; x6] ++ R) -> at_ (E:=GTPV2Error) B 4 = Ok x4.
Proof. intros ->. reflexivity. Qed.
Lemma at_5th (B : list N) a b c d x4 x5 x6 R : B = a :: b :: c :: d :: ([x4; x5; x6] ++ R) -> at_ (E:=GTPV2Error) B 5 = Ok x5.
Proof. intros ->. reflexivity. Qed.
Lemma at_6th (B : list N) a b c d x4 x5 x6 R : B = a :: b :: c :: d :: ([x4; x5; x6] ++ R) -> at_ (E:=GTPV2Error) B 6 = Ok x6.
Proof. intros ->. reflexivity. Qed.
Lemma at_7th (B : list N) a b c d x4 x5 x6 R : B = a :: b :: c :: d :: ([x4; x5; x6] ++ R) -> at_pos B 7 R.
Proof. intros ->. exists [a; b; c; d; x4; x5; x6]. split; reflexivity. Qed.
Ltac mmopen B HB HL P n :=
  rewrite <- !app_assoc;
  match goal with |- context [need ?b n _ _] => remember b as B eqn:HB end;
  assert (HL : (n <= length B)%nat) by (rewrite HB; cbn [app length]; rewrite ?app_length, ?enc_be_length; cbn [length]; lia);
  rewrite need_ok by assumption; rewrite HB at 1; rewrite hdr4_cons;
  match goal with H : be16 _ _ = _ |- _ => rewrite H end;
  match type of HB with B = ?a :: ?b :: ?c :: ?d :: ([?x4; ?x5; ?x6] ++ ?R) =>
    rewrite (at_4th _ a b c d x4 x5 x6 R HB), (at_5th _ a b c d x4 x5 x6 R HB); try rewrite (at_6th _ a b c d x4 x5 x6 R HB);
    pose proof (at_7th _ a b c d x4 x5 x6 R HB) as P
  end; repeat (rewrite bindOk; cbv beta).
Ltac pslice P n := rewrite (at_pos_slice _ _ _ _ n P) by lia; repeat bk; apply at_pos_next in P.

Lemma MmContextGsmKeyTriplets_rt : forall m x r, wf_ie 103 MmContextGsmKeyTriplets_value MmContextGsmKeyTriplets_ok x ->
  MmContextGsmKeyTriplets_unmarshal m (MmContextGsmKeyTriplets_marshal x ++ r) = Ok x.
Proof.
  ie_rt. destruct v as [sec ksi ciph kc au drx sa ua ue ms mei acc vdn]. destruct Hv as (Hk & Hkc & Hau & Hdrx & Hsa & Hua & Hue & Hms & Hmei & Hvdn).
  unfold MmContextGsmKeyTriplets_value in *. cbn [t_sec t_cksn t_ciph t_kc t_trips t_drx t_sambr t_uambr t_ue t_ms t_mei t_access t_vdn] in *.
  destruct (mm_first_bits sec (is_some drx) ksi Hk) as (F1 & F2 & F3).
  destruct (gsm_second_bits (opt_count au) (is_some ua) (is_some sa) (proj1 (opt_count_small _ _ Hau))) as (G1 & G2 & G3).
  set (x4 := mm_first _ _ _) in *. set (x5 := N.lor _ _) in *. clearbody x4 x5.
  pose proof (cap_len _ Hue). pose proof (cap_len _ Hms). mmopen B HB HL P 20%nat.
  rewrite (at_pos_be _ _ _ _ _ P) by bnd. repeat bk. apply at_pos_next in P. rewrite enc_be_length in P. cbn [Nat.add] in P.
  rewrite F1, F2, F3, G1, G2, G3. do 9 mmstep. fin. rewrite cipher_rt. reflexivity.
Qed.
Lemma MmContextGsmKeyTriplets_lenok : forall m x, wf_ie 103 MmContextGsmKeyTriplets_value MmContextGsmKeyTriplets_ok x -> MmContextGsmKeyTriplets_len m x = Ok (length (MmContextGsmKeyTriplets_marshal x)).
Proof. intros m x H. exact (len_usize_exact _ _ _ x H). Qed.

Lemma MmContextGsmKeyCipherQuintuplets_rt : forall m x r, wf_ie 105 MmContextGsmKeyCipherQuintuplets_value MmContextGsmKeyCipherQuintuplets_ok x ->
  MmContextGsmKeyCipherQuintuplets_unmarshal m (MmContextGsmKeyCipherQuintuplets_marshal x ++ r) = Ok x.
Proof.
  ie_rt. destruct v as [sec ksi ciph kc au drx sa ua ue ms mei acc vdn hi]. destruct Hv as (Hk & Hkc & Hau & Hdrx & Hsa & Hua & Hue & Hms & Hmei & Hvdn & Hhi).
  unfold MmContextGsmKeyCipherQuintuplets_value in *. cbn [g_sec g_cksn g_ciph g_kc g_quints g_drx g_sambr g_uambr g_ue g_ms g_mei g_access g_vdn g_higher] in *. subst hi.
  destruct (mm_first_bits sec (is_some drx) ksi Hk) as (F1 & F2 & F3).
  destruct (gsm_second_bits (opt_count au) (is_some ua) (is_some sa) (proj1 (opt_count_small _ _ Hau))) as (G1 & G2 & G3).
  set (x4 := mm_first _ _ _) in *. set (x5 := N.lor _ _) in *. clearbody x4 x5.
  pose proof (cap_len _ Hue). pose proof (cap_len _ Hms). mmopen B HB HL P 20%nat.
  rewrite (at_pos_be _ _ _ _ _ P) by bnd. repeat bk. apply at_pos_next in P. rewrite enc_be_length in P. cbn [Nat.add] in P.
  rewrite F1, F2, F3, G1, G2, G3. do 10 mmstep. fin. rewrite cipher_rt. reflexivity.
Qed.
Lemma MmContextGsmKeyCipherQuintuplets_lenok : forall m x, wf_ie 105 MmContextGsmKeyCipherQuintuplets_value MmContextGsmKeyCipherQuintuplets_ok x -> MmContextGsmKeyCipherQuintuplets_len m x = Ok (length (MmContextGsmKeyCipherQuintuplets_marshal x)).
Proof. intros m x H. exact (len_usize_exact _ _ _ x H). Qed.

Lemma MmContextUmtsKeyCipherQuintuplets_rt : forall m x r, wf_ie 104 MmContextUmtsKeyCipherQuintuplets_value MmContextUmtsKeyCipherQuintuplets_ok x ->
  MmContextUmtsKeyCipherQuintuplets_unmarshal m (MmContextUmtsKeyCipherQuintuplets_marshal x ++ r) = Ok x.
Proof.
  ie_rt. destruct v as [sec ksi ciph int gu ck ik au drx sa ua ue ms mei acc vdn hi iov].
  destruct Hv as (Hk & Hck & Hik & Hau & Hdrx & Hsa & Hua & Hue & Hms & Hmei & Hvdn & Hiov).
  unfold MmContextUmtsKeyCipherQuintuplets_value in *. cbn [c_sec c_ksi c_ciph c_int c_gupii c_ck c_ik c_quints c_drx c_sambr c_uambr c_ue c_ms c_mei c_access c_vdn c_higher c_iov] in *.
  destruct iov as [iov|]; [|contradiction]. cbn [iov_ok] in Hiov. cbn [is_some] in *.
  destruct (mm_first_bits sec (is_some drx) ksi Hk) as (F1 & F2 & F3).
  destruct (umts_second_bits au true gu (is_some int) (is_some ua) (is_some sa) (proj1 (opt_count_small _ _ Hau))) as (G1 & G2 & G3 & G4 & G5 & G6).
  destruct (umts_third_bits int ciph) as (T1 & T2).
  set (x4 := mm_first _ _ _) in *. set (x5 := umts_second _ _ _ _ _ _) in *. set (x6 := umts_third _ _) in *. clearbody x4 x5 x6.
  pose proof (cap_len _ Hue). pose proof (cap_len _ Hms). mmopen B HB HL P 40%nat.
  pslice P 23%nat. rewrite Hck in P. cbn [Nat.add] in P. pslice P 39%nat. rewrite Hik in P. cbn [Nat.add] in P.
  rewrite F1, F2, F3, G1, G2, G3, G4, G5, G6, T1, T2. do 9 mmstep.
  eapply higher_step; [exact Hiov|exact P|]. clear P. intros c2 P. cbv iota beta. step ltac:(apply reads_iov). fin.
Qed.
Lemma MmContextUmtsKeyCipherQuintuplets_lenok : forall m x, wf_ie 104 MmContextUmtsKeyCipherQuintuplets_value MmContextUmtsKeyCipherQuintuplets_ok x -> MmContextUmtsKeyCipherQuintuplets_len m x = Ok (length (MmContextUmtsKeyCipherQuintuplets_marshal x)).
Proof. intros m x H. exact (len_usize_exact _ _ _ x H). Qed.

Lemma MmContextUmtsKeyQuintuplets_rt : forall m x r, wf_ie 106 MmContextUmtsKeyQuintuplets_value MmContextUmtsKeyQuintuplets_ok x ->
  MmContextUmtsKeyQuintuplets_unmarshal m (MmContextUmtsKeyQuintuplets_marshal x ++ r) = Ok x.
Proof.
  ie_rt. destruct v as [sec ksi ciph int gu ck ik au drx sa ua ue ms mei acc vdn hi iov ext].
  destruct Hv as (Hk & Hck & Hik & Hau & Hdrx & Hsa & Hua & Hue & Hms & Hmei & Hvdn & Hiov).
  unfold MmContextUmtsKeyQuintuplets_value in *. cbn [q_sec q_ksi q_ciph q_int q_gupii q_ck q_ik q_quints q_drx q_sambr q_uambr q_ue q_ms q_mei q_access q_vdn q_higher q_iov q_ext] in *.
  destruct iov as [iov|]; [|contradiction]. cbn [iov_ok] in Hiov. cbn [is_some] in *.
  destruct (mm_first_bits sec (is_some drx) ksi Hk) as (F1 & F2 & F3).
  destruct (umts_second_bits au true gu (is_some int) (is_some ua) (is_some sa) (proj1 (opt_count_small _ _ Hau))) as (G1 & G2 & G3 & G4 & G5 & G6).
  destruct (umts_third_bits int ciph) as (T1 & T2).
  set (x4 := mm_first _ _ _) in *. set (x5 := umts_second _ _ _ _ _ _) in *. set (x6 := umts_third _ _) in *. clearbody x4 x5 x6.
  pose proof (cap_len _ Hue). pose proof (cap_len _ Hms). mmopen B HB HL P 41%nat.
  pslice P 23%nat. rewrite Hck in P. cbn [Nat.add] in P. pslice P 39%nat. rewrite Hik in P. cbn [Nat.add] in P.
  rewrite F1, F2, F3, G1, G2, G3, G4, G5, G6, T1, T2. do 9 mmstep.
  eapply higher_step; [exact Hiov|exact P|]. clear P. intros c2 P. cbv iota beta. step ltac:(apply reads_iov). destruct ext as [ext|].
  - mmstep. fin.
  - unfold ext_access_at. cbn [ext_access_enc app] in P. rewrite (at_pos_at _ _ _ _ P). repeat bk. eqbs. repeat bk. fin.
Qed.
Lemma MmContextUmtsKeyQuintuplets_lenok : forall m x, wf_ie 106 MmContextUmtsKeyQuintuplets_value MmContextUmtsKeyQuintuplets_ok x -> MmContextUmtsKeyQuintuplets_len m x = Ok (length (MmContextUmtsKeyQuintuplets_marshal x)).
Proof. intros m x H. exact (len_usize_exact _ _ _ x H). Qed.

Lemma MmContextUmtsKeyQuadrupletsQuintuplets_rt : forall m x r, wf_ie 108 MmContextUmtsKeyQuadrupletsQuintuplets_value MmContextUmtsKeyQuadrupletsQuintuplets_ok x ->
  MmContextUmtsKeyQuadrupletsQuintuplets_unmarshal m (MmContextUmtsKeyQuadrupletsQuintuplets_marshal x ++ r) = Ok x.
Proof.
  ie_rt. destruct v as [sec ksi ck ik qd qt drx sa ua ue ms mei acc vdn rates].
  destruct Hv as (Hk & Hck & Hik & Hqd & Hqt & Hdrx & Hsa & Hua & Hue & Hms & Hmei & Hvdn & Hr).
  unfold MmContextUmtsKeyQuadrupletsQuintuplets_value in *. cbn [d_sec d_ksi d_ck d_ik d_quads d_quints d_drx d_sambr d_uambr d_ue d_ms d_mei d_access d_vdn d_rates] in *. subst rates.
  destruct (mm_first_bits sec (is_some drx) ksi Hk) as (F1 & F2 & F3).
  destruct (qq_second_bits (opt_count qt) (opt_count qd) (is_some ua) (is_some sa) (proj1 (opt_count_small _ _ Hqt)) (proj1 (opt_count_small _ _ Hqd))) as (G1 & G2 & G3 & G4).
  fold (ambr_flags (is_some ua) (is_some sa)) in G1, G2, G3, G4.
  set (x4 := mm_first _ _ _) in *. set (x5 := N.lor _ _) in *. clearbody x4 x5.
  pose proof (cap_len _ Hue). pose proof (cap_len _ Hms). mmopen B HB HL P 43%nat.
  pslice P 23%nat. rewrite Hck in P. cbn [Nat.add] in P. pslice P 39%nat. rewrite Hik in P. cbn [Nat.add] in P.
  rewrite F1, F2, F3, G1, G2, G3, G4. do 10 mmstep.
  unfold rates_at. cbn [rates_enc app] in P. rewrite (at_pos_at _ _ _ _ P). repeat bk. eqbs. repeat bk. fin.
Qed.
Lemma MmContextUmtsKeyQuadrupletsQuintuplets_lenok : forall m x, wf_ie 108 MmContextUmtsKeyQuadrupletsQuintuplets_value MmContextUmtsKeyQuadrupletsQuintuplets_ok x -> MmContextUmtsKeyQuadrupletsQuintuplets_len m x = Ok (length (MmContextUmtsKeyQuadrupletsQuintuplets_marshal x)).
Proof. intros m x H. exact (len_usize_exact _ _ _ x H). Qed.

Lemma MmContextEpsSecurityContextQuadruplets_rt : forall m x r, wf_ie 107 MmContextEpsSecurityContextQuadruplets_value MmContextEpsSecurityContextQuadruplets_ok x ->
  MmContextEpsSecurityContextQuadruplets_unmarshal m (MmContextEpsSecurityContextQuadruplets_marshal x ++ r) = Ok x.
Proof.
  ie_rt. destruct v as [sec ksi int ciph dl ul kasme qd qt drx nh ncc sa ua ue ms mei acc old vdn radio ext addsec nrsec rates core radioid ensct].
  destruct Hv as (Hk & Hdl & Hul & Hka & Hqd & Hqt & Hdrx & Hnh & Hsa & Hua & Hue & Hms & Hmei & Hold & Hvdn & Hradio & Htail).
  unfold eps_tail_ok in Htail. unfold MmContextEpsSecurityContextQuadruplets_value in *.
  cbn [e_sec e_ksi e_int e_ciph e_dl e_ul e_kasme e_quads e_quints e_drx e_nh e_ncc e_sambr e_uambr e_ue e_ms e_mei e_access e_old e_vdn e_radio e_ext e_addsec e_nrsec e_rates e_core e_radioid e_ensct] in *.
  destruct Htail as (Hext & Hadd & Hnr & Hr & Hc & Hri & He). subst rates core radioid ensct.
  destruct (eps_first_bits sec (is_some nh) (is_some drx) ksi Hk) as (F1 & F2 & F3 & F4).
  destruct (qq_second_bits (opt_count qt) (opt_count qd) (is_some ua) (is_some old) (proj1 (opt_count_small _ _ Hqt)) (proj1 (opt_count_small _ _ Hqd))) as (G1 & G2 & G3 & G4).
  destruct (eps_third_bits (is_some sa) int ciph) as (T1 & T2 & T3).
  set (x4 := N.lor _ (N.land ksi 7)) in *. set (x5 := N.lor _ (flag (is_some ua) 2 + flag (is_some old) 1)) in *. set (x6 := N.lor _ (N.lor _ (NasCipherValues_to ciph))) in *. clearbody x4 x5 x6.
  assert (W : 2 ^ 24 = 16777216) by reflexivity. rewrite W in Hdl, Hul. clear W.
  pose proof (cap_len _ Hue). pose proof (cap_len _ Hms). mmopen B HB HL P 46%nat.
  rewrite (at_pos_be _ _ _ _ _ P) by bnd. repeat bk. apply at_pos_next in P. rewrite enc_be_length in P. cbn [Nat.add] in P.
  rewrite (at_pos_be _ _ _ _ _ P) by bnd. repeat bk. apply at_pos_next in P. rewrite enc_be_length in P. cbn [Nat.add] in P.
  pslice P 45%nat. rewrite Hka in P. cbn [Nat.add] in P.
  rewrite F1, F2, F3, F4, G1, G2, G3, G4, T1, T2, T3. do 13 mmstep.
  assert (Z : forall T B c R, at_pos B c (0 :: R) -> optlv_at T B c = Ok (None, (c + 1)%nat)) by (intros T B' c0 R' Hp; unfold optlv_at; rewrite (at_pos_at _ _ _ _ Hp); reflexivity).
  assert (ZR : forall T B c R, at_pos B c (0 :: R) -> rates_at T B c = Ok (None, c)) by (intros T B' c0 R' Hp; unfold rates_at; rewrite (at_pos_at _ _ _ _ Hp); reflexivity).
  assert (ZE : forall B c R, at_pos B c (0 :: R) -> ensct_at B c = Ok (Some 0)).
  { intros B' c0 R' Hp. unfold ensct_at. pose proof (at_pos_len _ _ _ Hp). destruct (Nat.leb_spec c0 (length B')); [|lia]. rewrite (at_pos_at _ _ _ _ Hp). reflexivity. }
  destruct ext as [ext|].
  - do 3 mmstep. cbn [rates_enc opt_lv app] in P. unfold opt_lv in P. cbn [app] in P.
    rewrite (ZR _ _ _ _ P). repeat bk. rewrite (Z _ _ _ _ P). repeat bk. apply at_pos_cons in P.
    rewrite (Z _ _ _ _ P). repeat bk. apply at_pos_cons in P. rewrite (ZE _ _ _ P). repeat bk. fin.
  - destruct Hext as [Hext|[-> ->]]; [contradiction|].
    unfold ext_access_at. unfold opt_lv in P. cbn [ext_access_enc rates_enc app] in P. rewrite (at_pos_at _ _ _ _ P). repeat bk. eqbs. repeat bk.
    rewrite (Z _ _ _ _ P). repeat bk. apply at_pos_cons in P. rewrite (Z _ _ _ _ P). repeat bk. apply at_pos_cons in P.
    rewrite (ZR _ _ _ _ P). repeat bk. rewrite (Z _ _ _ _ P). repeat bk. apply at_pos_cons in P.
    rewrite (Z _ _ _ _ P). repeat bk. apply at_pos_cons in P. rewrite (ZE _ _ _ P). repeat bk. fin.
Qed.
Lemma MmContextEpsSecurityContextQuadruplets_lenok : forall m x, wf_ie 107 MmContextEpsSecurityContextQuadruplets_value MmContextEpsSecurityContextQuadruplets_ok x -> MmContextEpsSecurityContextQuadruplets_len m x = Ok (length (MmContextEpsSecurityContextQuadruplets_marshal x)).
Proof. intros m x H. exact (len_usize_exact _ _ _ x H). Qed.

Lemma marshal_ie_first {A} T value (x : Tliv A) : exists l, marshal_ie T value x = T :: l.
Proof. unfold marshal_ie. destruct (tliv_shape T (ie_length x) (ie_ins x) (value (ie_v x))) as (h & l & E & _). eauto. Qed.
Lemma MmContext_rt m x r : MmContext_wf x -> MmContext_unmarshal m (MmContext_marshal x ++ r) = Ok x.
Proof.
  intros H. unfold MmContext_unmarshal. destruct x as [i|i|i|i|i|i]; cbn [MmContext_wf MmContext_marshal] in *.
  - rewrite (MmContextEpsSecurityContextQuadruplets_rt m i r H).
    destruct (marshal_ie_first 107 MmContextEpsSecurityContextQuadruplets_value i) as [l E]. unfold MmContextEpsSecurityContextQuadruplets_marshal. rewrite E. reflexivity.
  - rewrite (MmContextUmtsKeyQuintuplets_rt m i r H).
    destruct (marshal_ie_first 106 MmContextUmtsKeyQuintuplets_value i) as [l E]. unfold MmContextUmtsKeyQuintuplets_marshal. rewrite E. reflexivity.
  - rewrite (MmContextUmtsKeyQuadrupletsQuintuplets_rt m i r H).
    destruct (marshal_ie_first 108 MmContextUmtsKeyQuadrupletsQuintuplets_value i) as [l E]. unfold MmContextUmtsKeyQuadrupletsQuintuplets_marshal. rewrite E. reflexivity.
  - rewrite (MmContextUmtsKeyCipherQuintuplets_rt m i r H).
    destruct (marshal_ie_first 104 MmContextUmtsKeyCipherQuintuplets_value i) as [l E]. unfold MmContextUmtsKeyCipherQuintuplets_marshal. rewrite E. reflexivity.
  - rewrite (MmContextGsmKeyTriplets_rt m i r H).
    destruct (marshal_ie_first 103 MmContextGsmKeyTriplets_value i) as [l E]. unfold MmContextGsmKeyTriplets_marshal. rewrite E. reflexivity.
  - rewrite (MmContextGsmKeyCipherQuintuplets_rt m i r H).
    destruct (marshal_ie_first 105 MmContextGsmKeyCipherQuintuplets_value i) as [l E]. unfold MmContextGsmKeyCipherQuintuplets_marshal. rewrite E. reflexivity.
Qed.
Lemma MmContext_lenok m x : MmContext_wf x -> MmContext_len m x = Ok (length (MmContext_marshal x)).
Proof.
  destruct x as [i|i|i|i|i|i]; intros H; cbn [MmContext_len MmContext_marshal].
  - apply MmContextEpsSecurityContextQuadruplets_lenok, H.
  - apply MmContextUmtsKeyQuintuplets_lenok, H.
  - apply MmContextUmtsKeyQuadrupletsQuintuplets_lenok, H.
  - apply MmContextUmtsKeyCipherQuintuplets_lenok, H.
  - apply MmContextGsmKeyTriplets_lenok, H.
  - apply MmContextGsmKeyCipherQuintuplets_lenok, H.
Qed.
