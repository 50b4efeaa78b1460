(* V1Amplify.v - facts for C89: how many octets it takes to send again what was decoded from a GTPv1 packet. *)
From Verif Require Import Base BaseFacts Digits DigitsFacts Labels LabelsFacts V1Errors V1U V1CHdr V1CIe V1CIeFacts V1CKind V1CMsg V1CTables V1CExact V1CrashSpec V1Crash.
Local Open Scope N_scope.
Local Notation res := (Base.res GTPV1Error).

(* --- small inversions ------------------------------------------------------------------------------------------------ *)
Lemma at_lt b i v : @at_ GTPV1Error b i = Ok v -> (i < length b)%nat.
Proof. unfold at_. destruct (nth_error b i) eqn:E; [|discriminate]. intros _. apply nth_error_Some. congruence. Qed.
Lemma slice_len b i j v : @slice GTPV1Error b i j = Ok v -> (i <= j <= length b)%nat /\ length v = (j - i)%nat.
Proof.
  unfold slice. destruct (Nat.leb_spec i j); [|discriminate]. destruct (Nat.leb_spec j (length b)); [|discriminate]. cbn [andb].
  intros E. apply Ok_inj in E. subst v. rewrite firstn_length, skipn_length. lia.
Qed.
Lemma from_len b i v : @slice_from GTPV1Error b i = Ok v -> (i <= length b)%nat /\ v = skipn i b /\ length v = (length b - i)%nat.
Proof. unfold slice_from. destruct (Nat.leb_spec i (length b)); [|discriminate]. intros E. apply Ok_inj in E. subst v. rewrite skipn_length. auto. Qed.
Lemma tlv_size {A} (f : A -> list N) x : length (tlv_marshal f x) = (3 + length (f (tlv_v x)))%nat.
Proof. unfold tlv_marshal, set_tlv_ie_length. rewrite !set_nth_len. reflexivity. Qed.
Lemma tv_size {A} (f : A -> list N) x : length (tv_marshal f x) = S (length (f (tv_v x))).
Proof. reflexivity. Qed.
Lemma pe_size m b x : CPe_unmarshal m b = Ok x -> length (tlv_marshal CPe_value x) = length b.
Proof.
  unfold CPe_unmarshal, var_unmarshal. destruct (Nat.leb_spec 3 (length b)); [|discriminate]. intros E.
  apply bind_ok in E as (l1 & _ & E). apply bind_ok in E as (l2 & _ & E). apply bind_ok in E as (ok & _ & E). destruct ok; [|discriminate].
  apply bind_ok in E as (v & V & E). apply Ok_inj in E. subst x. rewrite tlv_size. cbn [tlv_v].
  apply bind_ok in V as (i & _ & V). apply bind_ok in V as (w & W & V). apply Ok_inj in V. subst v. apply from_len in W as (? & _ & L).
  unfold CPe_value. cbn [pev_id pev_value]. rewrite app_length, L. cbn. lia.
Qed.

(* --- digits and names ------------------------------------------------------------------------------------------------ *)
Lemma filter_map_le {A B} (f : A -> option B) l : (length (Digits.filter_map f l) <= length l)%nat.
Proof. induction l as [|x l IH]; [apply le_n|]. cbn [Digits.filter_map length]. destruct (f x); cbn [length]; lia. Qed.
Lemma nibbles_len b : length (concat (map (fun x => [N.land x 15; N.shiftr x 4]) b)) = (2 * length b)%nat.
Proof. induction b as [|x b IH]; [reflexivity|]. cbn [map concat app length]. lia. Qed.
Lemma tbcd_back b : (length (tbcd_encode (tbcd_decode b)) <= length b)%nat.
Proof.
  unfold tbcd_encode. set (l := Digits.filter_map to_digit (tbcd_decode b)).
  assert (L : (length l <= 2 * length b)%nat).
  { unfold l. etransitivity; [apply filter_map_le|]. unfold tbcd_decode. etransitivity; [apply filter_map_le|]. rewrite nibbles_len. apply le_n. }
  rewrite tbcd_pairs_length. destruct (Nat.odd (length l)) eqn:O.
  - rewrite app_length. cbn [length]. apply Nat.odd_spec in O as (k & K). rewrite K in *. apply Nat.div_le_upper_bound; lia.
  - apply Nat.div_le_upper_bound; lia.
Qed.
Lemma Forall_first {A} (P : A -> Prop) n l : Forall P l -> Forall P (firstn n l).
Proof. intros H. rewrite <- (firstn_skipn n l) in H. apply Forall_app in H. apply H. Qed.
Lemma Forall_skip {A} (P : A -> Prop) n l : Forall P l -> Forall P (skipn n l).
Proof. intros H. rewrite <- (firstn_skipn n l) in H. apply Forall_app in H. apply H. Qed.
Lemma utf8_le s : bytes s -> (length (utf8 s) <= 2 * length s)%nat.
Proof.
  induction 1 as [|c s C S IH]; [apply Nat.le_0_l|]. unfold byte in C. unfold utf8 in *. cbn [map concat]. rewrite app_length. unfold utf8_char at 1.
  destruct (c <? 128); [cbn [length]; lia|]. destruct (N.ltb_spec c 2048); [cbn [length]; lia|lia].
Qed.
Lemma utf8_snoc s c : utf8 (s ++ [c]) = utf8 s ++ utf8_char c.
Proof. unfold utf8. rewrite map_app, concat_app. cbn [map concat]. rewrite app_nil_r. reflexivity. Qed.
Lemma utf8_app s r : utf8 (s ++ r) = utf8 s ++ utf8 r.
Proof. unfold utf8. rewrite map_app, concat_app. reflexivity. Qed.
Lemma utf8_cons c s : utf8 (c :: s) = utf8_char c ++ utf8 s.
Proof. reflexivity. Qed.
Lemma labels_encode_len s : length (labels_encode s) = S (length (utf8 s)).
Proof.
  unfold labels_encode. induction s as [|c s IH]; [reflexivity|]. cbn [split_dot]. rewrite utf8_cons, app_length.
  destruct (N.eqb_spec c 46) as [->|H].
  - cbn [map concat]. rewrite app_length, IH. reflexivity.
  - pose proof (split_dot_nonempty s). destruct (split_dot s) as [|w ws]; [contradiction|]. cbn [map concat] in *. rewrite utf8_cons.
    rewrite !app_length in *. cbn [length] in *. rewrite app_length. lia.
Qed.
Lemma labels_loop_len {E} : forall f d p, @labels_loop E f d = Ok p -> length p = length d /\ (bytes d -> bytes p).
Proof.
  induction f as [|f IH]; intros [|n r] p H; cbn [labels_loop] in H; try discriminate H; try (apply Ok_inj in H; subst p; split; [reflexivity|intros; constructor]).
  destruct (Nat.leb_spec (N.to_nat n) (length r)) as [L|]; [|discriminate H]. destruct (labels_loop f _) as [q| | |] eqn:Q; try discriminate H. cbn [bind] in H.
  apply Ok_inj in H. subst p. apply IH in Q as (Q1 & Q2). rewrite skipn_length in Q1. split.
  - rewrite app_length. cbn [length]. rewrite firstn_length, Q1. lia.
  - intros B. inversion B; subst. apply Forall_app. split; [apply Forall_first; assumption|]. constructor; [unfold byte; lia|]. apply Q2. apply Forall_skip. assumption.
Qed.
Lemma removelast_len {A} (l : list A) : length (removelast l) = (length l - 1)%nat.
Proof. rewrite removelast_firstn_len, firstn_length. lia. Qed.
Lemma removelast_bytes l : bytes l -> bytes (removelast l).
Proof. intros H. rewrite removelast_firstn_len. apply Forall_first. exact H. Qed.
Lemma name_back d s : @labels_decode GTPV1Error d = Ok s -> bytes d -> (length (labels_encode s) <= 2 * length d + 1)%nat.
Proof.
  unfold labels_decode. destruct (labels_loop _ d) as [p| | |] eqn:P; try discriminate. cbn [bind]. intros E B. apply Ok_inj in E. subst s.
  apply labels_loop_len in P as (L & Q). rewrite labels_encode_len. pose proof (utf8_le _ (removelast_bytes _ (Q B))) as U. rewrite removelast_len in U. lia.
Qed.

(* --- elements -------------------------------------------------------------------------------------------------------- *)
Lemma add16_cases m l s : @add16 GTPV1Error m l 3 = Ok s -> (l < 65533 /\ s = l + 3) \/ (m = Release /\ 65533 <= l /\ s = (l + 3) mod 65536).
Proof.
  unfold add16, ov. destruct (N.ltb_spec (l + 3) 65536); intros E.
  - apply Ok_inj in E. left. lia.
  - destruct m; [discriminate|]. apply Ok_inj in E. right. repeat split; [lia|congruence].
Qed.
Definition fits (m : mode) (b : list N) : Prop := m = Debug \/ nlen b < 65536.
Definition small (i : ie1) : Prop := (length (ie1_marshal i) <= 12)%nat.
Lemma tv_small {A} T n k (f : A -> list N) b x : tv_unmarshal T n k b = Ok x -> (forall v, k b = Ok v -> (length (f v) <= 11)%nat) -> (length (tv_marshal f x) <= 12)%nat.
Proof.
  unfold tv_unmarshal. destruct (n <=? length b)%nat; [|discriminate]. intros E H. apply bind_ok in E as (v & V & E). apply Ok_inj in E. subst x.
  rewrite tv_size. cbn [tv_v]. specialize (H v V). lia.
Qed.
Lemma fixed_small {A} T n k (f : A -> list N) b x : fixed_unmarshal T n k b = Ok x -> (forall v, k b = Ok v -> (length (f v) <= 9)%nat) -> (length (tlv_marshal f x) <= 12)%nat.
Proof.
  unfold fixed_unmarshal. destruct (n <=? length b)%nat; [|discriminate]. intros E H. apply bind_ok in E as (l1 & _ & E). apply bind_ok in E as (l2 & _ & E).
  apply bind_ok in E as (v & V & E). apply Ok_inj in E. subst x. rewrite tlv_size. cbn [tlv_v]. specialize (H v V). lia.
Qed.
Lemma var_inv {A} T k m b (x : Tlv A) : var_unmarshal T k m b = Ok x ->
  exists s, k (tlv_length x) b = Ok (tlv_v x) /\ @add16 GTPV1Error m (tlv_length x) 3 = Ok s /\ (N.to_nat s <= length b)%nat /\ len_u16 m x = Ok (N.to_nat s).
Proof.
  unfold var_unmarshal. destruct (3 <=? length b)%nat; [|discriminate]. intros E. apply bind_ok in E as (l1 & _ & E). apply bind_ok in E as (l2 & _ & E).
  apply bind_ok in E as (ok & C & E). destruct ok; [|discriminate]. apply bind_ok in E as (v & V & E). apply Ok_inj in E. subst x. cbn [tlv_length tlv_v].
  unfold check_tlv_ie_buffer in C. destruct (be16 l1 l2 =? 0); [discriminate|]. apply bind_ok in C as (s & S & C). apply Ok_inj in C. apply Nat.leb_le in C.
  exists s. repeat split; [exact V|exact S|exact C|]. unfold len_u16. cbn [tlv_length]. rewrite S. reflexivity.
Qed.
Lemma var_small {A} T k m (f : A -> list N) b x : var_unmarshal T k m b = Ok x -> (forall l v, k l b = Ok v -> (length (f v) <= 9)%nat) -> (length (tlv_marshal f x) <= 12)%nat.
Proof. intros E H. apply var_inv in E as (s & V & _). rewrite tlv_size. apply H in V. lia. Qed.
(* twice what it is stepped over by, and twelve *)
Definition bounded (n : nat) (b : list N) (k : nat) : Prop := (k <= 12 + 2 * Nat.min n (length b))%nat.
Lemma small_bounded n b k : (k <= 12)%nat -> bounded n b k.
Proof. unfold bounded. lia. Qed.
Lemma var_bounded {A} T k m (f : A -> list N) b x n : var_unmarshal T k m b = Ok x -> len_u16 m x = Ok n ->
  (forall s, k (tlv_length x) b = Ok (tlv_v x) -> @add16 GTPV1Error m (tlv_length x) 3 = Ok s -> (N.to_nat s <= length b)%nat -> (length (f (tlv_v x)) <= 9 + 2 * N.to_nat s)%nat) ->
  bounded n b (length (tlv_marshal f x)).
Proof.
  intros E L H. apply var_inv in E as (s & V & S & F & L'). rewrite L' in L. apply Ok_inj in L. subst n. rewrite tlv_size. unfold bounded. specialize (H s V S F). lia.
Qed.
Lemma blob_bounded T m b x n : var_unmarshal T (blob_at m) m b = Ok x -> len_u16 m x = Ok n -> bounded n b (length (tlv_marshal Blob_value x)).
Proof.
  intros E L. apply (var_bounded _ _ _ _ _ _ _ E L). intros s V S _. unfold blob_at in V. rewrite S in V. cbn [bind] in V. apply slice_len in V as (_ & V). unfold Blob_value. lia.
Qed.
Lemma ip_bounded T m b x n : var_unmarshal T ip_at m b = Ok x -> len_u16 m x = Ok n -> bounded n b (length (tlv_marshal Ip_value x)).
Proof.
  intros E L. apply (var_bounded _ _ _ _ _ _ _ E L). intros s V S _. unfold ip_at in V. unfold Ip_value. destruct (N.eqb_spec (tlv_length x) 4).
  - repeat (apply bind_ok in V as (? & _ & V)). apply Ok_inj in V. rewrite <- V. cbn. lia.
  - destruct (N.eqb_spec (tlv_length x) 16) as [Q|]; [|discriminate]. destruct (19 <=? length b)%nat; [|discriminate]. apply bind_ok in V as (o & O & V). apply Ok_inj in V.
    rewrite <- V. apply slice_len in O as (_ & O). cbn [ip_octets]. rewrite Q in S. apply Ok_inj in S. subst s. change (N.to_nat (16 + 3)) with 19%nat. lia.
Qed.
Lemma camel_bounded m b x n : fits m b -> Camel_unmarshal m b = Ok x -> len_u16 m x = Ok n -> bounded n b (length (tlv_marshal Blob_value x)).
Proof.
  intros F E L. unfold Camel_unmarshal in E. destruct (3 <=? length b)%nat; [|discriminate]. apply bind_ok in E as (l1 & _ & E). apply bind_ok in E as (l2 & _ & E).
  apply bind_ok in E as (s & S & E). destruct (Nat.leb_spec (N.to_nat s) (length b)) as [G|]; [|discriminate]. apply bind_ok in E as (v & V & E). apply Ok_inj in E. subst x.
  unfold len_u16 in L. cbn [tlv_length] in L. rewrite S in L. cbn [bind] in L. apply Ok_inj in L. subst n. rewrite tlv_size. cbn [tlv_v]. unfold Blob_value, bounded.
  apply slice_len in V as (V1 & V2). apply add16_cases in S as [(S1 & ->)|(-> & S1 & ->)]; [lia|]. destruct F as [F|F]; [discriminate|]. unfold nlen in F. lia.
Qed.
Lemma apn_bounded m b x n : bytes b -> fits m b -> Apn_unmarshal m b = Ok x -> len_u16 m x = Ok n -> bounded n b (length (tlv_marshal Apn_value x)).
Proof.
  intros B F E L. apply (var_bounded _ _ _ _ _ _ _ E L). intros s V S _. apply bind_ok in V as (d & D & V). unfold Apn_value.
  assert (BD : bytes d).
  { unfold slice in D. destruct (_ && _); [|discriminate]. apply Ok_inj in D. subst d. apply Forall_first, Forall_skip, B. }
  apply slice_len in D as (D1 & D2). apply name_back in V; [|exact BD].
  apply add16_cases in S as [(S1 & ->)|(-> & S1 & ->)]; [lia|]. destruct F as [F|F]; [discriminate|]. unfold nlen in F. lia.
Qed.
Lemma qos_bounded m b x n : Qos_unmarshal m b = Ok x -> len_u16 m x = Ok n -> bounded n b (length (tlv_marshal Qos_value x)).
Proof.
  intros E L. apply (var_bounded _ _ _ _ _ _ _ E L). intros s V S _. apply bind_ok in V as (a & _ & V). rewrite S in V. cbn [bind] in V. apply bind_ok in V as (q & Q & V).
  destruct (_ && _); [|discriminate]. apply Ok_inj in V. rewrite <- V. apply slice_len in Q as (_ & Q). cbn [Qos_value qos_arp qos_qos length]. lia.
Qed.
Lemma eua_bounded m b x n : Eua_unmarshal m b = Ok x -> len_u16 m x = Ok n -> bounded n b (length (tlv_marshal Eua_value x)).
Proof.
  intros E L. apply (var_bounded _ _ _ _ _ _ _ E L). intros s V S _. apply bind_ok in V as (o & _ & V). apply bind_ok in V as (nbr & _ & V).
  assert (Z : forall u w, (length (opt_octets u) + length (opt_octets w) <= 7 + 2 * N.to_nat s)%nat -> forall a c, (length (Eua_value (mkEua a c u w)) <= 9 + 2 * N.to_nat s)%nat).
  { intros u w H a c. unfold Eua_value. cbn [eua_org eua_nbr eua_v4 eua_v6]. destruct (a =? 0); [cbn [length]; lia|]. destruct (a =? 1); [|cbn [length]; lia].
    cbn [length]. rewrite app_length. lia. }
  destruct (_ && _ && _); [apply Ok_inj in V; rewrite <- V; apply Z; cbn; lia|].
  destruct (_ && _ && _); [apply Ok_inj in V; rewrite <- V; apply Z; cbn; lia|].
  destruct (N.eqb_spec (tlv_length x) 6) as [Q|]; cbn [andb] in V.
  { destruct (_ && _).
    - apply bind_ok in V as (a & A & V). apply Ok_inj in V. rewrite <- V. apply slice_len in A as (_ & A). apply Z. cbn [opt_octets length]. lia.
    - rewrite Q in V. discriminate. }
  destruct (N.eqb_spec (tlv_length x) 18) as [Q|]; cbn [andb] in V.
  { destruct (_ && _).
    - apply bind_ok in V as (a & A & V). apply Ok_inj in V. rewrite <- V. apply slice_len in A as (_ & A). apply Z. cbn [opt_octets length].
      rewrite Q in S. apply Ok_inj in S. subst s. change (N.to_nat (18 + 3)) with 21%nat. lia.
    - rewrite Q in V. discriminate. }
  destruct (N.eqb_spec (tlv_length x) 22) as [Q|]; cbn [andb] in V; [|discriminate]. destruct (_ && _); [|discriminate].
  apply bind_ok in V as (a & A & V). apply bind_ok in V as (c & C & V). apply Ok_inj in V. rewrite <- V. apply slice_len in A as (_ & A). apply slice_len in C as (_ & C).
  apply Z. cbn [opt_octets length]. rewrite Q in S. apply Ok_inj in S. subst s. change (N.to_nat (22 + 3)) with 25%nat. lia.
Qed.
Lemma ie_bounded k m b i n : bytes b -> fits m b -> k <> K1_Pe -> ie1_unmarshal k m b = Ok i -> ie1_len m i = Ok n -> bounded n b (length (ie1_marshal i)).
Proof.
  intros B F K E L. destruct k; cbn [ie1_unmarshal] in E; apply bind_ok in E as (x & X & E); apply Ok_inj in E; subst i; cbn [ie1_len ie1_marshal] in *;
  try (exact (blob_bounded _ _ _ _ _ X L)); try (exact (ip_bounded _ _ _ _ _ X L)); try (exact (camel_bounded _ _ _ _ F X L)); try (exact (apn_bounded _ _ _ _ B F X L));
  try (exact (qos_bounded _ _ _ _ X L)); try (exact (eua_bounded _ _ _ _ X L)); try (apply small_bounded);
  try first
    [ apply (tv_small _ _ _ _ _ _ X); intros v V; first [apply Nat.leb_le; reflexivity|destruct v; apply Nat.leb_le; reflexivity|idtac]
    | apply (fixed_small _ _ _ _ _ _ X); intros v V; first [apply Nat.leb_le; reflexivity|destruct v; apply Nat.leb_le; reflexivity|idtac]
    | apply (var_small _ _ _ _ _ _ X); intros l v V ].
  - apply bind_ok in V as (s & S & V). apply Ok_inj in V. subst v. apply slice_len in S as (_ & S). pose proof (tbcd_back s). unfold Imsi_value. lia.
  - unfold Rai_value. rewrite !app_length, plmn_octets_length. cbn [length enc16]. lia.
  - unfold CRecovery_marshal. cbn [length]. lia.
  - rewrite tv_size. cbn. lia.
  - apply bind_ok in V as (a & _ & V). cbv zeta in V. destruct (_ || _); [|discriminate]. apply bind_ok in V as (s & S & V). apply Ok_inj in V. subst v. apply slice_len in S as (_ & S).
    pose proof (tbcd_back s). cbn [Msisdn_value ms_digits length]. lia.
  - unfold Uli_value. destruct (uli_loc v); cbn [length]; rewrite !app_length, plmn_octets_length; cbn [length enc16]; lia.
  - unfold Imei_unmarshal in X. destruct (11 <=? length b)%nat; [|discriminate]. apply bind_ok in X as (s & S & X). apply Ok_inj in X. subst x.
    rewrite tlv_size. cbn [tlv_v]. apply slice_len in S as (_ & S). pose proof (tbcd_back s). unfold Imei_value. lia.
  - unfold Uci_value. rewrite !app_length, plmn_octets_length. cbn [length enc32]. lia.
  - contradiction.
Qed.

(* --- headers --------------------------------------------------------------------------------------------------------- *)
Lemma ext_step m l n : ext_len_of m l = Ok n -> n = 0%nat \/ (4 <= n)%nat.
Proof.
  unfold ext_len_of. rewrite mul8_size. destruct (l <? 64); [|destruct m]; cbn [bind]; intros E; try discriminate E; apply Ok_inj in E; subst n; rewrite Nat2N.id; apply ext_size_cases.
Qed.
Lemma blob_octets t m r x n : Blob_unmarshal t m r = Ok x -> ext_len_of m (be_length x) = Ok n -> length (Blob_marshal x) = n.
Proof.
  intros E L. unfold Blob_unmarshal, ext_checked in E. apply bind_ok in E as (l & _ & E). destruct (l =? 0); [discriminate|]. apply bind_ok in E as (s & S & E).
  destruct (N.to_nat s <=? length r)%nat; [|discriminate]. apply bind_ok in E as (c & C & E). apply Ok_inj in E. subst x. unfold ext_len_of in L. cbn [be_length] in L. rewrite S in L.
  cbn [bind] in L. apply Ok_inj in L. subst n. apply slice_len in C as (C1 & C2). cbn [Blob_marshal be_type be_length be_container app length]. lia.
Qed.
Lemma unknown_octets m r x n : Unknown_unmarshal m r = Ok x -> ext_len_of m (be_length x) = Ok n -> length (Blob_marshal x) = n.
Proof. unfold Unknown_unmarshal. intros E. apply bind_ok in E as (t & _ & E). exact (blob_octets _ _ _ _ _ E). Qed.
(* an extension header read from [r]: it is stepped over within [r], and is sent again with no more than [f] times the octets *)
Definition ext_fits (f : nat) (r : list N) (n k : nat) : Prop := (n <= length r)%nat /\ (n = 0%nat \/ (4 <= n)%nat /\ (k <= f * n)%nat).
Lemma sized_fits m r l n : sized m r (ext_len_of m l) -> ext_len_of m l = Ok n -> (n <= length r)%nat.
Proof. intros (_ & _ & _ & S & Q) L. rewrite L in Q. apply Ok_inj in Q. subst n. exact S. Qed.
Lemma cext_fits m r e n : cext_unmarshal m r = Ok e -> cext_len m e = Ok n -> e <> CX_NoMore -> ext_fits 1 r n (length (cext_marshal e)).
Proof.
  intros E L X. unfold cext_unmarshal in E. apply bind_ok in E as (t & _ & E). destruct (t =? _); [apply Ok_inj in E; subst e; contradiction|].
  repeat (match type of E with (if ?c then _ else _) = _ => destruct c end;
    [apply bind_ok in E as (x & U & E); apply Ok_inj in E; subst e; cbn [cext_len cext_marshal] in *; split; [exact (sized_fits _ _ _ _ (num16_sized _ _ _ _ U) L)|];
     destruct (ext_step _ _ _ L); [left; assumption|right; split; [assumption|]]; unfold Num16_marshal; cbn [app length enc16]; lia|]).
  apply bind_ok in E as (x & U & E); apply Ok_inj in E; subst e; cbn [cext_len cext_marshal] in *. split; [exact (sized_fits _ _ _ _ (unknown_sized _ _ _ U) L)|].
  rewrite (unknown_octets _ _ _ _ U L). destruct (ext_step _ _ _ L); [left; assumption|right; lia].
Qed.
Lemma uext_fits m r e n : ext_unmarshal m r = Ok e -> ext_len m e = Ok n -> e <> NoMoreExtensionHeaders -> ext_fits 2 r n (length (ext_marshal e)).
Proof.
  intros E L X. unfold ext_unmarshal in E. apply bind_ok in E as (t & _ & E). destruct (t =? _); [apply Ok_inj in E; subst e; contradiction|].
  repeat (match type of E with (if ?c then _ else _) = _ => destruct c end;
    [apply bind_ok in E as (x & U & E); apply Ok_inj in E; subst e; cbn [ext_len ext_marshal] in *;
     (split; [first [exact (sized_fits _ _ _ _ (num16_sized _ _ _ _ U) L)|exact (sized_fits _ _ _ _ (long_sized _ _ _ U) L)|exact (sized_fits _ _ _ _ (sci_sized _ _ _ U) L)|exact (sized_fits _ _ _ _ (blob_sized _ _ _ _ U) L)]|]);
     try rewrite (blob_octets _ _ _ _ _ U L);
     (destruct (ext_step _ _ _ L); [left; assumption|right; split; [assumption|]]); unfold Num16_marshal, Long_marshal, Sci_marshal; cbn [app length enc16 enc32]; lia|]).
  apply bind_ok in E as (x & U & E); apply Ok_inj in E; subst e; cbn [ext_len ext_marshal] in *. split; [exact (sized_fits _ _ _ _ (unknown_sized _ _ _ U) L)|].
  rewrite (unknown_octets _ _ _ _ U L). destruct (ext_step _ _ _ L); [left; assumption|right; lia].
Qed.
(* a header of size 0 is read again and again *)
Lemma cext_stuck m e : forall f b c d, e <> CX_NoMore -> (c <= length b)%nat -> cext_unmarshal m (skipn c b) = Ok e -> cext_len m e = Ok 0%nat -> cext_loop m f b c d = Diverge.
Proof.
  induction f as [|f IH]; intros b c d X C U L; [reflexivity|]. cbn [cext_loop]. unfold slice_from. rewrite (proj2 (Nat.leb_le _ _) C). cbn [bind]. rewrite U. cbn [bind].
  destruct e; [contradiction|..]; rewrite L; cbn [bind]; rewrite Nat.add_0_r; apply IH; assumption.
Qed.
Lemma uext_stuck m e : forall f b c d, e <> NoMoreExtensionHeaders -> (c <= length b)%nat -> ext_unmarshal m (skipn c b) = Ok e -> ext_len m e = Ok 0%nat -> ext_loop m f b c d = Diverge.
Proof.
  induction f as [|f IH]; intros b c d X C U L; [reflexivity|]. cbn [ext_loop]. unfold slice_from. rewrite (proj2 (Nat.leb_le _ _) C). cbn [bind]. rewrite U. cbn [bind].
  destruct e; [contradiction|..]; rewrite L; cbn [bind]; rewrite Nat.add_0_r; apply IH; assumption.
Qed.
Lemma at_lt0 {A} b (k : N -> res A) x : (let? t := at_ b 0 in k t) = Ok x -> (0 < length b)%nat.
Proof. intros E. apply bind_ok in E as (t & T & _). exact (at_lt _ _ _ T). Qed.
Lemma cext_loop_size m : forall f b c d l, cext_loop m f b c d = Ok l -> exists q, l = d ++ q /\ exists s, cext_len_sum m q = Ok s /\ (c + s < length b)%nat /\ (length (concat (map cext_marshal q)) <= s)%nat.
Proof.
  induction f as [|f IH]; intros b c d l E; [discriminate|]. cbn [cext_loop] in E. apply bind_ok in E as (r & R & E). apply from_len in R as (C & -> & RL). apply bind_ok in E as (e & U & E).
  assert (P : (0 < length (skipn c b))%nat) by (exact (at_lt0 _ _ _ U)). rewrite RL in P.
  assert (D : e = CX_NoMore \/ e <> CX_NoMore) by (destruct e; [left; reflexivity|right; discriminate..]). destruct D as [->|D].
  - apply Ok_inj in E. subst l. exists []. split; [symmetry; apply app_nil_r|]. exists 0%nat. cbn. repeat split; lia.
  - assert (E' : (let? n := cext_len m e in cext_loop m f b (c + n) (d ++ [e])) = Ok l) by (destruct e; [contradiction|exact E..]). clear E. apply bind_ok in E' as (n & L & E).
    pose proof (cext_fits _ _ _ _ U L D) as (F & [Z|(F1 & F2)]).
    { subst n. rewrite Nat.add_0_r in E. rewrite (cext_stuck m e f b c) in E by assumption. discriminate. }
    apply IH in E as (q & -> & s & S & B & V). exists (e :: q). split; [rewrite <- app_assoc; reflexivity|]. exists (n + s)%nat. cbn [cext_len_sum]. rewrite L, S. split; [reflexivity|].
    split; [lia|]. cbn [map concat]. rewrite app_length. lia.
Qed.
Lemma uext_loop_size m : forall f b c d l, ext_loop m f b c d = Ok l -> exists q, l = d ++ q /\ exists s, ext_len_sum m q = Ok s /\ (c + s < length b)%nat /\ (length (concat (map ext_marshal q)) <= 2 * s)%nat.
Proof.
  induction f as [|f IH]; intros b c d l E; [discriminate|]. cbn [ext_loop] in E. apply bind_ok in E as (r & R & E). apply from_len in R as (C & -> & RL). apply bind_ok in E as (e & U & E).
  assert (P : (0 < length (skipn c b))%nat) by (exact (at_lt0 _ _ _ U)). rewrite RL in P.
  assert (D : e = NoMoreExtensionHeaders \/ e <> NoMoreExtensionHeaders) by (destruct e; [left; reflexivity|right; discriminate..]). destruct D as [->|D].
  - apply Ok_inj in E. subst l. exists []. split; [symmetry; apply app_nil_r|]. exists 0%nat. cbn. repeat split; lia.
  - assert (E' : (let? n := ext_len m e in ext_loop m f b (c + n) (d ++ [e])) = Ok l) by (destruct e; [contradiction|exact E..]). clear E. apply bind_ok in E' as (n & L & E).
    pose proof (uext_fits _ _ _ _ U L D) as (F & [Z|(F1 & F2)]).
    { subst n. rewrite Nat.add_0_r in E. rewrite (uext_stuck m e f b c) in E by assumption. discriminate. }
    apply IH in E as (q & -> & s & S & B & V). exists (e :: q). split; [rewrite <- app_assoc; reflexivity|]. exists (n + s)%nat. cbn [ext_len_sum]. rewrite L, S. split; [reflexivity|].
    split; [lia|]. cbn [map concat]. rewrite app_length. lia.
Qed.
Lemma chdr_size m b h : chdr_unmarshal m b = Ok h -> exists n, chdr_len m h = Ok n /\ (length (chdr_marshal h) <= n)%nat /\ (n <= length b + 2)%nat /\ (8 <= length b)%nat.
Proof.
  unfold chdr_unmarshal. destruct (Nat.ltb_spec (length b) 8) as [|B8]; [discriminate|]. intros E. apply bind_ok in E as (b0 & _ & E). destruct (_ && _); [|discriminate].
  do 7 (apply bind_ok in E as (? & _ & E)). destruct (N.land b0 7 =? 0).
  { apply Ok_inj in E. subst h. exists 8%nat. cbn. repeat split; lia. }
  apply bind_ok in E as (sq & SQ & E). apply bind_ok in E as (np & NP & E). apply bind_ok in E as (ex & EX & E). apply Ok_inj in E. subst h.
  assert (S1 : is_some sq = true -> (10 <= length b)%nat).
  { destruct (_ =? 1) in SQ; [|apply Ok_inj in SQ; subst sq; discriminate]. intros _. apply bind_ok in SQ as (r & R & SQ). apply from_len in R as (_ & _ & R).
    destruct (Nat.ltb_spec (length r) 2); [discriminate|]. lia. }
  assert (S2 : is_some np = true -> (11 <= length b)%nat).
  { destruct (_ =? 1) in NP; [|apply Ok_inj in NP; subst np; discriminate]. intros _. apply bind_ok in NP as (r & R & NP). apply from_len in R as (_ & _ & R).
    destruct (Nat.ltb_spec (length r) 3); [discriminate|]. lia. }
  destruct ex as [l|].
  - destruct (_ =? 1) in EX; [|discriminate EX]. apply bind_ok in EX as (r & R & EX). destruct (length r <? 4)%nat; [discriminate|]. apply bind_ok in EX as (r' & R' & EX).
    apply from_len in R' as (R1 & -> & R2). apply bind_ok in EX as (l' & EL & EX). apply Ok_inj in EX. injection EX as ->. unfold c_unmarshal_ext in EL.
    apply cext_loop_size in EL as (q & -> & s & S & BB & V). cbn [app] in *. exists (8 + 2 + 1 + s + 1)%nat. unfold chdr_len. cbn [c_ext]. rewrite S. split; [reflexivity|].
    split; [|split; [|exact B8]]; [|lia]. unfold chdr_marshal, c_marshal_ext. cbn [c_sqn c_npdu c_ext is_some negb andb]. rewrite andb_false_r. cbn [andb].
    cbn [app length enc16 enc32]. rewrite app_length. cbn [length]. lia.
  - cbn [chdr_len c_ext c_sqn c_npdu]. destruct sq as [sq|]; cbn [is_some orb] in *.
    + exists 12%nat. split; [reflexivity|]. cbn. specialize (S1 eq_refl). split; [lia|]. split; [lia|exact B8].
    + destruct np as [np|]; cbn [is_some orb] in *; [exists 12%nat|exists 8%nat]; (split; [reflexivity|]); cbn; [specialize (S2 eq_refl)|]; repeat split; lia.
Qed.
Lemma uhdr_size m b h : hdr_unmarshal m b = Ok h -> exists n, get_header_size m h = Ok n /\ (length (hdr_marshal h) <= 2 * n)%nat /\ (n <= length b)%nat.
Proof.
  unfold hdr_unmarshal. destruct (Nat.leb_spec 8 (length b)) as [B8|]; [|discriminate]. intros E. apply bind_ok in E as (b0 & _ & E). destruct (_ && _); [|discriminate].
  do 3 (apply bind_ok in E as (? & _ & E)). destruct (_ =? 0); [discriminate|]. do 4 (apply bind_ok in E as (? & _ & E)).
  assert (P : forall mt len td, @Ok GTPV1Error _ (mkHdr mt len td None None None) = Ok h -> exists n, get_header_size m h = Ok n /\ (length (hdr_marshal h) <= 2 * n)%nat /\ (n <= length b)%nat).
  { intros mt len td Q. injection Q as <-. exists 8%nat. cbn. repeat split; lia. }
  assert (O : forall mt len td np ex, hdr_optional m b mt len td np ex = Ok h -> exists n, get_header_size m h = Ok n /\ (length (hdr_marshal h) <= 2 * n)%nat /\ (n <= length b)%nat).
  { intros mt len td np ex Q. unfold hdr_optional in Q. apply bind_ok in Q as (o & OO & Q). apply from_len in OO as (_ & _ & OL). destruct (Nat.leb_spec 4 (length o)); [|discriminate].
    do 2 (apply bind_ok in Q as (? & _ & Q)). apply bind_ok in Q as (nn & _ & Q). destruct ex.
    - apply bind_ok in Q as (r & R & Q). apply from_len in R as (R1 & -> & R2). apply bind_ok in Q as (l & L & Q). apply Ok_inj in Q. subst h. unfold unmarshal_ext_hdr in L.
      apply uext_loop_size in L as (q & -> & s & S & BB & V). cbn [app] in *. exists (8 + 2 + 1 + s + 1)%nat. unfold get_header_size. cbn [extension_headers]. rewrite S. split; [reflexivity|].
      split; [|lia]. unfold hdr_marshal, marshal_ext_hdr. cbn [sequence_number npdu_number extension_headers]. destruct nn; cbn [app length enc16 enc32]; rewrite app_length; cbn [length]; lia.
    - apply Ok_inj in Q. subst h. exists 12%nat. unfold get_header_size. cbn [extension_headers sequence_number is_some orb]. split; [reflexivity|]. split; [|lia].
      destruct nn; cbn; lia. }
  unfold hdr_flags in E. repeat match type of E with match ?c with _ => _ end = _ => destruct c end; solve [exact (P _ _ _ E)|exact (O _ _ _ _ _ E)].
Qed.
