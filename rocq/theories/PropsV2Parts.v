(* PropsV2Parts.v - C88: the structures inside GTPv2-C elements on their own. *)
From Verif Require Import Base BaseFacts V2Base V2BaseFacts V2Common V2IeF V2OkCommon V2OkF V2CommonFacts V2IeFacts V2IeFFacts V2Parts V2CrashSpec V2Crash.
Local Open Scope N_scope.

(* --- specification --------------------------------------------------------------------------------------------------- *)
(* the values of a structure that its octets have room for *)
Definition rnc_fits (v : rnc_id) : Prop := Rai_ok (rn_rai v) /\ u16 (rn_id v) /\ (forall e, rn_ext v = Some e -> u16 e).
Definition en_gnb_fits (v : en_gnb) : Prop :=
  plmn_ok (eg_plmn v) /\ eg_length v < 64 /\ u32 (eg_id v) /\ (forall t, eg_tac v = Some t -> u16 t) /\ (forall e, eg_etac v = Some e -> length e = 3%nat).
Definition source_rnc_fits (v : source_rnc) : Prop := plmn_ok (sr_plmn v) /\ u16 (sr_id v) /\ (forall e, sr_ext v = Some e -> u16 e).
Definition part_fits (p : part) : Prop :=
  match p with
  | P_Cgi v => Cgi_ok v | P_Sai v => Sai_ok v | P_Rai v => Rai_ok v | P_Tai v => Tai_ok v | P_Ecgi v => Ecgi_ok v | P_Lai v => Lai_ok v
  | P_MacroEnbId v => MacroEnbId_ok v | P_ExtMacroEnbId v => ExtMacroEnbId_ok v | P_AuthTriplet v => AuthTriplet_ok v
  | P_AuthQuintuplet v => AuthQuintuplet_ok v | P_AuthQuadruplet v => AuthQuadruplet_ok v
  | P_ApnRateControlStatusMM v => ApnRateControlStatusMM_ok v | P_AmbrMM v => AmbrMM_ok v
  | P_OldEpsSecurityContext v => oe_ksi v < 8 /\ length (oe_kasme v) = 32%nat /\ (forall n, oe_next_hop v = Some n -> length n = 32%nat) /\
      (forall c, oe_ncc v = Some c -> c < 8)
  | P_RncIdentifier v => rnc_fits v
  | P_MacroEnbIdentifier v => MacroEnbId_ok (mt_enb v) /\ u16 (mt_tac v)
  | P_ExtendedMacroEnbIdentifier v => ExtMacroEnbId_ok (xt_enb v) /\ u16 (xt_tac v)
  | P_CellIdentifier v => CellIdentifier_ok v
  | P_GNbIdentifier v => plmn_ok (gn_plmn v) /\ u32 (gn_id v) /\ length (gn_etac v) = 3%nat
  | P_MacronGeNbIdentifier v => MacroEnbId_ok (mn_enb v) /\ length (mn_etac v) = 3%nat
  | P_ExtendedGeNbIdentifier v => ExtMacroEnbId_ok (xn_enb v) /\ length (xn_etac v) = 3%nat
  | P_EnGNbIdentifier v => en_gnb_fits v
  | P_SourceRncIdentifier v => source_rnc_fits v
  | P_TargetType (Tt_Rnc v) => rnc_fits v
  | P_TargetType (Tt_EnGNb v) => en_gnb_fits v
  | P_TargetType (Tt_MacroEnbIdentifier v) => MacroEnbId_ok v
  | P_TargetType Tt_Spare => True
  | P_TargetType t => target_type_ok t
  | P_SourceType (St_Rnc v) => source_rnc_fits v
  | P_SourceType (St_Cell v) => CellIdentifier_ok v
  | P_SourceType St_Spare => True
  end.
(* when len() is the number of octets marshal() writes *)
Definition measured (p : part) : Prop :=
  match p with
  | P_Rai _ => False
  | P_EnGNbIdentifier v => eg_tac v = None /\ eg_etac v = None
  | P_TargetType (Tt_EnGNb v) => eg_tac v = None /\ eg_etac v = None
  | P_TargetType (Tt_MacroEnbIdentifier _) | P_TargetType Tt_Spare | P_SourceType St_Spare => False
  | _ => True
  end.
Definition is_choice (p : part) : bool := match p with P_TargetType _ | P_SourceType _ => true | _ => false end.
(* the octet that precedes a choice inside its element and says what it is; marshal() of the choice does not write it, unmarshal()
   reads it *)
Definition kind_octet (p : part) : list N :=
  match p with P_TargetType t => [target_type_to t] | P_SourceType s => [source_type_to s] | _ => [] end.
(* the structure that a choice holds *)
Definition held (p : part) : part :=
  match p with
  | P_TargetType (Tt_Rnc v) => P_RncIdentifier v | P_TargetType (Tt_MacroeNb v) => P_MacroEnbIdentifier v
  | P_TargetType (Tt_Cell v) => P_CellIdentifier v | P_TargetType (Tt_Home v) => P_MacroEnbIdentifier v
  | P_TargetType (Tt_ExtMacro v) => P_ExtendedMacroEnbIdentifier v | P_TargetType (Tt_GNb v) => P_GNbIdentifier v
  | P_TargetType (Tt_MacroNg v) => P_MacronGeNbIdentifier v | P_TargetType (Tt_ExtNg v) => P_ExtendedGeNbIdentifier v
  | P_TargetType (Tt_EnGNb v) => P_EnGNbIdentifier v
  | P_SourceType (St_Rnc v) => P_SourceRncIdentifier v | P_SourceType (St_Cell v) => P_CellIdentifier v
  | _ => p
  end.
(* when a structure that is followed by the octets [rest] is read back *)
Definition readable (p : part) (rest : list N) : Prop :=
  match held p with
  | P_OldEpsSecurityContext v => (oe_next_hop v = None <-> oe_ncc v = None)
  | P_RncIdentifier v => rn_ext v = None -> (length rest < 2)%nat
  | P_EnGNbIdentifier v => eg_tac v <> None /\ eg_etac v <> None
  | P_SourceRncIdentifier v => sr_ext v = None -> rest = []
  | P_TargetType (Tt_MacroEnbIdentifier _) => False
  | _ => True
  end.
(* the octets on which unmarshal() panics; [oct b i] is octet i, 0 if there is none *)
Definition part_overruns (k : part_kind) (b : list N) : Prop :=
  match k with
  | PK_AuthQuintuplet => length b = 16%nat \/ length b = (49 + N.to_nat (oct b 16))%nat
  | PK_AuthQuadruplet => length b = (17 + N.to_nat (oct b 16))%nat
  | PK_ApnRateControlStatusMM => (length b = 2%nat \/ length b = 3%nat) /\ (256 * N.to_nat (oct b 0) + N.to_nat (oct b 1) + 2 <= length b)%nat
  | PK_OldEpsSecurityContext | PK_TargetType => b = []
  | PK_SourceRncIdentifier => (length b < 5)%nat
  | PK_SourceType => b = [] \/ (oct b 0 = 1 /\ (length b < 6)%nat)
  | _ => False
  end.
(* what says that it is empty: [t] whether the network code has three digits, [s] whether the eNB is a short macro eNB, [n] the
   length of a gNB identity, [c] a next hop chaining count, [e] an eNB identity *)
Definition blanks (t s : bool) (n : N) (c : option N) (e : macro_enb) : list part :=
  let p := mkPlmn 0 0 t in
  let rnc := mkRncId (mkRai p 0 0) 0 None in let macro := mkMacroTac (mkMacroEnb p 0) 0 in
  let ext := mkExtTac (mkExtMacroEnb p s 0) 0 in let cell := mkCellId p 0 0 0 in let gnb := mkGnb p n 0 [0; 0; 0] in
  let macro_ng := mkMacroNg (mkMacroEnb p 0) [0; 0; 0] in let ext_ng := mkExtNg (mkExtMacroEnb p s 0) [0; 0; 0] in
  let engnb := mkEnGnb p n 0 None None in let source := mkSourceRnc p 0 None in
  [ P_Cgi (mkCgi p 0 0); P_Sai (mkSai p 0 0); P_Rai (mkRai p 0 0); P_Tai (mkTai p 0); P_Ecgi (mkEcgi p 0); P_Lai (mkLai p 0);
    P_MacroEnbId (mkMacroEnb p 0); P_ExtMacroEnbId (mkExtMacroEnb p s 0);
    P_AuthTriplet (mkTriplet (repeat 0 16) (repeat 0 4) (repeat 0 8));
    P_AuthQuintuplet (mkQuint (repeat 0 16) [] (repeat 0 16) (repeat 0 16) []);
    P_AuthQuadruplet (mkQuad (repeat 0 16) [] [] (repeat 0 32));
    P_ApnRateControlStatusMM (mkApnRateMm [] 0 0 0 (repeat 0 8)); P_AmbrMM (mkAmbrMm 0 0);
    P_OldEpsSecurityContext (mkOldEps 0 c (repeat 0 32) None);
    P_RncIdentifier rnc; P_MacroEnbIdentifier macro; P_ExtendedMacroEnbIdentifier ext; P_CellIdentifier cell; P_GNbIdentifier gnb;
    P_MacronGeNbIdentifier macro_ng; P_ExtendedGeNbIdentifier ext_ng; P_EnGNbIdentifier engnb; P_SourceRncIdentifier source;
    P_TargetType (Tt_Rnc rnc); P_TargetType (Tt_MacroeNb macro); P_TargetType (Tt_Cell cell); P_TargetType (Tt_Home macro);
    P_TargetType (Tt_ExtMacro ext); P_TargetType (Tt_GNb gnb); P_TargetType (Tt_MacroNg macro_ng); P_TargetType (Tt_ExtNg ext_ng);
    P_TargetType (Tt_EnGNb engnb); P_TargetType (Tt_MacroEnbIdentifier e); P_TargetType Tt_Spare;
    P_SourceType (St_Rnc source); P_SourceType (St_Cell cell); P_SourceType St_Spare ].

(* --- proofs ---------------------------------------------------------------------------------------------------------- *)
Lemma RncIdentifier_len v : length (RncIdentifier_enc v) = RncIdentifier_part_len v.
Proof. unfold RncIdentifier_enc, RncIdentifier_part_len. rewrite !app_length, Rai_short_len, enc_be_length. destruct (rn_ext v); cbn [is_some opt_be length]; [rewrite enc_be_length|]; lia. Qed.
Lemma EnGNbIdentifier_len v : en_gnb_fits v -> length (EnGNbIdentifier_enc v) =
  (8 + (if is_some (eg_tac v) then 2 else 0) + (if is_some (eg_etac v) then 3 else 0))%nat.
Proof.
  intros (_ & _ & _ & _ & E). unfold EnGNbIdentifier_enc. rewrite !app_length, plmn_len, enc_be_length. destruct (eg_tac v); cbn [is_some opt_be length]; [rewrite enc_be_length|];
  destruct (eg_etac v) as [e|]; cbn [is_some opt_octets length]; try rewrite (E e eq_refl); lia.
Qed.
Lemma SourceRncIdentifier_len v : length (SourceRncIdentifier_enc v) = SourceRncIdentifier_size v.
Proof. unfold SourceRncIdentifier_enc, SourceRncIdentifier_size. rewrite !app_length, plmn_len, enc_be_length. destruct (sr_ext v); cbn [is_some opt_be length]; [rewrite enc_be_length|]; lia. Qed.

(* --- theorems -------------------------------------------------------------------------------------------------------- *)
(* len() is the number of octets that marshal() writes, exactly for the structures of [measured]. *)
Theorem C88_measure_partial : forall p, part_fits p -> (part_len p = length (part_marshal p) <-> measured p).
Proof.
  intros p H. destruct p as [v|v|v|v|v|v|v|v|v|v|v|v|v|v|v|v|v|v|v|v|v|v|t|v|s]; cbn [part_len part_marshal measured part_fits] in *;
  try (split; [intros _; exact I|intros _]).
  - rewrite Cgi_size. reflexivity.
  - rewrite Sai_size. reflexivity.
  - rewrite Rai_size. split; [discriminate|contradiction].
  - rewrite Tai_size. reflexivity.
  - rewrite Ecgi_size. reflexivity.
  - rewrite Lai_size. reflexivity.
  - rewrite MacroEnbId_size. reflexivity.
  - rewrite ExtMacroEnbId_size. reflexivity.
  - rewrite AuthTriplet_size by exact H. reflexivity.
  - symmetry. apply AuthQuintuplet_size_ok, H.
  - symmetry. apply AuthQuadruplet_size_ok, H.
  - symmetry. apply ApnRateControlStatusMM_size_ok, H.
  - rewrite AmbrMM_size. reflexivity.
  - destruct H as (_ & K & N & _). unfold OldEpsSecurityContext_size, OldEpsSecurityContext_enc. cbn [length]. rewrite app_length, K. destruct (oe_next_hop v) as [n|]; cbn [is_some length]; [rewrite (N n eq_refl)|]; lia.
  - symmetry. apply RncIdentifier_len.
  - unfold MacroEnbIdentifier_enc. rewrite app_length, MacroEnbId_size, enc_be_length. reflexivity.
  - unfold ExtendedMacroEnbIdentifier_enc. rewrite app_length, ExtMacroEnbId_size, enc_be_length. reflexivity.
  - rewrite CellIdentifier_size. reflexivity.
  - destruct H as (_ & _ & E). unfold GNbIdentifier_enc. rewrite !app_length, plmn_len, enc_be_length, E. reflexivity.
  - destruct H as (_ & E). unfold MacronGeNbIdentifier_enc. rewrite app_length, MacroEnbId_size, E. reflexivity.
  - destruct H as (_ & E). unfold ExtendedGeNbIdentifier_enc. rewrite app_length, ExtMacroEnbId_size, E. reflexivity.
  - rewrite EnGNbIdentifier_len by exact H. unfold EnGNbIdentifier_size. destruct (eg_tac v), (eg_etac v); cbn [is_some]; split; intros Q; try discriminate Q; try (destruct Q; discriminate); auto.
  - destruct t as [v|v|v|v|v|v|v|v|v|v|]; cbn [part_fits] in H; cbn [target_type_size target_type_enc];
    try (split; [intros _; exact I|intros _]); try (split; [discriminate|contradiction]).
    + symmetry. apply RncIdentifier_len.
    + unfold MacroEnbIdentifier_enc. rewrite app_length, MacroEnbId_size, enc_be_length. reflexivity.
    + rewrite CellIdentifier_size. reflexivity.
    + unfold MacroEnbIdentifier_enc. rewrite app_length, MacroEnbId_size, enc_be_length. reflexivity.
    + unfold ExtendedMacroEnbIdentifier_enc. rewrite app_length, ExtMacroEnbId_size, enc_be_length. reflexivity.
    + destruct H as (_ & _ & E). unfold etac_ok in E. unfold GNbIdentifier_enc. rewrite !app_length, plmn_len, enc_be_length, E. reflexivity.
    + destruct H as (_ & E). unfold etac_ok in E. unfold MacronGeNbIdentifier_enc. rewrite app_length, MacroEnbId_size, E. reflexivity.
    + destruct H as (_ & E). unfold etac_ok in E. unfold ExtendedGeNbIdentifier_enc. rewrite app_length, ExtMacroEnbId_size, E. reflexivity.
    + rewrite EnGNbIdentifier_len by exact H. unfold EnGNbIdentifier_size. destruct (eg_tac v), (eg_etac v); cbn [is_some]; split; intros Q; try discriminate Q; try (destruct Q; discriminate); auto.
  - symmetry. apply SourceRncIdentifier_len.
  - destruct s as [v|v|]; cbn [part_fits] in H; cbn [source_type_size source_type_enc]; try (split; [intros _; exact I|intros _]); try (split; [discriminate|contradiction]).
    + symmetry. apply SourceRncIdentifier_len.
    + rewrite CellIdentifier_size. reflexivity.
Qed.

Lemma bind_Ok_inv {A B} (r : res A) (k : A -> res B) y : bind r k = Ok y -> exists x, r = Ok x /\ k x = Ok y.
Proof. destruct r; cbn [bind]; intros H; try discriminate. eauto. Qed.
Lemma orelse_Ok {A} (r : res A) e x : orelse r e = Ok x <-> r = Ok x.
Proof. destruct r; cbn [orelse]; split; intros H; congruence. Qed.
Lemma need_inv {A} b n e (k : res A) x : need b n e k = Ok x -> (n <= length b)%nat /\ k = Ok x.
Proof. unfold need. destruct (Nat.leb_spec n (length b)); [auto|discriminate]. Qed.
Lemma as_part_Ok {A} (f : A -> part) r v : (forall x y, f x = f y -> x = y) -> (as_part f r = Ok (f v) <-> r = Ok v).
Proof. intros I. unfold as_part. destruct r; cbn [bind]; split; intros H; try congruence. apply Ok_inj in H. apply I in H. congruence. Qed.
Ltac binv := repeat match goal with
  | H : need _ _ _ _ = Ok _ |- _ => apply need_inv in H; destruct H as [? H]
  | H : bind _ _ = Ok _ |- _ => apply bind_Ok_inv in H; destruct H as (? & ? & H)
  | H : Err _ = Ok _ |- _ => discriminate H
  | H : Panic = Ok _ |- _ => discriminate H
  end.
Lemma RncIdentifier_inv b v : RncIdentifier_dec b = Ok v -> (8 <= length b)%nat /\ (rn_ext v = None <-> (length b < 10)%nat).
Proof.
  unfold RncIdentifier_dec. destruct (Nat.leb_spec 8 (length b)), (Nat.ltb_spec (length b) 10), (Nat.leb_spec 10 (length b)); cbn [andb]; intros Q; binv;
  try lia; apply Ok_inj in Q; subst v; cbn [rn_ext]; (split; [lia|split; [lia + discriminate|lia + discriminate || reflexivity]]).
Qed.
Lemma SourceRncIdentifier_inv b v : SourceRncIdentifier_dec b = Ok v ->
  (5 <= length b)%nat /\ length b <> 6%nat /\ (sr_ext v = None <-> length b = 5%nat).
Proof.
  unfold SourceRncIdentifier_dec. destruct (Nat.ltb_spec (length b) 6), (Nat.leb_spec 7 (length b)); intros Q; binv; try lia; apply Ok_inj in Q; subst v; cbn [sr_ext].
  - match goal with E : be_at b 3 2 = Ok _ |- _ => unfold be_at, slice in E; destruct (Nat.leb_spec 3 (3 + 2)), (Nat.leb_spec (3 + 2) (length b)); cbn [andb bind] in E; try discriminate E end; try lia.
    split; [lia|split; [lia|split; [lia|reflexivity]]].
  - split; [lia|split; [lia|split; [discriminate|lia]]].
Qed.
Lemma EnGNbIdentifier_inv b v : EnGNbIdentifier_dec b = Ok v -> (13 <= length b)%nat /\ eg_tac v <> None /\ eg_etac v <> None.
Proof.
  unfold EnGNbIdentifier_dec. intros Q. binv. destruct (bit x 64); [|discriminate]. binv. destruct (bit x 128); [|discriminate]. binv. apply Ok_inj in Q. subst v. cbn [eg_tac eg_etac].
  split; [lia|split; discriminate].
Qed.
Lemma OldEps_inv b v : OldEpsSecurityContext_dec b = Ok v -> (oe_next_hop v = None <-> oe_ncc v = None).
Proof.
  unfold OldEpsSecurityContext_dec. intros Q. binv. destruct (_ =? 0); [|destruct (_ =? 1); [|discriminate]]; binv; apply Ok_inj in Q; subst v; cbn [oe_next_hop oe_ncc]; split; congruence.
Qed.
Lemma RncIdentifier_none v r : rnc_fits v -> rn_ext v = None -> (length r < 2)%nat -> RncIdentifier_dec (RncIdentifier_enc v ++ r) = Ok v.
Proof.
  destruct v as [ra i o]. intros (H1 & H2 & _) E Lr. cbn [rn_rai rn_id rn_ext] in *. subst o. unfold RncIdentifier_dec, RncIdentifier_enc. cbn [rn_rai rn_id rn_ext opt_be]. rewrite app_nil_r.
  rewrite <- !app_assoc. pose proof (Rai_short ra H1) as HR. pose proof (Rai_short_len ra) as HL. set (s := removelast (Rai_enc ra)) in *. clearbody s.
  assert (L : length (s ++ enc_be 2 i ++ r) = (8 + length r)%nat) by lens.
  destruct (Nat.leb_spec 8 (length (s ++ enc_be 2 i ++ r))) as [_|Q]; [|lia].
  destruct (Nat.ltb_spec (length (s ++ enc_be 2 i ++ r)) 10) as [_|Q]; [|lia]. cbn [andb].
  rewrite slice_here by lia. bk. rewrite HR. cbn [orelse]. bk. rewrite !(be_at_skip s) by lia. rewrite HL. cbn [Nat.sub].
  rewrite be_at_enc by bnd. bk. reflexivity.
Qed.
Lemma RncIdentifier_back v r : rnc_fits v -> (RncIdentifier_dec (RncIdentifier_enc v ++ r) = Ok v <-> (rn_ext v = None -> (length r < 2)%nat)).
Proof.
  intros H. split.
  - intros Q E. apply RncIdentifier_inv in Q. rewrite app_length, RncIdentifier_len in Q. unfold RncIdentifier_part_len in Q. rewrite E in Q. cbn [is_some] in Q. destruct Q as [_ Q]. assert (8 + length r < 10)%nat by (apply Q; reflexivity). lia.
  - intros Q. destruct (rn_ext v) as [e|] eqn:E; [|apply RncIdentifier_none; auto].
    apply RncIdentifier_rt. destruct H as (A & B & C). split; [exact A|split; [exact B|]]. exists e. split; [exact E|exact (C e E)].
Qed.
Lemma SourceRncIdentifier_back v r : source_rnc_fits v -> (SourceRncIdentifier_dec (SourceRncIdentifier_enc v ++ r) = Ok v <-> (sr_ext v = None -> r = [])).
Proof.
  intros H. split.
  - intros Q E. apply SourceRncIdentifier_inv in Q. rewrite app_length, SourceRncIdentifier_len in Q. unfold SourceRncIdentifier_size in Q. rewrite E in Q. cbn [is_some] in Q. destruct Q as (_ & _ & Q). assert (5 + length r = 5)%nat by (apply Q; reflexivity). destruct r; [reflexivity|cbn in *; lia].
  - intros Q. destruct (sr_ext v) as [e|] eqn:E.
    + apply SourceRncIdentifier_rt. destruct H as (A & B & C). split; [exact A|split; [exact B|]]. exists e. split; [exact E|exact (C e E)].
    + rewrite (Q eq_refl). destruct v as [p i o]. cbn [sr_ext] in E. subst o. destruct H as (A & B & _). cbn [sr_plmn sr_id] in *. unfold SourceRncIdentifier_dec, SourceRncIdentifier_enc. cbn [sr_plmn sr_id sr_ext opt_be].
      rewrite app_nil_r. rewrite app_nil_r. assert (L : length (plmn_enc p ++ enc_be 2 i) = 5%nat) by lensp. rewrite L. cbn [Nat.ltb Nat.leb].
      rewrite <- (app_nil_r (enc_be 2 i)). rdx. fin.
Qed.
Lemma EnGNbIdentifier_back v r : en_gnb_fits v -> (EnGNbIdentifier_dec (EnGNbIdentifier_enc v ++ r) = Ok v <-> eg_tac v <> None /\ eg_etac v <> None).
Proof.
  intros H. split; [intros Q; apply EnGNbIdentifier_inv in Q; tauto|]. intros [A B]. destruct v as [p l i [t|] [e|]]; cbn [eg_plmn eg_length eg_id eg_tac eg_etac] in *; try congruence.
  destruct H as (P & L & U & T & E). cbn [eg_plmn eg_length eg_id eg_tac eg_etac] in *. specialize (T t eq_refl). specialize (E e eq_refl).
  unfold EnGNbIdentifier_dec, EnGNbIdentifier_enc. cbn [eg_plmn eg_length eg_id eg_tac eg_etac is_some flag opt_be opt_octets]. rewrite <- !app_assoc.
  rewrite !need_ok by lensp.
  assert (X : bit (N.lor (128 + 64) l) 64 = true /\ bit (N.lor (128 + 64) l) 128 = true /\ N.land (N.lor (128 + 64) l) 63 = l).
  { clear - L. cases_lt 64%nat L; repeat split. }
  destruct X as (X1 & X2 & X3). change (flag true 128 + flag true 64) with (128 + 64). set (x := N.lor (128 + 64) l) in *. clearbody x. cbn [app]. rdx. rewrite X1. rdx. rewrite X2. rdx. rewrite X3. rewrite slice_here by (symmetry; exact E). rewrite !need_ok by lensp. reflexivity.
Qed.

Ltac back L := rewrite as_part_Ok by (intros ? ? X; injection X; auto); try (split; [intros _; exact I|intros _]); apply L; assumption.
Lemma tt_of_Ok {A} (r : res A) (w : A -> target_type) v : (forall x y, w x = w y -> x = y) -> (tt_of r w = Ok (w v) <-> r = Ok v).
Proof.
  intros I. unfold tt_of. split.
  - intros H. apply bind_Ok_inv in H. destruct H as (x & Q & H). apply Ok_inj in H. apply I in H. subst x. apply orelse_Ok in Q. exact Q.
  - intros ->. reflexivity.
Qed.
Lemma target_type_kind t b : target_type_dec (target_type_to t :: b) =
  match t with
  | Tt_Rnc _ => tt_of (RncIdentifier_dec b) Tt_Rnc | Tt_MacroeNb _ => tt_of (MacroEnbIdentifier_dec b) Tt_MacroeNb
  | Tt_Cell _ => tt_of (CellIdentifier_dec b) Tt_Cell | Tt_Home _ => tt_of (MacroEnbIdentifier_dec b) Tt_Home
  | Tt_ExtMacro _ => tt_of (ExtendedMacroEnbIdentifier_dec b) Tt_ExtMacro | Tt_GNb _ => tt_of (GNbIdentifier_dec b) Tt_GNb
  | Tt_MacroNg _ => tt_of (MacronGeNbIdentifier_dec b) Tt_MacroNg | Tt_ExtNg _ => tt_of (ExtendedGeNbIdentifier_dec b) Tt_ExtNg
  | Tt_EnGNb _ => tt_of (EnGNbIdentifier_dec b) Tt_EnGNb | _ => Ok Tt_Spare
  end.
Proof. destruct t; reflexivity. Qed.
Lemma source_type_kind s b : source_type_dec (source_type_to s :: b) =
  match s with
  | St_Cell _ => let? i := orelse (CellIdentifier_dec b) (IEIncorrect 0) in Ok (St_Cell i)
  | St_Rnc _ => let? i := orelse (SourceRncIdentifier_dec b) (IEIncorrect 0) in Ok (St_Rnc i)
  | St_Spare => Ok St_Spare
  end.
Proof. destruct s; reflexivity. Qed.
Lemma source_of_Ok {A} (r : res A) (w : A -> source_type) v : (forall x y, w x = w y -> x = y) ->
  ((let? i := orelse r (IEIncorrect 0) in Ok (w i)) = Ok (w v) <-> r = Ok v).
Proof.
  intros I. split.
  - intros H. apply bind_Ok_inv in H. destruct H as (x & Q & H). apply Ok_inj in H. apply I in H. subst x. apply orelse_Ok in Q. exact Q.
  - intros ->. reflexivity.
Qed.

(* A structure whose fields have room in its octets is read back from what marshal() wrote, whatever follows, with the exceptions of
   [readable]: an RNC without extended RNC id takes the octets that follow for one, a source RNC is refused or does so too, an EN-gNB
   is only read with both area codes, the next hop and its chaining count need each other, and one variant of the target type is
   written like a spare one. A target or source type needs the octet that says which one it is in front. *)
Theorem C88_round_trip_partial : forall p rest, part_fits p ->
  (part_unmarshal (part_kind_of p) (kind_octet p ++ part_marshal p ++ rest) = Ok p <-> readable p rest).
Proof.
  intros p r H. destruct p as [v|v|v|v|v|v|v|v|v|v|v|v|v|v|v|v|v|v|v|v|v|v|t|v|s];
  cbn [part_kind_of kind_octet part_marshal part_fits part_unmarshal app] in *; unfold readable; cbn [held].
  - back Cgi_rt.
  - back Sai_rt.
  - back Rai_rt.
  - back Tai_rt.
  - back Ecgi_rt.
  - back Lai_rt.
  - back MacroEnbId_rt.
  - back ExtMacroEnbId_rt.
  - back AuthTriplet_rt.
  - back AuthQuintuplet_rt.
  - back AuthQuadruplet_rt.
  - back ApnRateControlStatusMM_rt.
  - back AmbrMM_rt.
  - rewrite as_part_Ok by (intros ? ? X; injection X; auto). split; [apply OldEps_inv|]. intros Q. apply OldEps_rt.
    destruct H as (A & B & C & D). split; [exact A|split; [exact B|]]. destruct (oe_next_hop v) as [n|] eqn:E1, (oe_ncc v) as [c|] eqn:E2;
    [split; [apply C|apply D]; reflexivity|destruct Q as [_ Q]; specialize (Q eq_refl); discriminate Q|destruct Q as [Q _]; specialize (Q eq_refl); discriminate Q|exact I].
  - rewrite as_part_Ok by (intros ? ? X; injection X; auto). apply RncIdentifier_back, H.
  - back MacroEnbIdentifier_rt.
  - back ExtendedMacroEnbIdentifier_rt.
  - back CellIdentifier_rt.
  - back GNbIdentifier_rt.
  - back MacronGeNbIdentifier_rt.
  - back ExtendedGeNbIdentifier_rt.
  - rewrite as_part_Ok by (intros ? ? X; injection X; auto). apply EnGNbIdentifier_back, H.
  - rewrite as_part_Ok by (intros ? ? X; injection X; auto). rewrite target_type_kind.
    destruct t as [v|v|v|v|v|v|v|v|v|v|]; cbn [part_fits target_type_enc] in *; cbn [held];
    try (rewrite tt_of_Ok by (intros ? ? X; injection X; auto)).
    + apply RncIdentifier_back, H.
    + split; [intros _; exact I|intros _]. apply MacroEnbIdentifier_rt, H.
    + split; [intros _; exact I|intros _]. apply CellIdentifier_rt, H.
    + split; [discriminate|contradiction].
    + split; [intros _; exact I|intros _]. apply MacroEnbIdentifier_rt, H.
    + split; [intros _; exact I|intros _]. apply ExtendedMacroEnbIdentifier_rt, H.
    + split; [intros _; exact I|intros _]. apply GNbIdentifier_rt, H.
    + split; [intros _; exact I|intros _]. apply MacronGeNbIdentifier_rt, H.
    + split; [intros _; exact I|intros _]. apply ExtendedGeNbIdentifier_rt, H.
    + apply EnGNbIdentifier_back, H.
    + split; [intros _; exact I|reflexivity].
  - rewrite as_part_Ok by (intros ? ? X; injection X; auto). apply SourceRncIdentifier_back, H.
  - rewrite as_part_Ok by (intros ? ? X; injection X; auto). rewrite source_type_kind.
    destruct s as [v|v|]; cbn [part_fits source_type_enc] in *; cbn [held]; try (rewrite source_of_Ok by (intros ? ? X; injection X; auto)).
    + apply SourceRncIdentifier_back, H.
    + split; [intros _; exact I|intros _]. apply CellIdentifier_rt, H.
    + split; [intros _; exact I|reflexivity].
Qed.

Lemma target_type_inv x b t : target_type_dec (x :: b) = Ok t ->
  match t with
  | Tt_Rnc v => RncIdentifier_dec b = Ok v | Tt_MacroeNb v | Tt_Home v => MacroEnbIdentifier_dec b = Ok v
  | Tt_Cell v => CellIdentifier_dec b = Ok v | Tt_ExtMacro v => ExtendedMacroEnbIdentifier_dec b = Ok v
  | Tt_GNb v => GNbIdentifier_dec b = Ok v | Tt_MacroNg v => MacronGeNbIdentifier_dec b = Ok v
  | Tt_ExtNg v => ExtendedGeNbIdentifier_dec b = Ok v | Tt_EnGNb v => EnGNbIdentifier_dec b = Ok v
  | Tt_MacroEnbIdentifier _ => False | Tt_Spare => True
  end.
Proof.
  unfold target_type_dec. rewrite at_0. bk. change (slice_from (x :: b) 1) with (@Ok GTPV2Error _ b). bk.
  repeat match goal with |- (if ?c then _ else _) = _ -> _ => destruct c end; unfold tt_of; intros Q; binv; apply Ok_inj in Q; subst t;
  try match goal with E : orelse _ _ = Ok _ |- _ => apply orelse_Ok in E; exact E end; exact I.
Qed.
Lemma source_type_inv x b t : source_type_dec (x :: b) = Ok t ->
  match t with St_Rnc v => SourceRncIdentifier_dec b = Ok v | St_Cell v => CellIdentifier_dec b = Ok v | St_Spare => True end.
Proof.
  unfold source_type_dec. rewrite at_0. bk. change (slice_from (x :: b) 1) with (@Ok GTPV2Error _ b). bk.
  repeat match goal with |- (if ?c then _ else _) = _ -> _ => destruct c end; intros Q; binv; apply Ok_inj in Q; subst t;
  try match goal with E : orelse _ _ = Ok _ |- _ => apply orelse_Ok in E; exact E end; exact I.
Qed.

(* unmarshal() of a target or source type never gives back the value that marshal() wrote. *)
Theorem C88_choice_refuted : forall p, part_fits p -> is_choice p = true -> part_unmarshal (part_kind_of p) (part_marshal p) <> Ok p.
Proof.
  intros p H Hc. destruct p as [v|v|v|v|v|v|v|v|v|v|v|v|v|v|v|v|v|v|v|v|v|v|t|v|s]; try discriminate Hc; clear Hc; cbn [part_kind_of part_unmarshal part_marshal];
  rewrite as_part_Ok by (intros ? ? X; injection X; auto).
  - pose proof (C88_measure_partial _ H) as M. cbn [part_marshal part_len measured] in M. cbn [part_fits] in H. destruct (target_type_enc t) as [|x b] eqn:E; [discriminate|]. intros Q. apply target_type_inv in Q. cbn [length] in M.
    destruct t as [v|v|v|v|v|v|v|v|v|v|]; cbn [target_type_size] in M; try contradiction Q.
    + destruct M as [_ M]. specialize (M I). apply RncIdentifier_inv in Q. destruct Q as [Q1 Q2]. destruct (rn_ext v); cbn [is_some] in M; [assert (Some n = None) by (apply Q2; lia); discriminate|lia].
    + destruct M as [_ M]. specialize (M I). unfold MacroEnbIdentifier_dec in Q. binv. lia.
    + destruct M as [_ M]. specialize (M I). unfold CellIdentifier_dec in Q. binv. lia.
    + destruct M as [_ M]. specialize (M I). unfold MacroEnbIdentifier_dec in Q. binv. lia.
    + destruct M as [_ M]. specialize (M I). unfold ExtendedMacroEnbIdentifier_dec in Q. binv. lia.
    + destruct M as [_ M]. specialize (M I). unfold GNbIdentifier_dec in Q. binv. lia.
    + destruct M as [_ M]. specialize (M I). unfold MacronGeNbIdentifier_dec in Q. binv. lia.
    + destruct M as [_ M]. specialize (M I). unfold ExtendedGeNbIdentifier_dec in Q. binv. lia.
    + apply EnGNbIdentifier_inv in Q. pose proof (EnGNbIdentifier_len v H) as L. cbn [target_type_enc] in E. rewrite E in L. cbn [length] in L.
      destruct (is_some (eg_tac v)), (is_some (eg_etac v)); lia.
    + discriminate E.
  - pose proof (C88_measure_partial _ H) as M. cbn [part_marshal part_len measured] in M. cbn [part_fits] in H. destruct (source_type_enc s) as [|x b] eqn:E; [discriminate|]. intros Q. apply source_type_inv in Q. cbn [length] in M.
    destruct s as [v|v|]; cbn [source_type_size] in M.
    + destruct M as [_ M]. specialize (M I). unfold SourceRncIdentifier_size in M. apply SourceRncIdentifier_inv in Q. destruct (sr_ext v); cbn [is_some] in M; lia.
    + destruct M as [_ M]. specialize (M I). unfold CellIdentifier_dec in Q. binv. lia.
    + discriminate E.
Qed.

Lemma crash_never {A} (r : res A) : returns r -> crash False r.
Proof. intros H. right. split; [tauto|exact H]. Qed.
Lemma crash_part {A} P (f : A -> part) r : crash P r -> crash P (as_part f r).
Proof. intros H. unfold as_part. apply crash_bind_l; [exact H|intros; exact I]. Qed.
Lemma AuthQuintuplet_crash b : crash (length b = 16 \/ length b = 49 + N.to_nat (oct b 16))%nat (AuthQuintuplet_dec b).
Proof.
  unfold AuthQuintuplet_dec. cr; unfold lof in *; try lia.
Qed.
Lemma AuthQuadruplet_crash b : crash (length b = 17 + N.to_nat (oct b 16))%nat (AuthQuadruplet_dec b).
Proof.
  unfold AuthQuadruplet_dec. cr; unfold lof in *; try lia.
Qed.
Lemma ApnRate_crash b : crash ((length b = 2%nat \/ length b = 3%nat) /\ (256 * N.to_nat (oct b 0) + N.to_nat (oct b 1) + 2 <= length b)%nat) (ApnRateControlStatusMM_dec b).
Proof.
  unfold ApnRateControlStatusMM_dec. apply crash_need; [intros|lia]. destruct b as [|x [|y b]]; try (cbn in *; lia).
  change (be_at (x :: y :: b) 0 2) with (@Ok GTPV2Error _ ((0 * 256 + x) * 256 + y)). bk. unfold oct. cbn [nth].
  cr; try lia.
Qed.
Lemma OldEps_crash b : crash (b = []) (OldEpsSecurityContext_dec b).
Proof.
  unfold OldEpsSecurityContext_dec. apply crash_at; [intros L|intros L; destruct b; [reflexivity|cbn in L; lia]]. assert (b <> []) by (intros ->; cbn in L; lia).
  cr; try assumption; try lia.
Qed.
Lemma SourceRnc_crash b : crash (length b < 5)%nat (SourceRncIdentifier_dec b).
Proof.
  unfold SourceRncIdentifier_dec. destruct (Nat.ltb_spec (length b) 6), (Nat.leb_spec 7 (length b)); cr; lia.
Qed.
Lemma crash_orelse_bind {A B} P (r : res A) e (k : A -> res B) : crash P r -> (forall x, returns (k x)) -> crash P (bind (orelse r e) k).
Proof. intros [[H ->]|[H R]] K; [left; auto|right]. split; [exact H|]. destruct r; cbn in *; auto. Qed.
Lemma source_type_crash b : crash (b = [] \/ (oct b 0 = 1 /\ (length b < 6)%nat)) (source_type_dec b).
Proof.
  destruct b as [|x b]; [left; split; [left; reflexivity|reflexivity]|]. unfold source_type_dec. rewrite at_0. bk. change (slice_from (x :: b) 1) with (@Ok GTPV2Error _ b). bk.
  unfold oct. cbn [nth length]. apply (crash_ext (x = 1 /\ (length b < 5)%nat)); [split; [intros [A B]; right; lia|intros [A|A]; [discriminate A|lia]]|].
  destruct (N.eqb_spec x 0) as [->|X0]; [|destruct (N.eqb_spec x 1) as [->|X1]].
  - apply crash_ext with (P := False); [lia|]. apply crash_orelse_bind; [apply crash_never, CellIdentifier_dec_returns|intros; exact I].
  - apply crash_ext with (P := (length b < 5)%nat); [lia|]. apply crash_orelse_bind; [apply SourceRnc_crash|intros; exact I].
  - apply crash_ok. lia.
Qed.

(* unmarshal() of a structure panics on exactly the octets of [part_overruns], and otherwise returns; for all structures without a
   case there it returns on all octets. *)
Theorem C88_overrun_partial : forall k b,
  (part_unmarshal k b = Panic <-> part_overruns k b) /\ part_unmarshal k b <> Diverge.
Proof.
  intros k b. assert (C : crash (part_overruns k b) (part_unmarshal k b)).
  { destruct k; cbn [part_overruns part_unmarshal]; apply crash_part.
    - apply crash_never, Cgi_dec_returns.
    - apply crash_never, Sai_dec_returns.
    - apply crash_never, Rai_dec_returns.
    - apply crash_never, Tai_dec_returns.
    - apply crash_never, Ecgi_dec_returns.
    - apply crash_never, Lai_dec_returns.
    - apply crash_never, MacroEnbId_dec_returns.
    - apply crash_never, ExtMacroEnbId_dec_returns.
    - apply crash_never, AuthTriplet_dec_returns.
    - apply AuthQuintuplet_crash.
    - apply AuthQuadruplet_crash.
    - apply ApnRate_crash.
    - apply crash_never, AmbrMM_dec_returns.
    - apply OldEps_crash.
    - apply crash_never, RncIdentifier_dec_returns.
    - apply crash_never, MacroEnbIdentifier_dec_returns.
    - apply crash_never, ExtendedMacroEnbIdentifier_dec_returns.
    - apply crash_never, CellIdentifier_dec_returns.
    - apply crash_never, GNbIdentifier_dec_returns.
    - apply crash_never, MacronGeNbIdentifier_dec_returns.
    - apply crash_never, ExtendedGeNbIdentifier_dec_returns.
    - apply crash_never, EnGNbIdentifier_dec_returns.
    - destruct b as [|x b]; [left; split; reflexivity|right; split; [discriminate|apply target_type_dec_returns; discriminate]].
    - apply SourceRnc_crash.
    - apply source_type_crash. }
  destruct C as [[P ->]|[P R]]; [split; [tauto|discriminate]|]. destruct (part_unmarshal k b); try contradiction; (split; [split; [discriminate|tauto]|discriminate]).
Qed.

Lemma zeros_repeat n l : zeros n l = true <-> l = repeat 0 n.
Proof.
  unfold zeros. split.
  - intros H. apply andb_prop in H. destruct H as [H1 H2]. apply Nat.eqb_eq in H1. subst n. induction l as [|x l IH]; [reflexivity|]. cbn [forallb] in H2. apply andb_prop in H2. destruct H2 as [H2 H3]. apply N.eqb_eq in H2. subst x. cbn [length repeat]. rewrite <- IH by exact H3. reflexivity.
  - intros ->. rewrite repeat_length, Nat.eqb_refl. cbn [andb]. induction n; [reflexivity|exact IHn].
Qed.
Lemma no_text_nil l : no_text l = true <-> l = [].
Proof. destruct l; split; intros H; try discriminate H; reflexivity. Qed.
Lemma is_some_none {A} (o : option A) : negb (is_some o) = true <-> o = None.
Proof. destruct o; split; intros H; try discriminate H; reflexivity. Qed.
Lemma plmn_zero_iff p : plmn_zero p = true <-> p = mkPlmn 0 0 (p_three p).
Proof. destruct p as [a b t]. unfold plmn_zero. cbn [p_mcc p_mnc p_three]. rewrite andb_true_iff, !N.eqb_eq. split; [intros [-> ->]; reflexivity|intros H; injection H; auto]. Qed.

Ltac unzero := repeat match goal with
  | H : _ && _ = true |- _ => apply andb_prop in H; destruct H
  | H : (_ =? 0) = true |- _ => apply N.eqb_eq in H
  | H : zeros _ _ = true |- _ => apply zeros_repeat in H
  | H : no_text _ = true |- _ => apply no_text_nil in H
  | H : negb (is_some _) = true |- _ => apply is_some_none in H
  end; subst.
Ltac seek := repeat (first [left; reflexivity | right]).
Ltac blank := unzero; do 5 eexists; cbn [blanks In]; seek.

(* is_empty() is true of exactly the values of [blanks]: zeros in all numbers and arrays, no text and no optional part, but with any
   value in the digit count of the network code, the kind of an extended macro eNB, the length of a gNB identity and the next hop
   chaining count, and whatever one variant of the target type holds. *)
Theorem C88_empty : forall p, part_is_empty p = true <-> exists t s n c e, In p (blanks t s n c e).
Proof.
  intros p. split.
  2:{ intros (t & s & n & c & e & H). unfold blanks in H. cbv zeta in H. repeat (destruct H as [<-|H]; [reflexivity|]). contradiction. }
  intros H. destruct p as [v|v|v|v|v|v|v|v|v|v|v|v|v|v|v|v|v|v|v|v|v|v|t|v|s]; cbn [part_is_empty] in H.
  - destruct v as [[a b t] l c]. unfold Cgi_is_empty, plmn_zero in H. cbn in H. blank.
  - destruct v as [[a b t] l c]. unfold Sai_is_empty, plmn_zero in H. cbn in H. blank.
  - destruct v as [[a b t] l c]. unfold Rai_is_empty, plmn_zero in H. cbn in H. blank.
  - destruct v as [[a b t] l]. unfold Tai_is_empty, plmn_zero in H. cbn in H. blank.
  - destruct v as [[a b t] l]. unfold Ecgi_is_empty, plmn_zero in H. cbn in H. blank.
  - destruct v as [[a b t] l]. unfold Lai_is_empty, plmn_zero in H. cbn in H. blank.
  - destruct v as [[a b t] l]. unfold MacroEnbId_is_empty, plmn_zero in H. cbn in H. blank.
  - destruct v as [[a b t] s l]. unfold ExtMacroEnbId_is_empty, plmn_zero in H. cbn in H. blank.
  - destruct v as [a b c]. unfold AuthTriplet_is_empty in H. cbn [at_rand at_sres at_kc] in H. blank.
  - destruct v as [a b c d e]. unfold AuthQuintuplet_is_empty in H. cbn [aq_rand aq_xres aq_ck aq_ik aq_autn] in H. blank.
  - destruct v as [a b c d]. unfold AuthQuadruplet_is_empty in H. cbn [ad_rand ad_xres ad_autn ad_kasme] in H. blank.
  - destruct v as [a b c d e]. unfold ApnRateControlStatusMM_is_empty in H. cbn [rm_apn rm_ul rm_exc rm_dl rm_validity] in H. blank.
  - destruct v as [a b]. unfold AmbrMM_is_empty in H. cbn [amm_ul amm_dl] in H. blank.
  - destruct v as [a b c d]. unfold OldEpsSecurityContext_is_empty in H. cbn [oe_ksi oe_kasme oe_next_hop] in H. blank.
  - destruct v as [[[a b t] l c] i o]. unfold RncIdentifier_is_empty, Rai_is_empty, plmn_zero in H. cbn [rn_rai rn_id rn_ext rai_plmn rai_lac rai_rac p_mcc p_mnc] in H. blank.
  - destruct v as [[[a b t] l] c]. unfold MacroEnbIdentifier_is_empty, MacroEnbId_is_empty, plmn_zero in H. cbn [mt_enb mt_tac me_plmn me_id p_mcc p_mnc] in H. blank.
  - destruct v as [[[a b t] s l] c]. unfold ExtendedMacroEnbIdentifier_is_empty, ExtMacroEnbId_is_empty, plmn_zero in H. cbn [xt_enb xt_tac xe_plmn xe_id p_mcc p_mnc] in H. blank.
  - destruct v as [[a b t] l c d]. unfold CellIdentifier_is_empty, plmn_zero in H. cbn [ce_plmn ce_lac ce_rac ce_ci p_mcc p_mnc] in H. blank.
  - destruct v as [[a b t] l c d]. unfold GNbIdentifier_is_empty, plmn_zero in H. cbn [gn_plmn gn_id gn_etac p_mcc p_mnc] in H. blank.
  - destruct v as [[[a b t] l] c]. unfold MacronGeNbIdentifier_is_empty, MacroEnbId_is_empty, plmn_zero in H. cbn [mn_enb mn_etac me_plmn me_id p_mcc p_mnc] in H. blank.
  - destruct v as [[[a b t] s l] c]. unfold ExtendedGeNbIdentifier_is_empty, ExtMacroEnbId_is_empty, plmn_zero in H. cbn [xn_enb xn_etac xe_plmn xe_id p_mcc p_mnc] in H. blank.
  - destruct v as [[a b t] l c d e]. unfold EnGNbIdentifier_is_empty, plmn_zero in H. cbn [eg_plmn eg_id eg_tac eg_etac p_mcc p_mnc] in H. blank.
  - destruct t as [v|v|v|v|v|v|v|v|v|v|]; cbn [target_type_is_empty] in H.
    + destruct v as [[[a b t] l c] i o]. unfold RncIdentifier_is_empty, Rai_is_empty, plmn_zero in H. cbn [rn_rai rn_id rn_ext rai_plmn rai_lac rai_rac p_mcc p_mnc] in H. blank.
    + destruct v as [[[a b t] l] c]. unfold MacroEnbIdentifier_is_empty, MacroEnbId_is_empty, plmn_zero in H. cbn [mt_enb mt_tac me_plmn me_id p_mcc p_mnc] in H. blank.
    + destruct v as [[a b t] l c d]. unfold CellIdentifier_is_empty, plmn_zero in H. cbn [ce_plmn ce_lac ce_rac ce_ci p_mcc p_mnc] in H. blank.
    + blank.
    + destruct v as [[[a b t] l] c]. unfold MacroEnbIdentifier_is_empty, MacroEnbId_is_empty, plmn_zero in H. cbn [mt_enb mt_tac me_plmn me_id p_mcc p_mnc] in H. blank.
    + destruct v as [[[a b t] s l] c]. unfold ExtendedMacroEnbIdentifier_is_empty, ExtMacroEnbId_is_empty, plmn_zero in H. cbn [xt_enb xt_tac xe_plmn xe_id p_mcc p_mnc] in H. blank.
    + destruct v as [[a b t] l c d]. unfold GNbIdentifier_is_empty, plmn_zero in H. cbn [gn_plmn gn_id gn_etac p_mcc p_mnc] in H. blank.
    + destruct v as [[[a b t] l] c]. unfold MacronGeNbIdentifier_is_empty, MacroEnbId_is_empty, plmn_zero in H. cbn [mn_enb mn_etac me_plmn me_id p_mcc p_mnc] in H. blank.
    + destruct v as [[[a b t] s l] c]. unfold ExtendedGeNbIdentifier_is_empty, ExtMacroEnbId_is_empty, plmn_zero in H. cbn [xn_enb xn_etac xe_plmn xe_id p_mcc p_mnc] in H. blank.
    + destruct v as [[a b t] l c d e]. unfold EnGNbIdentifier_is_empty, plmn_zero in H. cbn [eg_plmn eg_id eg_tac eg_etac p_mcc p_mnc] in H. blank.
    + blank.
  - destruct v as [[a b t] l c]. unfold SourceRncIdentifier_is_empty, plmn_zero in H. cbn [sr_plmn sr_id sr_ext p_mcc p_mnc] in H. blank.
  - destruct s as [v|v|]; cbn [source_type_is_empty] in H.
    + destruct v as [[a b t] l c]. unfold SourceRncIdentifier_is_empty, plmn_zero in H. cbn [sr_plmn sr_id sr_ext p_mcc p_mnc] in H. blank.
    + destruct v as [[a b t] l c d]. unfold CellIdentifier_is_empty, plmn_zero in H. cbn [ce_plmn ce_lac ce_rac ce_ci p_mcc p_mnc] in H. blank.
    + blank.
  Unshelve. all: first [exact false | exact 0 | exact None | exact (mkMacroEnb plmn_none 0)].
Qed.

(* Every default value is empty. *)
Theorem C88_default_empty : forall k, part_kind_of (part_default k) = k /\ part_is_empty (part_default k) = true.
Proof. intros k. split; destruct k; reflexivity. Qed.

(* Only for five structures is the default value the only one that is empty. *)
Theorem C88_empty_default_refuted : forall k,
  (forall p, part_kind_of p = k -> part_is_empty p = true -> p = part_default k) <->
  In k [PK_AuthTriplet; PK_AuthQuintuplet; PK_AuthQuadruplet; PK_ApnRateControlStatusMM; PK_AmbrMM].
Proof.
  assert (N5 : forall k, (exists p, part_kind_of p = k /\ part_is_empty p = true /\ p <> part_default k) ->
    ~ (forall p, part_kind_of p = k -> part_is_empty p = true -> p = part_default k)).
  { intros k (p & A & B & C) Q. exact (C (Q p A B)). }
  assert (Y5 : forall k, In k [PK_AuthTriplet; PK_AuthQuintuplet; PK_AuthQuadruplet; PK_ApnRateControlStatusMM; PK_AmbrMM] ->
    forall p, part_kind_of p = k -> part_is_empty p = true -> p = part_default k).
  { intros k Hk p K H. apply C88_empty in H. destruct H as (t & s & n & c & e & H). unfold blanks in H. cbv zeta in H. subst k.
    repeat (destruct H as [<-|H]; [cbn [part_kind_of] in Hk; first [reflexivity | exfalso; cbn [In] in Hk; intuition discriminate]|]). contradiction. }
  intros k. split; [|apply Y5].
  destruct k; try (intros _; cbn [In]; tauto); intros Q; exfalso; revert Q; apply N5;
  match goal with
  | |- exists p, _ = PK_TargetType /\ _ => exists (P_TargetType (target_type_of 0))
  | |- exists p, _ = PK_SourceType /\ _ => exists (P_SourceType (source_type_of 0))
  | |- exists p, _ = PK_OldEpsSecurityContext /\ _ => exists (P_OldEpsSecurityContext (mkOldEps 0 (Some 1) (repeat 0 32) None))
  | |- exists p, _ = ?k /\ _ =>
      let p := constr:(mkPlmn 0 0 true) in
      let x := match k with
        | PK_Cgi => constr:(P_Cgi (mkCgi p 0 0)) | PK_Sai => constr:(P_Sai (mkSai p 0 0)) | PK_Rai => constr:(P_Rai (mkRai p 0 0))
        | PK_Tai => constr:(P_Tai (mkTai p 0)) | PK_Ecgi => constr:(P_Ecgi (mkEcgi p 0)) | PK_Lai => constr:(P_Lai (mkLai p 0))
        | PK_MacroEnbId => constr:(P_MacroEnbId (mkMacroEnb p 0)) | PK_ExtMacroEnbId => constr:(P_ExtMacroEnbId (mkExtMacroEnb p false 0))
        | PK_RncIdentifier => constr:(P_RncIdentifier (mkRncId (mkRai p 0 0) 0 None))
        | PK_MacroEnbIdentifier => constr:(P_MacroEnbIdentifier (mkMacroTac (mkMacroEnb p 0) 0))
        | PK_ExtendedMacroEnbIdentifier => constr:(P_ExtendedMacroEnbIdentifier (mkExtTac (mkExtMacroEnb p false 0) 0))
        | PK_CellIdentifier => constr:(P_CellIdentifier (mkCellId p 0 0 0))
        | PK_GNbIdentifier => constr:(P_GNbIdentifier (mkGnb p 22 0 (repeat 0 3)))
        | PK_MacronGeNbIdentifier => constr:(P_MacronGeNbIdentifier (mkMacroNg (mkMacroEnb p 0) (repeat 0 3)))
        | PK_ExtendedGeNbIdentifier => constr:(P_ExtendedGeNbIdentifier (mkExtNg (mkExtMacroEnb p false 0) (repeat 0 3)))
        | PK_EnGNbIdentifier => constr:(P_EnGNbIdentifier (mkEnGnb p 22 0 None None))
        | PK_SourceRncIdentifier => constr:(P_SourceRncIdentifier (mkSourceRnc p 0 None))
        end in exists x
  end; (split; [reflexivity|split; [reflexivity|discriminate]]).
Qed.

(* A kind octet becomes a target or source type with nothing in it; the octet of that is the same one, all unknown ones being the
   first spare one. *)
Theorem C88_kinds : forall x,
  target_type_to (target_type_of x) = N.min x 9 /\ source_type_to (source_type_of x) = N.min x 2 /\
  part_is_empty (P_TargetType (target_type_of x)) = true /\ part_is_empty (P_SourceType (source_type_of x)) = true.
Proof.
  intros x. unfold target_type_of, source_type_of.
  repeat match goal with |- context [x =? ?n] => destruct (N.eqb_spec x n); [subst; repeat split; reflexivity|] end.
  repeat split; try reflexivity; cbn [target_type_to source_type_to]; lia.
Qed.
(* So a value that holds anything else than a spare or blank one does not survive the conversion to its octet and back. *)
Theorem C88_kind_loses_refuted : forall t s,
  (part_is_empty (P_TargetType t) = false -> target_type_of (target_type_to t) <> t) /\
  (part_is_empty (P_SourceType s) = false -> source_type_of (source_type_to s) <> s).
Proof.
  intros t s. split; intros H Q; [destruct (C88_kinds (target_type_to t)) as (_ & _ & K & _)|destruct (C88_kinds (source_type_to s)) as (_ & _ & _ & K)]; rewrite Q in K; congruence.
Qed.

(* --- the hypotheses are met ------------------------------------------------------------------------------------------ *)
Definition some_net : plmn := mkPlmn 262 7 false.
Definition rnc_short : part := P_RncIdentifier (mkRncId (mkRai some_net 4660 18) 999 None).
Example C88_round_trip_nonvacuous :
  part_fits rnc_short /\ readable rnc_short [] /\ ~ readable rnc_short [1; 2] /\
  part_unmarshal PK_RncIdentifier (part_marshal rnc_short ++ [1; 2]) = Ok (P_RncIdentifier (mkRncId (mkRai some_net 4660 18) 999 (Some 258))) /\
  part_fits (P_TargetType (Tt_Rnc (mkRncId (mkRai some_net 4660 18) 999 None))) /\ is_choice (P_TargetType (Tt_Rnc (mkRncId (mkRai some_net 4660 18) 999 None))) = true.
Proof.
  assert (F : part_fits rnc_short) by (cbn; repeat split; try (cbn; lia); intros ? X; discriminate X).
  split; [exact F|]. split; [unfold readable; cbn; lia|]. split; [unfold readable; cbn; intros X; specialize (X eq_refl); lia|].
  split; [reflexivity|]. split; [exact F|reflexivity].
Qed.
Definition engnb_full : en_gnb := mkEnGnb some_net 22 70000 (Some 7) (Some [1; 2; 3]).
Example C88_measure_nonvacuous :
  part_fits (P_EnGNbIdentifier engnb_full) /\ ~ measured (P_EnGNbIdentifier engnb_full) /\
  part_len (P_EnGNbIdentifier engnb_full) = 14%nat /\ length (part_marshal (P_EnGNbIdentifier engnb_full)) = 13%nat /\
  part_fits rnc_short /\ measured rnc_short.
Proof.
  split; [cbn; repeat split; try (cbn; lia); intros ? X; injection X as <-; first [reflexivity|cbn; lia]|]. split; [cbn; intros [X _]; discriminate X|].
  split; [reflexivity|]. split; [reflexivity|]. split; [apply C88_round_trip_nonvacuous|exact I].
Qed.
Example C88_overrun_nonvacuous :
  part_overruns PK_AuthQuadruplet (repeat 7 16 ++ [2; 5; 6] ++ []) /\ part_unmarshal PK_AuthQuadruplet (repeat 7 16 ++ [2; 5; 6]) = Panic /\
  ~ part_overruns PK_AuthQuadruplet (repeat 7 16 ++ [2; 5; 6; 1]).
Proof. split; [reflexivity|]. split; [reflexivity|]. cbn. lia. Qed.
Example C88_empty_nonvacuous : part_is_empty (P_OldEpsSecurityContext (mkOldEps 0 (Some 3) (repeat 0 32) None)) = true /\ part_is_empty rnc_short = false.
Proof. split; reflexivity. Qed.
Example C88_kind_loses_nonvacuous : part_is_empty (P_TargetType (Tt_EnGNb engnb_full)) = false /\ part_is_empty (P_SourceType (St_Cell (mkCellId some_net 1 2 3))) = false.
Proof. split; reflexivity. Qed.

Print Assumptions C88_measure_partial.
Print Assumptions C88_round_trip_partial.
Print Assumptions C88_choice_refuted.
Print Assumptions C88_overrun_partial.
Print Assumptions C88_empty.
Print Assumptions C88_default_empty.
Print Assumptions C88_empty_default_refuted.
Print Assumptions C88_kinds.
Print Assumptions C88_kind_loses_refuted.
