(* V1HangIe.v - which GTPv1-C information elements come out with the size 0. *)
From Coq Require Import Sorting.Sorted.
From Verif Require Import Base BaseFacts LabelsFacts V1U V1CHdr V1CIe V1CKind V1CSafeSpec V1CMsgSpec V1CMsgSafety V1CHdrSafety V1CIeSafety V1CrashSpec V1HangSpec V1Crash V1CrashIe V1Hang.
Local Open Scope N_scope.

Definition zero (m : mode) (k : kind1) (s : list N) : Prop := exists i, ie1_unmarshal k m s = Ok i /\ ie1_len m i = Ok 0%nat.

Lemma len_zero {A} m (x : Tlv A) s : bytes s -> tlv_length x = declared s -> (len_u16 m x = Ok 0%nat <-> m = Release /\ declared s = 65533).
Proof.
  intros B E. pose proof (declared_max s B). unfold len_u16. rewrite E, add3 by assumption. destruct (N.ltb_spec (declared s) 65533); cbn [bind].
  - split; [|lia]. intros H1. apply Ok_inj in H1. lia.
  - destruct m; cbn [bind]; (split; [intros H1|intros [H1 H2]]); try discriminate.
    + apply Ok_inj in H1. split; [reflexivity|lia].
    + rewrite H2. reflexivity.
Qed.
Lemma var_ok {A} T (k : N -> list N -> res A) m s : bytes s -> declared s = 65533 -> m = Release ->
  ((exists x, var_unmarshal T k m s = Ok x) <-> (3 <= length s)%nat /\ exists v, k (declared s) s = Ok v).
Proof.
  intros B D ->. unfold var_unmarshal. destruct (Nat.leb_spec 3 (length s)) as [L|L]; [|split; [intros [x H]; discriminate|lia]].
  rewrite !at_octet. destruct (Nat.ltb_spec 1 (length s)); [|lia]. destruct (Nat.ltb_spec 2 (length s)); [|lia]. cbn [bind]. cbv zeta. rewrite <- declared_octets by exact L.
  unfold check_tlv_ie_buffer. destruct (N.eqb_spec (declared s) 0); [lia|]. rewrite add3 by lia. destruct (N.ltb_spec (declared s) 65533); [lia|]. cbn [bind].
  destruct (Nat.leb_spec (N.to_nat (declared s - 65533)) (length s)) as [_|X]; [|lia]. split.
  - intros [x H']. apply bind_ok in H' as (v & Hv & _). eauto.
  - intros [_ [v ->]]. cbn [bind]. eauto.
Qed.
Lemma var_zero {A} T (body : N -> list N -> res A) (f : Tlv A -> ie1) m k s (P : Prop) : bytes s ->
  ie1_unmarshal k m s = bind (var_unmarshal T body m s) (fun x => Ok (f x)) -> (forall x, ie1_len m (f x) = len_u16 m x) ->
  (m = Release -> declared s = 65533 -> ((3 <= length s)%nat /\ (exists v, body (declared s) s = Ok v) <-> P)) ->
  (zero m k s <-> m = Release /\ declared s = 65533 /\ P).
Proof.
  intros B E Hl Hb. unfold zero. rewrite E. split.
  - intros (i & Hi & Hn). apply bind_ok in Hi as (x & Hx & Hi). injection Hi as <-. rewrite Hl in Hn. apply (len_zero m x s B (var_declared _ _ _ _ _ Hx)) in Hn as [Em D].
    split; [exact Em|]. split; [exact D|]. apply Hb; [assumption..|]. apply (var_ok T body m s B D Em). eauto.
  - intros (Em & D & HP). apply Hb in HP; [|assumption..]. apply (var_ok T body m s B D Em) in HP as [x Hx]. exists (f x). rewrite Hx. split; [reflexivity|].
    rewrite Hl. apply (len_zero m x s B (var_declared _ _ _ _ _ Hx)). auto.
Qed.

Lemma labels_loop_cases {E} : forall f d, (length d <= f)%nat -> @labels_loop E f d = Panic \/ exists v, @labels_loop E f d = Ok v.
Proof.
  induction f as [|f IH]; intros [|n r] Hf; cbn [length] in Hf; try lia; cbn [labels_loop]; eauto. destruct (_ <=? _)%nat; [|auto].
  destruct (IH (skipn (N.to_nat n) r) ltac:(rewrite skipn_length; lia)) as [->|[v ->]]; cbn [bind]; eauto.
Qed.
Lemma labels_total d : (exists v, @labels_decode GTPV1Error d = Ok v) <-> labels_exact d.
Proof.
  pose proof (@labels_loop_panic GTPV1Error (length d) d (le_n _)) as P. unfold labels_decode. destruct (@labels_loop_cases GTPV1Error (length d) d (le_n _)) as [E|[v E]]; rewrite E in *; cbn [bind].
  - split; [intros [v H]; discriminate|]. intros H. exfalso. apply P; [reflexivity|exact H].
  - split; [|eauto]. intros _. assert (N : ~ ~ labels_exact d) by (intros H; apply P in H; discriminate). clear -E. revert E. generalize (length d) as f. intros f. revert d v.
    induction f as [|f IH]; intros [|n r] v E; cbn [labels_loop] in E; try discriminate; try (exists []; reflexivity).
    destruct (Nat.leb_spec (N.to_nat n) (length r)) as [L|L]; [|discriminate]. apply bind_ok in E as (w & E & _). apply IH in E as [ws E]. exists (firstn (N.to_nat n) r :: ws).
    cbn [map concat app]. rewrite <- E, firstn_skipn. f_equal. unfold nlen. rewrite firstn_length, Nat.min_l by exact L. rewrite N2Nat.id. reflexivity.
Qed.

Section Kinds.
Context (m : mode) (s : list N) (B : bytes s).
Ltac at_s := rewrite ?at_octet; repeat (match goal with |- context [(?i <? length ?r)%nat] => destruct (Nat.ltb_spec i (length r)) end; cbn [bind]).
Ltac nope := split; [intros (L & v & Hv)|intros []].
Lemma Eua_zero : zero m K1_Eua s <-> m = Release /\ declared s = 65533 /\ False.
Proof.
  eapply var_zero; [exact B|reflexivity|reflexivity|]. intros Em D. nope. revert Hv. at_s; try discriminate. cbv zeta. rewrite D.
  change (65533 =? 2) with false. change (65533 =? 6) with false. change (65533 =? 18) with false. change (65533 =? 22) with false. cbn [andb]. discriminate.
Qed.
Lemma Pe_zero : zero m K1_Pe s <-> m = Release /\ declared s = 65533 /\ (5 <= length s)%nat.
Proof.
  eapply var_zero; [exact B|reflexivity|reflexivity|]. intros Em D. unfold be16_at. split.
  - intros (L & v & Hv). revert Hv. at_s; try discriminate. lia.
  - intros L. split; [lia|]. at_s; try lia. rewrite slice_from_ok by lia. cbn [bind]. eauto.
Qed.
Lemma Apn_zero : zero m K1_Apn s <-> m = Release /\ declared s = 65533 /\ name_full s.
Proof.
  eapply var_zero; [exact B|reflexivity|reflexivity|]. intros Em D. rewrite D. unfold name_full, nlen. split.
  - intros (L & v & Hv). apply bind_ok in Hv as (d & Hd & Hv). unfold slice in Hd. destruct (_ && _)%bool eqn:Eb; [|discriminate]. apply Ok_inj in Hd. subst d.
    apply andb_prop in Eb as [_ Eb]. apply Nat.leb_le in Eb. split; [lia|]. replace (3 + N.to_nat 65533 - 3)%nat with (N.to_nat 65533) in Hv by lia.
    set (d := firstn (N.to_nat 65533) (skipn 3 s)) in *. clearbody d. apply labels_total. eauto.
  - intros [L X]. split; [lia|]. rewrite slice_ok by lia. cbn [bind]. replace (3 + N.to_nat 65533 - 3)%nat with (N.to_nat 65533) by lia.
    set (d := firstn (N.to_nat 65533) (skipn 3 s)) in *. clearbody d. apply labels_total, X.
Qed.
Lemma blob_stops1 v : m = Release -> declared s = 65533 -> (3 <= length s)%nat -> blob_at m (declared s) s = Ok v -> False.
Proof.
  intros -> D L. unfold blob_at. rewrite add3 by lia. rewrite D. change (65533 <? 65533) with false. cbn [bind]. unfold slice. destruct (Nat.leb_spec 3 (N.to_nat (65533 - 65533))); [lia|]. discriminate.
Qed.
Ltac blob := eapply var_zero; [exact B|reflexivity|reflexivity|]; intros Em D; nope; eapply blob_stops1; eassumption.
Lemma Pco_zero : zero m K1_Pco s <-> m = Release /\ declared s = 65533 /\ False. Proof. blob. Qed.
Lemma Tft_zero : zero m K1_Tft s <-> m = Release /\ declared s = 65533 /\ False. Proof. blob. Qed.
Lemma TriggerId_zero : zero m K1_TriggerId s <-> m = Release /\ declared s = 65533 /\ False. Proof. blob. Qed.
Lemma OmcId_zero : zero m K1_OmcId s <-> m = Release /\ declared s = 65533 /\ False. Proof. blob. Qed.
Ltac ip := eapply var_zero; [exact B|reflexivity|reflexivity|]; intros Em D; split; [intros (L & v & Hv); rewrite D in Hv; discriminate|intros []].
Lemma Gsn_zero : zero m K1_Gsn s <-> m = Release /\ declared s = 65533 /\ False. Proof. ip. Qed.
Lemma ChargingGw_zero : zero m K1_ChargingGw s <-> m = Release /\ declared s = 65533 /\ False. Proof. ip. Qed.
Lemma Msisdn_zero : zero m K1_Msisdn s <-> m = Release /\ declared s = 65533 /\ (12 <= length s)%nat /\ (octet s 3 mod 16 = 1 \/ octet s 3 mod 16 = 6).
Proof.
  eapply var_zero; [exact B|reflexivity|reflexivity|]. intros Em D. cbv beta. rewrite (at_octet s 3). split.
  - intros (L & v & Hv). revert Hv. destruct (Nat.ltb_spec 3 (length s)) as [L4|L4]; cbn [bind]; [|discriminate]. cbv zeta. rewrite land15_mod.
    destruct (N.eqb_spec (octet s 3 mod 16) 1) as [E1|E1], (N.eqb_spec (octet s 3 mod 16) 6) as [E6|E6]; cbn [orb]; try discriminate;
      intros Hv; apply bind_ok in Hv as (x & Hx & _); unfold slice in Hx; destruct (_ && _)%bool eqn:Eb; try discriminate; apply andb_prop in Eb as [_ Eb]; apply Nat.leb_le in Eb; split; auto.
  - intros (L & H). split; [lia|]. destruct (Nat.ltb_spec 3 (length s)) as [_|?]; [|lia]. cbn [bind]. cbv zeta. rewrite land15_mod.
    destruct H as [->| ->]; cbn [N.eqb Pos.eqb orb]; rewrite slice_ok by lia; cbn [bind]; eexists; reflexivity.
Qed.
Lemma Qos_zero : zero m K1_Qos s <-> m = Release /\ declared s = 65533 /\ False.
Proof.
  eapply var_zero; [exact B|reflexivity|reflexivity|]. intros Em D. nope. subst m. rewrite D in Hv. apply bind_ok in Hv as (x & _ & Hv). rewrite add3 in Hv by lia. change (65533 <? 65533) with false in Hv. cbn [bind] in Hv.
  apply bind_ok in Hv as (q & Hq & _). unfold slice in Hq. destruct (_ && _)%bool eqn:Eb; [|discriminate]. apply andb_prop in Eb as [Eb _]. apply Nat.leb_le in Eb. lia.
Qed.
Lemma Camel_zero : zero m K1_Camel s <-> m = Release /\ declared s = 65533 /\ 65536 <= nlen s.
Proof.
  unfold zero, nlen. cbn [ie1_unmarshal]. unfold Camel_unmarshal. pose proof (declared_max s B) as D.
  destruct (Nat.leb_spec 3 (length s)) as [L|L]; [|split; [intros (i & H & _); discriminate|lia]].
  rewrite !at_octet. destruct (Nat.ltb_spec 1 (length s)); [|lia]. destruct (Nat.ltb_spec 2 (length s)); [|lia]. cbn [bind]. cbv zeta. rewrite <- declared_octets by exact L. split.
  - intros (i & Hi & Hn). apply bind_ok in Hi as (x & Hx & Hi). injection Hi as <-. apply bind_ok in Hx as (y & Hy & Hx). destruct (_ <=? _)%nat in Hx; [|discriminate].
    apply bind_ok in Hx as (d & Hd & Hx). unfold slice in Hd. destruct (_ && _)%bool eqn:Eb in Hd; [|discriminate]. apply andb_prop in Eb as [_ Eb]. apply Nat.leb_le in Eb.
    apply Ok_inj in Hx. subst x. cbn [ie1_len] in Hn. apply (len_zero m _ s B) in Hn as [Em Ed]; [|reflexivity]. split; [exact Em|]. split; [exact Ed|]. lia.
  - intros (Em & Ed & Q). rewrite Em, Ed. rewrite add3 by lia. change (65533 <? 65533) with false. cbn [bind]. destruct (Nat.leb_spec (N.to_nat (65533 - 65533)) (length s)) as [_|?]; [|lia].
    rewrite slice_ok by lia. cbn [bind]. eexists. split; [reflexivity|]. cbn [ie1_len]. apply (len_zero Release _ s B); [cbn [tlv_length]; auto|auto].
Qed.
Lemma fixed_zero {A} T (body : list N -> res A) (f : Tlv A -> ie1) k : ie1_unmarshal k m s = bind (fixed_unmarshal T 4 body s) (fun x => Ok (f x)) ->
  (forall x, ie1_len m (f x) = len_u16 m x) -> ((4 <= length s)%nat -> exists v, body s = Ok v) -> (zero m k s <-> m = Release /\ declared s = 65533 /\ (4 <= length s)%nat).
Proof.
  intros E Hl Hb. unfold zero. rewrite E. unfold fixed_unmarshal. destruct (Nat.leb_spec 4 (length s)) as [L|L].
  2:{ cbn [bind]. split; [intros (i & H & _); discriminate|lia]. }
  rewrite !at_octet. destruct (Nat.ltb_spec 1 (length s)); [|lia]. destruct (Nat.ltb_spec 2 (length s)); [|lia]. cbn [bind]. rewrite <- declared_octets by lia.
  destruct (Hb L) as [v ->]. cbn [bind]. split.
  - intros (i & H' & H''). injection H' as <-. rewrite Hl in H''. apply (len_zero m _ s B) in H''; [|reflexivity]. tauto.
  - intros (H1 & H2 & _). eexists. split; [reflexivity|]. rewrite Hl. apply (len_zero m _ s B); [reflexivity|auto].
Qed.
Ltac flags := eapply fixed_zero; [reflexivity|reflexivity|]; intros L; cbv beta; rewrite at_octet; destruct (Nat.ltb_spec 3 (length s)); [|lia]; cbn [bind]; eexists; reflexivity.
Lemma CommonFlags_zero : zero m K1_CommonFlags s <-> m = Release /\ declared s = 65533 /\ (4 <= length s)%nat. Proof. flags. Qed.
Lemma DirectTunnel_zero : zero m K1_DirectTunnel s <-> m = Release /\ declared s = 65533 /\ (4 <= length s)%nat. Proof. flags. Qed.
Lemma ExtCommonFlags_zero : zero m K1_ExtCommonFlags s <-> m = Release /\ declared s = 65533 /\ (4 <= length s)%nat. Proof. flags. Qed.
Lemma CsgInfo_zero : zero m K1_CsgInfo s <-> m = Release /\ declared s = 65533 /\ (4 <= length s)%nat. Proof. flags. Qed.
Lemma ExtCommonFlagsII_zero : zero m K1_ExtCommonFlagsII s <-> m = Release /\ declared s = 65533 /\ (4 <= length s)%nat. Proof. flags. Qed.
Lemma Backoff_zero : zero m K1_Backoff s <-> m = Release /\ declared s = 65533 /\ (4 <= length s)%nat.
Proof.
  unfold zero. cbn [ie1_unmarshal]. unfold Backoff_unmarshal, fixed_unmarshal. destruct (Nat.leb_spec 2 (length s)) as [L|L].
  2:{ cbn [bind]. split; [intros (i & H & _); discriminate|lia]. }
  rewrite !at_octet. destruct (Nat.ltb_spec 1 (length s)); [|lia]. cbn [bind].
  destruct (Nat.ltb_spec 2 (length s)); cbn [bind]; [|split; [intros (i & H' & _); discriminate|lia]].
  destruct (Nat.ltb_spec 3 (length s)); cbn [bind]; [|split; [intros (i & H' & _); discriminate|lia]].
  rewrite <- declared_octets by lia. cbv zeta. split.
  - intros (i & H' & H''). injection H' as <-. cbn [ie1_len] in H''. apply (len_zero m _ s B) in H''; [|reflexivity]. intuition lia.
  - intros (H' & H'' & _). eexists. split; [reflexivity|]. cbn [ie1_len]. apply (len_zero m _ s B); [reflexivity|auto].
Qed.
End Kinds.

Opaque name_full.
Lemma fine_nonzero m k s : fine m k s -> ~ zero m k s.
Proof. intros [Hr Hf] (i & Hi & Hp). destruct (Hf i Hi) as (n & Hn & Hq). rewrite Hp in Hn. injection Hn as <-. lia. Qed.
Lemma not_in_rtable m t s : existsb (fun e => fst e =? t) repeat_table1 = false -> ~ element_repeats m (t :: s).
Proof.
  intros H (_ & _ & P & HI & _). change (octet (t :: s) 0) with t in HI.
  assert (existsb (fun e => fst e =? t) repeat_table1 = true); [|congruence]. apply existsb_exists. eexists. split; [exact HI|]. apply N.eqb_refl.
Qed.
Lemma in_rtable m t s P : In (t, P) repeat_table1 -> (forall Q, In (t, Q) repeat_table1 -> Q = P) -> (element_repeats m (t :: s) <-> m = Release /\ declared (t :: s) = 65533 /\ P (t :: s)).
Proof.
  intros HI HU. split.
  - intros (Em & D & Q & HQ & H). rewrite <- (HU Q HQ). auto.
  - intros (Em & D & H). split; [exact Em|]. split; [exact D|]. exists P. auto.
Qed.
Ltac tab lem P := rewrite lem by assumption; symmetry; apply (in_rtable _ _ _ P); [unfold repeat_table1; cbn [In]; tauto|
  unfold repeat_table1; cbn [In]; let Q := fresh in intros Q HQ; repeat (destruct HQ as [HQ|HQ]; [first [discriminate HQ|injection HQ; intros ->; reflexivity|injection HQ; auto]|]); contradiction].
Ltac out lem := rewrite lem by assumption; split; [intros (_ & _ & [])|intros HC; exfalso; revert HC; apply not_in_rtable; reflexivity].
Ltac safe tac := split; [intros HS; exfalso; revert HS; apply fine_nonzero; tac|intros HC; exfalso; revert HC; apply not_in_rtable; reflexivity].

Theorem element_zero m t k s : bytes (t :: s) -> code_kind t = Some k -> (zero m k (t :: s) <-> element_repeats m (t :: s)).
Proof.
  intros B Hk. unfold code_kind in Hk.
  repeat match type of Hk with
  | (if ?t =? ?c then _ else _) = _ => destruct (N.eqb_spec t c) as [->|_]; [injection Hk as <-|]
  end; [..|discriminate Hk].
  - safe ltac:(tv 1).
  - safe ltac:(eapply fine_const; [reflexivity|apply tv_returns; intros Hl; rewrite slice_ok by lia; exact I|reflexivity|lia]).
  - safe ltac:(eapply fine_const; [reflexivity| |reflexivity|lia]; apply tv_returns; intros Hl;
    destruct (plmn_returns (3 :: s) 1) as (p & ->); [lia|]; cbn [length] in Hl; do 6 open s Hl; fin).
  - safe ltac:(tv 1).
  - safe ltac:(tv 1).
  - safe ltac:(tv 1).
  - safe ltac:(eapply fine_const; [reflexivity| |reflexivity|lia]; unfold CTeid_unmarshal; destruct (Nat.leb_spec 5 (length (16 :: s))) as [Hl|]; [|exact I];
    cbn [length] in Hl; do 4 open s Hl; fin).
  - safe ltac:(eapply fine_const; [reflexivity| |reflexivity|lia]; unfold CTeid_unmarshal; destruct (Nat.leb_spec 5 (length (17 :: s))) as [Hl|]; [|exact I];
    cbn [length] in Hl; do 4 open s Hl; fin).
  - safe ltac:(tv 1).
  - safe ltac:(tv 1).
  - safe ltac:(tv 2).
  - safe ltac:(tv 2).
  - safe ltac:(tv 2).
  - safe ltac:(tv 4).
  - out Eua_zero.
  - tab Apn_zero constr:(name_full).
  - out Pco_zero.
  - out Gsn_zero.
  - tab Msisdn_zero constr:((fun s : list N => (12 <= length s)%nat /\ (octet s 3 mod 16 = 1 \/ octet s 3 mod 16 = 6))).
  - out Qos_zero.
  - out Tft_zero.
  - out TriggerId_zero.
  - out OmcId_zero.
  - tab CommonFlags_zero constr:((fun s : list N => (4 <= length s)%nat)).
  - safe ltac:(fx 3).
  - safe ltac:(fx 3).
  - safe ltac:(eapply fine_const; [reflexivity| |reflexivity|lia]; apply fixed_returns; intros Hl; split; [lia|];
    destruct (plmn_returns (152 :: s) 4) as (p & ->); [lia|]; cbn [length] in Hl; do 10 open s Hl; fin).
  - safe ltac:(fx 4).
  - safe ltac:(eapply fine_const; [reflexivity| |reflexivity|lia]; unfold Imei_unmarshal;
    destruct (Nat.leb_spec 11 (length (154 :: s))) as [Hl|]; [|exact I]; rewrite slice_ok by lia; exact I).
  - tab Camel_zero constr:((fun s : list N => 65536 <= nlen s)).
  - safe ltac:(fx 11).
  - safe ltac:(fx 3).
  - tab DirectTunnel_zero constr:((fun s : list N => (4 <= length s)%nat)).
  - safe ltac:(fx 3).
  - safe ltac:(fx 3).
  - safe ltac:(fx 3).
  - tab ExtCommonFlags_zero constr:((fun s : list N => (4 <= length s)%nat)).
  - safe ltac:(eapply fine_const; [reflexivity| |reflexivity|lia]; apply fixed_returns; intros Hl; split; [lia|];
    destruct (plmn_returns (194 :: s) 3) as (p & ->); [lia|]; cbn [length] in Hl; do 10 open s Hl; fin).
  - tab CsgInfo_zero constr:((fun s : list N => (4 <= length s)%nat)).
  - safe ltac:(fx 10).
  - tab Backoff_zero constr:((fun s : list N => (4 <= length s)%nat)).
  - safe ltac:(fx 3).
  - safe ltac:(fx 6).
  - safe ltac:(fx 3).
  - tab ExtCommonFlagsII_zero constr:((fun s : list N => (4 <= length s)%nat)).
  - safe ltac:(fx 4).
  - safe ltac:(fx 3).
  - out ChargingGw_zero.
  - tab Pe_zero constr:((fun s : list N => (5 <= length s)%nat)).
Qed.
