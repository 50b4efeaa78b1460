(* V1CrashIe.v - when decoding a GTPv1-C information element panics. *)
From Coq Require Import Sorting.Sorted.
From Verif Require Import Base BaseFacts LabelsFacts V1U V1CHdr V1CSafeSpec V1CMsgSpec V1CHdrSafety V1CIeSafety V1CrashSpec V1Crash.
Local Open Scope N_scope.

Lemma declared_octets s : (3 <= length s)%nat -> declared s = be16 (octet s 1) (octet s 2).
Proof. destruct s as [|a [|b [|c s]]]; cbn [length]; try lia. intros _. cbn [declared octet nth]. rewrite be16_eq. reflexivity. Qed.
Lemma declared_max s : bytes s -> declared s < 65536.
Proof.
  intros B. destruct s as [|a [|b [|c s]]]; cbn [declared]; try lia. inversion B as [|? ? _ B1]; subst. inversion B1 as [|? ? Hb B2]; subst. inversion B2 as [|? ? Hc _]; subst. unfold byte in *. lia.
Qed.
Lemma overlong_dec s : {overlong s} + {~ overlong s}.
Proof. unfold overlong. destruct (65533 <=? declared s) eqn:E; [left; apply N.leb_le, E|right; apply N.leb_gt in E; lia]. Qed.
Lemma add3 m d : d < 65536 -> @add16 GTPV1Error m d 3 = if d <? 65533 then Ok (d + 3) else match m with Debug => Panic | Release => Ok (d - 65533) end.
Proof.
  intros H. unfold add16, ov. destruct (N.ltb_spec (d + 3) 65536), (N.ltb_spec d 65533); try lia; [reflexivity|]. destruct m; [reflexivity|]. f_equal.
  replace (d + 3) with (d - 65533 + 1 * 65536) by lia. rewrite N.mod_add by lia. apply N.mod_small. lia.
Qed.

(* what decoding an element and asking for its size can do *)
Definition stops (m : mode) (k : kind1) (s : list N) : Prop :=
  ie1_unmarshal k m s = Panic \/ exists i, ie1_unmarshal k m s = Ok i /\ ie1_len m i = Panic.

Lemma check_panic {A} m s (k1 k2 : res A) : bytes s -> (3 <= length s)%nat ->
  ((let? ok := check_tlv_ie_buffer m (declared s) s in if ok then k1 else k2) = Panic <->
   (declared s <> 0 /\ ((m = Debug /\ overlong s) \/ ((m = Debug -> ~ overlong s) /\ ((3 + N.to_nat (declared s) <= length s)%nat \/ overlong s) /\ k1 = Panic))) \/
   (((declared s = 0) \/ (~ overlong s /\ (length s < 3 + N.to_nat (declared s))%nat)) /\ k2 = Panic)).
Proof.
  intros B L. pose proof (declared_max s B) as D. unfold check_tlv_ie_buffer. unfold overlong. destruct (N.eqb_spec (declared s) 0) as [Z|Z]; cbn [bind].
  - intuition lia.
  - rewrite add3 by exact D. destruct (N.ltb_spec (declared s) 65533) as [K|K].
    + cbn [bind]. destruct (Nat.leb_spec (N.to_nat (declared s + 3)) (length s)); intuition lia.
    + destruct m; cbn [bind].
      * intuition lia.
      * destruct (Nat.leb_spec (N.to_nat (declared s - 65533)) (length s)); [|lia]. intuition (try discriminate; try lia).
Qed.
Lemma var_panic {A} T (k : N -> list N -> res A) m s : bytes s ->
  (var_unmarshal T k m s = Panic <-> length_passes s /\ ((m = Debug /\ overlong s) \/ ((m = Debug -> ~ overlong s) /\ k (declared s) s = Panic))).
Proof.
  intros B. unfold var_unmarshal, length_passes. destruct (Nat.leb_spec 3 (length s)) as [L|L]; [|split; [discriminate|intros [[? _] _]; lia]].
  rewrite !at_octet. destruct (Nat.ltb_spec 1 (length s)); [|lia]. destruct (Nat.ltb_spec 2 (length s)); [|lia]. cbn [bind]. cbv zeta. rewrite <- declared_octets by exact L.
  rewrite check_panic by assumption. rewrite bind_ok_panic. split.
  - intros [(Z & [[E O]|(O & F & P)])|[_ P]]; [| |discriminate]; (split; [split; [exact L|split; [exact Z|auto]]|auto]).
  - intros ((_ & Z & F) & [[E O]|(O & P)]); left; auto 6.
Qed.
Lemma var_elem {A} T (body : N -> list N -> res A) (f : Tlv A -> ie1) m k s (P : list N -> Prop) : bytes s ->
  ie1_unmarshal k m s = bind (var_unmarshal T body m s) (fun x => Ok (f x)) -> (forall x, ie1_len m (f x) = len_u16 m x) ->
  (length_passes s -> (m = Debug -> ~ overlong s) -> (body (declared s) s = Panic <-> P s)) ->
  (stops m k s <-> after_check P m s).
Proof.
  intros B E Hl Hb. unfold stops. rewrite E, bind_ok_panic, (var_panic T body m s B). unfold after_check. split.
  - intros [(L & [D|(D & K)])|(i & Hi & Hp)]; [auto| |].
    + split; [exact L|]. right. apply Hb; assumption.
    + exfalso. apply bind_ok in Hi as (x & Hx & Hi). injection Hi as <-. rewrite Hl in Hp. unfold len_u16 in Hp. rewrite bind_panic in Hp.
      destruct Hp as [Hp|(? & _ & Hp)]; [|discriminate]. pose proof (var_declared _ _ _ _ _ Hx) as Hd. rewrite Hd, add3 in Hp by (apply declared_max, B).
      destruct (N.ltb_spec (declared s) 65533) as [K|K]; [discriminate|]. destruct m; [|discriminate].
      assert (var_unmarshal T body Debug s = Panic); [|congruence]. apply (var_panic T body Debug s B).
      assert (Lp : length_passes s). { split; [|split; [lia|right; exact K]]. destruct (Nat.leb_spec 3 (length s)); [assumption|]. unfold var_unmarshal in Hx. destruct (Nat.leb_spec 3 (length s)); [lia|discriminate]. }
      split; [exact Lp|left; split; [reflexivity|exact K]].
  - intros (L & [D|HP]); left; (split; [exact L|]); [auto|]. destruct m; [|right; split; [discriminate|apply Hb; [exact L|discriminate|exact HP]]].
    destruct (overlong_dec s) as [O|O]; [left; auto|right]. split; [auto|]. apply Hb; auto.
Qed.

(* the bodies *)
Lemma land15_mod x : N.land x 15 = x mod 16.
Proof. change 15 with (N.ones 4). apply N.land_ones. Qed.
Lemma labels_loop_panic {E} : forall f d, (length d <= f)%nat -> (@labels_loop E f d = Panic <-> ~ labels_exact d).
Proof.
  induction f as [|f IH]; intros [|n r] Hf; cbn [length] in Hf; try lia.
  - split; [discriminate|]. intros H. exfalso. apply H. exists []. reflexivity.
  - split; [discriminate|]. intros H. exfalso. apply H. exists []. reflexivity.
  - cbn [labels_loop]. destruct (Nat.leb_spec (N.to_nat n) (length r)) as [L|L].
    + specialize (IH (skipn (N.to_nat n) r) ltac:(rewrite skipn_length; lia)).
      assert (X : labels_exact (n :: r) <-> labels_exact (skipn (N.to_nat n) r)).
      { split.
        - intros (ws & E0). destruct ws as [|w ws]; [discriminate|]. cbn [map concat app] in E0. injection E0 as -> ->. unfold nlen. rewrite Nat2N.id.
          rewrite skipn_app, skipn_all, Nat.sub_diag. exists ws. reflexivity.
        - intros (ws & E0). exists (firstn (N.to_nat n) r :: ws). cbn [map concat app]. rewrite <- E0, firstn_skipn. f_equal. unfold nlen. rewrite firstn_length, Nat.min_l by exact L. rewrite N2Nat.id. reflexivity. }
      rewrite X, <- IH. destruct (labels_loop f (skipn (N.to_nat n) r)); cbn [bind]; split; intros; congruence.
    + split; [|reflexivity]. intros _ (ws & E0). destruct ws as [|w ws]; [discriminate|]. cbn [map concat app] in E0. injection E0 as -> ->. unfold nlen in L. rewrite Nat2N.id, app_length in L. lia.
Qed.
Lemma labels_panic {E} d : @labels_decode E d = Panic <-> ~ labels_exact d.
Proof.
  unfold labels_decode. rewrite <- (@labels_loop_panic E (length d) d (le_n _)). destruct (labels_loop (length d) d); cbn [bind]; split; intros; congruence.
Qed.

Section Kinds.
Context (m : mode) (s : list N) (B : bytes s).
Ltac passes := let L := fresh "L" in let O := fresh "O" in intros L O; pose proof (declared_max s B) as D; destruct L as (L3 & Z & F).
Ltac at_s := rewrite ?at_octet; repeat (match goal with |- context [(?i <? length ?r)%nat] => destruct (Nat.ltb_spec i (length r)) end; cbn [bind]).

Lemma Eua_stops : stops m K1_Eua s <-> after_check two_missing m s.
Proof.
  eapply var_elem; [exact B|reflexivity|reflexivity|]. passes. unfold two_missing.
  at_s; try (split; intros; [lia|reflexivity]); try (split; [reflexivity|lia]). cbv zeta.
  split; [|lia]. unfold overlong in *. intros P. exfalso. revert P.
  repeat match goal with |- context [if ?c then _ else _] => destruct c eqn:?; try discriminate end;
  repeat match goal with E : (_ && _)%bool = true |- _ => apply andb_prop in E as [E _] | E : (declared s =? _) = true |- _ => apply N.eqb_eq in E end;
  repeat (rewrite slice_ok by lia; cbn [bind]); discriminate.
Qed.
Lemma Pe_stops : stops m K1_Pe s <-> after_check two_missing m s.
Proof.
  eapply var_elem; [exact B|reflexivity|reflexivity|]. passes. unfold two_missing, be16_at.
  at_s; try (split; intros; [lia|reflexivity]); try (split; [reflexivity|lia]). rewrite slice_from_ok by lia. cbn [bind]. split; [discriminate|lia].
Qed.
Lemma Apn_stops : stops m K1_Apn s <-> after_check labels_broken m s.
Proof.
  eapply var_elem; [exact B|reflexivity|reflexivity|]. passes. unfold labels_broken.
  rewrite bind_panic, slice_panic. split.
  - intros [H|(d & Hd & H)]; [left; lia|right]. apply labels_panic in H. unfold slice in Hd. destruct (_ && _)%bool; [|discriminate]. apply Ok_inj in Hd. subst d.
    assert (E : (3 + N.to_nat (declared s) - 3 = N.to_nat (declared s))%nat) by lia. rewrite E in H. exact H.
  - intros H. destruct (Nat.le_gt_cases (3 + N.to_nat (declared s)) (length s)) as [L|L]; [right|left; lia]. rewrite slice_ok by lia. eexists. split; [reflexivity|].
    apply labels_panic. replace (3 + N.to_nat (declared s) - 3)%nat with (N.to_nat (declared s)) by lia. destruct H as [H|H]; [lia|exact H].
Qed.
Lemma blob_panic1 : length_passes s -> (m = Debug -> ~ overlong s) -> (blob_at m (declared s) s = Panic <-> overlong s).
Proof.
  passes. unfold blob_at, overlong in *. rewrite add3 by exact D. destruct (N.ltb_spec (declared s) 65533) as [K|K].
  - cbn [bind]. rewrite slice_panic. lia.
  - destruct m; [exfalso; apply O; [reflexivity|exact K]|]. cbn [bind]. rewrite slice_panic. lia.
Qed.
Lemma Pco_stops : stops m K1_Pco s <-> after_check overlong m s.
Proof. eapply var_elem; [exact B|reflexivity|reflexivity|exact blob_panic1]. Qed.
Lemma Tft_stops : stops m K1_Tft s <-> after_check overlong m s.
Proof. eapply var_elem; [exact B|reflexivity|reflexivity|exact blob_panic1]. Qed.
Lemma TriggerId_stops : stops m K1_TriggerId s <-> after_check overlong m s.
Proof. eapply var_elem; [exact B|reflexivity|reflexivity|exact blob_panic1]. Qed.
Lemma OmcId_stops : stops m K1_OmcId s <-> after_check overlong m s.
Proof. eapply var_elem; [exact B|reflexivity|reflexivity|exact blob_panic1]. Qed.
Lemma ip_panic1 : length_passes s -> (m = Debug -> ~ overlong s) -> (ip_at (declared s) s = Panic <-> False).
Proof.
  passes. unfold ip_at, overlong in *. destruct (N.eqb_spec (declared s) 4) as [E|E].
  - at_s; try lia. split; [discriminate|contradiction].
  - destruct (N.eqb_spec (declared s) 16) as [E'|E']; [|split; [discriminate|contradiction]]. destruct (Nat.leb_spec 19 (length s)); [|split; [discriminate|contradiction]].
    rewrite slice_ok by lia. split; [discriminate|contradiction].
Qed.
Lemma Gsn_stops : stops m K1_Gsn s <-> after_check (fun _ => False) m s.
Proof. eapply var_elem; [exact B|reflexivity|reflexivity|exact ip_panic1]. Qed.
Lemma ChargingGw_stops : stops m K1_ChargingGw s <-> after_check (fun _ => False) m s.
Proof. eapply var_elem; [exact B|reflexivity|reflexivity|exact ip_panic1]. Qed.
Lemma Msisdn_stops : stops m K1_Msisdn s <-> after_check digits_missing m s.
Proof.
  eapply var_elem; [exact B|reflexivity|reflexivity|]. passes. unfold digits_missing.
  rewrite at_octet. destruct (Nat.ltb_spec 3 (length s)) as [L|L]; cbn [bind]; [|split; [intros _; left; lia|reflexivity]]. cbv zeta. rewrite land15_mod.
  destruct (N.eqb_spec (octet s 3 mod 16) 1) as [E1|E1], (N.eqb_spec (octet s 3 mod 16) 6) as [E6|E6]; cbn [orb]; try (split; [discriminate|intros [?|[[?|?] _]]; [lia|contradiction|contradiction]]);
    rewrite bind_ok_panic, slice_panic; (split; [intros; right; split; [auto|lia]|intros [?|[_ ?]]; lia]).
Qed.
Lemma Qos_stops : stops m K1_Qos s <-> after_check overlong m s.
Proof.
  eapply var_elem; [exact B|reflexivity|reflexivity|]. passes. unfold overlong in *. rewrite at_octet.
  destruct (Nat.ltb_spec 3 (length s)) as [L|L]; cbn [bind]; [|split; [intros _; lia|reflexivity]]. rewrite add3 by exact D.
  destruct (N.ltb_spec (declared s) 65533) as [K|K].
  - cbn [bind]. rewrite bind_panic, slice_panic. split; [|lia]. intros [H|(q & _ & H)]; [lia|]. destruct (_ && _)%bool; discriminate.
  - destruct m; [exfalso; apply O; [reflexivity|exact K]|]. cbn [bind]. rewrite bind_panic, slice_panic. split; [intros _; exact K|intros _; left; lia].
Qed.
Lemma len_panic {A} (x : Tlv A) : tlv_length x = declared s -> (len_u16 m x = Panic <-> m = Debug /\ overlong s).
Proof.
  intros E. unfold len_u16. rewrite bind_ok_panic, E, add3 by (apply declared_max, B). unfold overlong. destruct (N.ltb_spec (declared s) 65533); [split; [discriminate|lia]|].
  destruct m; split; intros; try discriminate; try reflexivity; auto. destruct H0; discriminate.
Qed.
Lemma Camel_stops : stops m K1_Camel s <-> camel_crashes m s.
Proof.
  unfold stops, camel_crashes. cbn [ie1_unmarshal]. rewrite bind_ok_panic. unfold Camel_unmarshal. pose proof (declared_max s B) as D.
  destruct (Nat.leb_spec 3 (length s)) as [L|L]; [|split; [intros [H|(i & H & _)]; discriminate|intros [? _]; lia]].
  rewrite !at_octet. destruct (Nat.ltb_spec 1 (length s)); [|lia]. destruct (Nat.ltb_spec 2 (length s)); [|lia]. cbn [bind]. cbv zeta. rewrite <- declared_octets by exact L.
  rewrite add3 by exact D. unfold overlong. destruct (N.ltb_spec (declared s) 65533) as [K|K]; cbn [bind].
  - destruct (Nat.leb_spec (N.to_nat (declared s + 3)) (length s)) as [M|M].
    + rewrite slice_ok by lia. cbn [bind]. split; [|lia]. intros [H'|(i & H' & H'')]; [discriminate|]. injection H' as <-. cbn [ie1_len] in H''.
      apply len_panic in H''; [|reflexivity]. unfold overlong in H''. lia.
    + cbn [bind]. split; [intros [H'|(i & H' & _)]; discriminate|lia].
  - destruct m; cbn [bind].
    + split; [auto|auto].
    + destruct (Nat.leb_spec (N.to_nat (declared s - 65533)) (length s)) as [M|M]; [|lia].
      destruct (Nat.le_gt_cases (3 + N.to_nat (declared s)) (length s)) as [Q|Q].
      * rewrite slice_ok by lia. cbn [bind]. split; [|intros (_ & _ & [?|?]); [discriminate|lia]]. intros [H'|(i & H' & H'')]; [discriminate|]. injection H' as <-. cbn [ie1_len] in H''.
        unfold len_u16 in H''. rewrite bind_ok_panic in H''. cbn [tlv_length] in H''. rewrite add3 in H'' by exact D. destruct (_ <? _); discriminate.
      * split; [auto|]. intros _. left. rewrite bind_ok_panic. apply slice_panic. lia.
Qed.
Lemma fixed_elem {A} T (body : list N -> res A) (f : Tlv A -> ie1) k : ie1_unmarshal k m s = bind (fixed_unmarshal T 4 body s) (fun x => Ok (f x)) ->
  (forall x, ie1_len m (f x) = len_u16 m x) -> ((4 <= length s)%nat -> exists v, body s = Ok v) -> (stops m k s <-> flags_crash m s).
Proof.
  intros E Hl Hb. unfold stops, flags_crash. rewrite E. unfold fixed_unmarshal. destruct (Nat.leb_spec 4 (length s)) as [L|L].
  2:{ cbn [bind]. split; [intros [H|(i & H & _)]; discriminate|lia]. }
  rewrite !at_octet. destruct (Nat.ltb_spec 1 (length s)); [|lia]. destruct (Nat.ltb_spec 2 (length s)); [|lia]. cbn [bind]. rewrite <- declared_octets by lia.
  destruct (Hb L) as [v ->]. cbn [bind]. split.
  - intros [H'|(i & H' & H'')]; [discriminate|]. injection H' as <-. rewrite Hl in H''. apply len_panic in H''; [|reflexivity]. tauto.
  - intros (H1 & _ & H2). right. eexists. split; [reflexivity|]. rewrite Hl. apply len_panic; [reflexivity|auto].
Qed.
Ltac flags := eapply fixed_elem; [reflexivity|reflexivity|]; intros L; cbv beta; rewrite at_octet; destruct (Nat.ltb_spec 3 (length s)); [|lia]; cbn [bind]; eexists; reflexivity.
Lemma CommonFlags_stops : stops m K1_CommonFlags s <-> flags_crash m s. Proof. flags. Qed.
Lemma DirectTunnel_stops : stops m K1_DirectTunnel s <-> flags_crash m s. Proof. flags. Qed.
Lemma ExtCommonFlags_stops : stops m K1_ExtCommonFlags s <-> flags_crash m s. Proof. flags. Qed.
Lemma CsgInfo_stops : stops m K1_CsgInfo s <-> flags_crash m s. Proof. flags. Qed.
Lemma ExtCommonFlagsII_stops : stops m K1_ExtCommonFlagsII s <-> flags_crash m s. Proof. flags. Qed.
Lemma Backoff_stops : stops m K1_Backoff s <-> backoff_crashes m s.
Proof.
  unfold stops, backoff_crashes, flags_crash. cbn [ie1_unmarshal]. unfold Backoff_unmarshal, fixed_unmarshal. destruct (Nat.leb_spec 2 (length s)) as [L|L].
  2:{ cbn [bind]. split; [intros [H|(i & H & _)]; discriminate|lia]. }
  rewrite !at_octet. destruct (Nat.ltb_spec 1 (length s)); [|lia]. cbn [bind].
  destruct (Nat.ltb_spec 2 (length s)); cbn [bind]; [|split; [intros _; left; lia|auto]].
  destruct (Nat.ltb_spec 3 (length s)); cbn [bind]; [|split; [intros _; right; left; lia|auto]].
  rewrite <- declared_octets by lia. cbv zeta. split.
  - intros [H'|(i & H' & H'')]; [discriminate|]. injection H' as <-. cbn [ie1_len] in H''. apply len_panic in H''; [|reflexivity]. right. right. intuition lia.
  - intros [?|[?|(H' & _ & H'')]]; [lia|lia|]. right. eexists. split; [reflexivity|]. cbn [ie1_len]. apply len_panic; [reflexivity|auto].
Qed.
End Kinds.

Lemma fine_safe m k s : fine m k s -> ~ stops m k s.
Proof.
  intros [Hr Hf] [H|(i & Hi & Hp)]; [rewrite H in Hr; exact Hr|]. destruct (Hf i Hi) as (n & Hn & _). congruence.
Qed.
Lemma not_in_table m t s : existsb (fun e => fst e =? t) crash_table1 = false -> ~ element_crashes m (t :: s).
Proof.
  intros H (P & HI & _). cbn [octet nth] in HI. change (octet (t :: s) 0) with t in HI.
  assert (existsb (fun e => fst e =? t) crash_table1 = true); [|congruence]. apply existsb_exists. eexists. split; [exact HI|]. apply N.eqb_refl.
Qed.
Lemma in_table m t s P : In (t, P) crash_table1 -> (forall Q, In (t, Q) crash_table1 -> Q = P) -> (element_crashes m (t :: s) <-> P m (t :: s)).
Proof.
  intros HI HU. split; [|intros H; exists P; split; assumption]. intros (Q & HQ & H). rewrite <- (HU Q HQ). exact H.
Qed.
Ltac tab lem := rewrite lem by assumption; symmetry; apply in_table; [unfold crash_table1; cbn [In]; tauto|
  unfold crash_table1; cbn [In]; let Q := fresh in intros Q HQ; repeat (destruct HQ as [HQ|HQ]; [first [discriminate HQ|injection HQ; intros ->; reflexivity|injection HQ; auto]|]); contradiction].
Ltac safe tac := split; [intros HS; exfalso; revert HS; apply fine_safe; tac|intros HC; exfalso; revert HC; apply not_in_table; reflexivity].
Theorem element_panic m t k s : bytes (t :: s) -> code_kind t = Some k -> (stops m k (t :: s) <-> element_crashes m (t :: s)).
Proof.
  intros B Hk. unfold code_kind in Hk.
  repeat match type of Hk with
  | (if ?t =? ?c then _ else _) = _ => destruct (N.eqb_spec t c) as [->|_]; [injection Hk as <-|]
  end; [..|discriminate Hk].
  - safe ltac:(tv 1).
  - safe ltac:(eapply fine_const; [reflexivity|apply tv_returns; intros Hl; rewrite slice_ok by lia; exact I|reflexivity|lia]).
  - safe ltac:(eapply fine_const; [reflexivity| |reflexivity|lia]; apply tv_returns; intros Hl;
    destruct (plmn_returns (3 :: s) 1) as (p & ->); [lia|]; cbn [length] in Hl; do 6 open s Hl; fin).
  - safe ltac:(tv 1).
  - safe ltac:(tv 1).
  - safe ltac:(tv 1).
  - safe ltac:(eapply fine_const; [reflexivity| |reflexivity|lia]; unfold CTeid_unmarshal; destruct (Nat.leb_spec 5 (length (16 :: s))) as [Hl|]; [|exact I];
    cbn [length] in Hl; do 4 open s Hl; fin).
  - safe ltac:(eapply fine_const; [reflexivity| |reflexivity|lia]; unfold CTeid_unmarshal; destruct (Nat.leb_spec 5 (length (17 :: s))) as [Hl|]; [|exact I];
    cbn [length] in Hl; do 4 open s Hl; fin).
  - safe ltac:(tv 1).
  - safe ltac:(tv 1).
  - safe ltac:(tv 2).
  - safe ltac:(tv 2).
  - safe ltac:(tv 2).
  - safe ltac:(tv 4).
  - tab Eua_stops.
  - tab Apn_stops.
  - tab Pco_stops.
  - tab Gsn_stops.
  - tab Msisdn_stops.
  - tab Qos_stops.
  - tab Tft_stops.
  - tab TriggerId_stops.
  - tab OmcId_stops.
  - tab CommonFlags_stops.
  - safe ltac:(fx 3).
  - safe ltac:(fx 3).
  - safe ltac:(eapply fine_const; [reflexivity| |reflexivity|lia]; apply fixed_returns; intros Hl; split; [lia|];
    destruct (plmn_returns (152 :: s) 4) as (p & ->); [lia|]; cbn [length] in Hl; do 10 open s Hl; fin).
  - safe ltac:(fx 4).
  - safe ltac:(eapply fine_const; [reflexivity| |reflexivity|lia]; unfold Imei_unmarshal;
    destruct (Nat.leb_spec 11 (length (154 :: s))) as [Hl|]; [|exact I]; rewrite slice_ok by lia; exact I).
  - tab Camel_stops.
  - safe ltac:(fx 11).
  - safe ltac:(fx 3).
  - tab DirectTunnel_stops.
  - safe ltac:(fx 3).
  - safe ltac:(fx 3).
  - safe ltac:(fx 3).
  - tab ExtCommonFlags_stops.
  - safe ltac:(eapply fine_const; [reflexivity| |reflexivity|lia]; apply fixed_returns; intros Hl; split; [lia|];
    destruct (plmn_returns (194 :: s) 3) as (p & ->); [lia|]; cbn [length] in Hl; do 10 open s Hl; fin).
  - tab CsgInfo_stops.
  - safe ltac:(fx 10).
  - tab Backoff_stops.
  - safe ltac:(fx 3).
  - safe ltac:(fx 6).
  - safe ltac:(fx 3).
  - tab ExtCommonFlagsII_stops.
  - safe ltac:(fx 4).
  - safe ltac:(fx 3).
  - tab ChargingGw_stops.
  - tab Pe_stops.
Qed.
