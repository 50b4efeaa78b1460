(* V1CIeSafety.v - GTPv1-C element decoding on arbitrary octets. *)
From Verif Require Import BaseFacts LabelsFacts V1USpec V1UFacts V1USafety2 V1CHdrSafety V1CSpec V1CSafeSpec V1CMsgSpec.
Local Open Scope N_scope.

Lemma be16_eq a b : be16 a b = 256 * a + b.
Proof. unfold be16. lia. Qed.

Lemma labels_loop_exact {E} ws : forall f, (length (concat (map (fun w => nlen w :: w) ws)) <= f)%nat ->
  exists p, @labels_loop E f (concat (map (fun w => nlen w :: w) ws)) = Ok p.
Proof.
  induction ws as [|w ws IH]; intros f Hf; [destruct f; eexists; reflexivity|].
  cbn [map concat app] in *. cbn [length] in Hf. rewrite app_length in Hf. destruct f as [|f]; [lia|]. cbn [labels_loop].
  unfold nlen at 1. rewrite Nnat.Nat2N.id. destruct (Nat.leb_spec (length w) (length (w ++ concat (map (fun w0 => nlen w0 :: w0) ws)))) as [_|H].
  - unfold nlen at 1 3. rewrite Nnat.Nat2N.id. rewrite skipn_app_exact, firstn_app_exact by reflexivity.
    destruct (IH f ltac:(lia)) as (p & ->). eexists. reflexivity.
  - rewrite app_length in H. lia.
Qed.

(* what a step of the loop needs *)
Definition fine (m : mode) (k : kind1) (s : list N) : Prop :=
  returns (ie1_unmarshal k m s) /\
  forall i, ie1_unmarshal k m s = Ok i -> exists n, ie1_len m i = Ok n /\ (2 <= n)%nat.

Lemma fine_const {A} m k s (u : res A) (f : A -> ie1) n :
  ie1_unmarshal k m s = bind u (fun x => Ok (f x)) -> returns u ->
  (forall x, ie1_len m (f x) = Ok n) -> (2 <= n)%nat -> fine m k s.
Proof.
  intros E Hr Hl Hn. unfold fine. rewrite E. destruct u as [x| | |]; cbn [bind]; try contradiction Hr.
  - split; [exact I|]. intros i [= <-]. exists n. auto.
  - split; [exact I|]. discriminate.
Qed.
Lemma fine_len {A} m k s (u : res (Tlv A)) (f : Tlv A -> ie1) :
  ie1_unmarshal k m s = bind u (fun x => Ok (f x)) -> returns u ->
  (forall x, ie1_len m (f x) = len_u16 m x) -> (forall x, u = Ok x -> tlv_length x <= 65532) -> fine m k s.
Proof.
  intros E Hr Hl Hn. unfold fine. rewrite E. destruct u as [x| | |]; cbn [bind]; try contradiction Hr.
  - split; [exact I|]. intros i [= <-]. rewrite Hl. unfold len_u16. specialize (Hn x eq_refl). rewrite add16_small by lia.
    cbn [bind]. eexists. split; [reflexivity|]. lia.
  - split; [exact I|]. discriminate.
Qed.

Lemma tv_returns {A} T n (k : list N -> res A) s : ((n <= length s)%nat -> returns (k s)) -> returns (tv_unmarshal T n k s).
Proof.
  intros H. unfold tv_unmarshal. destruct (Nat.leb_spec n (length s)) as [Hn|]; [|exact I]. specialize (H Hn).
  destruct (k s); cbn [bind]; exact H.
Qed.
Lemma fixed_returns {A} T n (k : list N -> res A) s : ((n <= length s)%nat -> (3 <= length s)%nat /\ returns (k s)) ->
  returns (fixed_unmarshal T n k s).
Proof.
  intros H. unfold fixed_unmarshal. destruct (Nat.leb_spec n (length s)) as [Hn|]; [|exact I]. destruct (H Hn) as [H3 Hr].
  destruct s as [|t [|a [|b s]]]; cbn [length] in H3; try lia. unfold at_. cbn [nth_error bind].
  destruct (k _); cbn [bind]; exact Hr.
Qed.
Lemma fixed_declared {A} T n (k : list N -> res A) s x : fixed_unmarshal T n k s = Ok x -> tlv_length x = declared s.
Proof.
  unfold fixed_unmarshal. destruct (_ <=? _)%nat; [|discriminate]. intros H. apply bind_ok in H as (a & Ha & H).
  apply bind_ok in H as (b & Hb & H). apply bind_ok in H as (v & Hv & [= <-]). cbn [tlv_length].
  destruct s as [|t [|a' [|b' s]]]; cbn in Ha, Hb; try discriminate. injection Ha as ->. injection Hb as ->. apply be16_eq.
Qed.
Lemma var_returns {A} T (k : N -> list N -> res A) m s : declared s <= 65532 ->
  (declared s <> 0 -> (3 + N.to_nat (declared s) <= length s)%nat -> returns (k (declared s) s)) ->
  returns (var_unmarshal T k m s).
Proof.
  intros Hd Hk. unfold var_unmarshal. destruct (Nat.leb_spec 3 (length s)) as [Hn|]; [|exact I].
  destruct s as [|t [|a [|b s]]]; cbn [length] in Hn; try lia. unfold at_. cbn [nth_error bind]. cbn zeta.
  rewrite be16_eq. change (256 * a + b) with (declared (t :: a :: b :: s)) in *. set (d := declared _) in *.
  unfold check_tlv_ie_buffer. destruct (N.eqb_spec d 0) as [|Hz]; [exact I|]. rewrite add16_small by lia. cbn [bind].
  destruct (Nat.leb_spec (N.to_nat (d + 3)) (length (t :: a :: b :: s))) as [Hl|]; [|exact I].
  assert (Hr := Hk Hz ltac:(lia)). destruct (k d _); cbn [bind]; exact Hr.
Qed.
Lemma var_declared {A} T (k : N -> list N -> res A) m s x : var_unmarshal T k m s = Ok x -> tlv_length x = declared s.
Proof.
  unfold var_unmarshal. destruct (_ <=? _)%nat; [|discriminate]. intros H. apply bind_ok in H as (a & Ha & H).
  apply bind_ok in H as (b & Hb & H). apply bind_ok in H as (ok & _ & H). destruct ok; [|discriminate].
  apply bind_ok in H as (v & Hv & [= <-]). cbn [tlv_length].
  destruct s as [|t [|a' [|b' s]]]; cbn in Ha, Hb; try discriminate. injection Ha as ->. injection Hb as ->. apply be16_eq.
Qed.

Lemma blob_returns m s : declared s <= 65532 -> (3 + N.to_nat (declared s) <= length s)%nat -> returns (blob_at m (declared s) s).
Proof. intros Hd Hl. unfold blob_at. rewrite add16_small by lia. cbn [bind]. rewrite slice_ok by lia. exact I. Qed.

(* open the first [n] octets of [s], known to be there *)
Ltac open s H := destruct s as [|? s]; [cbn [length] in H; lia|cbn [length] in H].
Lemma ip_at_returns s : (3 + N.to_nat (declared s) <= length s)%nat -> returns (ip_at (declared s) s).
Proof.
  intros H. unfold ip_at. destruct (N.eqb_spec (declared s) 4) as [E|].
  - rewrite E in H. change (3 + N.to_nat 4)%nat with 7%nat in H. do 7 open s H. unfold at_. cbn [nth_error bind]. exact I.
  - destruct (N.eqb_spec (declared s) 16) as [E|]; [|exact I]. rewrite E in H. change (3 + N.to_nat 16)%nat with 19%nat in H.
    destruct (Nat.leb_spec 19 (length s)); [|exact I]. rewrite slice_ok by lia. exact I.
Qed.

Lemma plmn_returns (s : list N) i : (i + 3 <= length s)%nat -> exists p, plmn_at s i = Ok p.
Proof.
  intros H. unfold plmn_at. rewrite slice_ok by lia. cbn [bind]. replace (i + 3 - i)%nat with 3%nat by lia.
  assert (Hl : length (firstn 3 (skipn i s)) = 3%nat) by (rewrite firstn_length, skipn_length; lia).
  destruct (firstn 3 (skipn i s)) as [|a [|b [|c [|]]]]; cbn [length] in Hl; try lia. eexists. reflexivity.
Qed.

Ltac fin :=
  unfold be16_at, be24_at, be32_at, at_, Restriction_dec, Rat_dec, bool_at3; cbn [nth_error bind Nat.add];
  repeat match goal with |- context [if ?c then _ else _] => destruct c; cbn [bind] end; exact I.
(* a TV element of constant size *)
Tactic Notation "tv" integer(n) := eapply fine_const; [reflexivity
  | apply tv_returns; intros Hl; match type of Hl with context [length (_ :: ?s)] => cbn [length] in Hl; do n (open s Hl) end; fin
  | reflexivity | lia].
(* a TLV element of constant size *)
Tactic Notation "fx" integer(n) := eapply fine_const; [reflexivity
  | apply fixed_returns; intros Hl; match type of Hl with context [length (_ :: ?s)] => cbn [length] in Hl; do n (open s Hl) end;
    split; [cbn [length]; lia|unfold bool_at3; fin]
  | reflexivity | lia].
(* a TLV element whose size is its length field, not compared with the buffer *)
Tactic Notation "fl" integer(n) := eapply fine_len; [reflexivity
  | apply fixed_returns; intros Hl; match type of Hl with context [length (_ :: ?s)] => cbn [length] in Hl; do n (open s Hl) end;
    split; [cbn [length]; lia|fin]
  | reflexivity | intros x Hx; apply fixed_declared in Hx; rewrite Hx; assumption].
(* a TLV element whose length field is compared with the buffer *)
Ltac vr tac := eapply fine_len; [reflexivity
  | apply var_returns; [assumption|intros Hz Hl; tac]
  | reflexivity | intros x Hx; apply var_declared in Hx; rewrite Hx; assumption].

Theorem element_fine m t k s : code_kind t = Some k -> harmless (t :: s) -> fine m k (t :: s).
Proof.
  intros Hk (H16 & Hone & Happ & Hms & Hbo). unfold code_kind in Hk.
  repeat match type of Hk with
  | (if ?t =? ?c then _ else _) = _ => destruct (N.eqb_spec t c) as [->|_]; [injection Hk as <-|]
  end; [..|discriminate Hk];
  try specialize (H16 ltac:(lia)).
  - tv 1.
  - eapply fine_const; [reflexivity|apply tv_returns; intros Hl; rewrite slice_ok by lia; exact I|reflexivity|lia].
  - eapply fine_const; [reflexivity| |reflexivity|lia]. apply tv_returns. intros Hl.
    destruct (plmn_returns (3 :: s) 1) as (p & ->); [lia|]. cbn [length] in Hl. do 6 open s Hl. fin.
  - tv 1.
  - tv 1.
  - tv 1.
  - eapply fine_const; [reflexivity| |reflexivity|lia]. unfold CTeid_unmarshal. destruct (Nat.leb_spec 5 (length (16 :: s))) as [Hl|]; [|exact I].
    cbn [length] in Hl. do 4 open s Hl. fin.
  - eapply fine_const; [reflexivity| |reflexivity|lia]. unfold CTeid_unmarshal. destruct (Nat.leb_spec 5 (length (17 :: s))) as [Hl|]; [|exact I].
    cbn [length] in Hl. do 4 open s Hl. fin.
  - tv 1.
  - tv 1.
  - tv 2.
  - tv 2.
  - tv 2.
  - tv 4.
  - (* end user address *)
    specialize (Hone (or_introl eq_refl)). vr idtac.
    assert (H5 : (5 <= length (128%N :: s))%nat).
    { destruct (N.eq_dec (declared (128 :: s)) 1) as [E|E]; [apply Hone, E|lia]. }
    remember (declared (128 :: s)) as d eqn:Ed. clear Ed.
    destruct s as [|x1 [|x2 [|x3 [|x4 s]]]]; cbn [length] in H5; try lia. unfold at_. cbn [nth_error bind].
    repeat match goal with
    | |- context [if ?c then _ else _] => destruct c eqn:?; try exact I
    end; repeat match goal with E : _ && _ = true |- _ => apply andb_prop in E as [E _] | E : (d =? _) = true |- _ => apply N.eqb_eq in E; subst d end;
    repeat (rewrite slice_ok by lia; cbn [bind]); exact I.
  - (* access point name *)
    vr ltac:(idtac). specialize (Happ eq_refl Hl). rewrite slice_ok by lia. cbn [bind].
    replace (3 + N.to_nat (declared (131%N :: s)) - 3)%nat with (N.to_nat (declared (131%N :: s))) by lia.
    destruct Happ as (ws & ->). unfold labels_decode. destruct (@labels_loop_exact GTPV1Error ws _ (le_n _)) as (p & ->). exact I.
  - vr ltac:(apply blob_returns; assumption).
  - vr ltac:(apply ip_at_returns; assumption).
  - (* MSISDN *)
    specialize (Hms eq_refl). vr idtac. cbn [length] in Hms. pose proof Hms as Hms'. do 3 open s Hms. unfold at_. cbn [nth_error bind].
    destruct (_ || _); [|exact I]. rewrite slice_ok by (cbn [length]; lia). exact I.
  - vr ltac:(idtac). pose proof Hl as Hl'. destruct (N.eq_dec (declared (135 :: s)) 0) as [E|E]; [contradiction|].
    remember (declared (135 :: s)) as d eqn:Ed. clear Ed.
    destruct s as [|x1 [|x2 [|x3 s]]]; cbn [length] in Hl; try lia. unfold at_. cbn [nth_error bind].
    rewrite add16_small by lia. cbn [bind]. rewrite slice_ok by (cbn [length]; lia). cbn [bind]. destruct (_ && _); exact I.
  - vr ltac:(apply blob_returns; assumption).
  - vr ltac:(apply blob_returns; assumption).
  - vr ltac:(apply blob_returns; assumption).
  - fl 3.
  - fx 3.
  - fx 3.
  - (* user location *)
    eapply fine_const; [reflexivity| |reflexivity|lia]. apply fixed_returns. intros Hl. split; [lia|].
    destruct (plmn_returns (152 :: s) 4) as (p & ->); [lia|]. cbn [length] in Hl. do 10 open s Hl. fin.
  - fx 4.
  - eapply fine_const; [reflexivity| |reflexivity|lia]. unfold Imei_unmarshal.
    destruct (Nat.leb_spec 11 (length (154 :: s))) as [Hl|]; [|exact I]. rewrite slice_ok by lia. exact I.
  - (* CAMEL *)
    eapply fine_len; [reflexivity| |reflexivity|].
    + unfold Camel_unmarshal. destruct (Nat.leb_spec 3 (length (155 :: s))) as [Hl|]; [|exact I].
      destruct s as [|x1 [|x2 s]]; cbn [length] in Hl; try lia. unfold at_. cbn [nth_error bind]. cbn zeta. rewrite be16_eq.
      cbn [declared] in H16. rewrite add16_small by lia. cbn [bind].
      destruct (Nat.leb_spec (N.to_nat (256 * x1 + x2 + 3)) (length (155 :: x1 :: x2 :: s))); [|exact I].
      rewrite slice_ok by lia. exact I.
    + intros x Hx. unfold Camel_unmarshal in Hx. destruct (_ <=? _)%nat; [|discriminate].
      apply bind_ok in Hx as (a & Ha & H). apply bind_ok in H as (b & Hb & H). apply bind_ok in H as (n & _ & H).
      destruct (_ <=? _)%nat; [|discriminate]. apply bind_ok in H as (v & _ & [= <-]). cbn [tlv_length].
      destruct s as [|x1 [|x2 s]]; cbn in Ha, Hb; try discriminate. injection Ha as ->. injection Hb as ->. rewrite be16_eq. exact H16.
  - fx 11.
  - fx 3.
  - fl 3.
  - fx 3.
  - fx 3.
  - fx 3.
  - fl 3.
  - (* user CSG information *)
    eapply fine_const; [reflexivity| |reflexivity|lia]. apply fixed_returns. intros Hl. split; [lia|].
    destruct (plmn_returns (194 :: s) 3) as (p & ->); [lia|]. cbn [length] in Hl. do 10 open s Hl. fin.
  - fl 3.
  - fx 10.
  - (* back-off time *)
    specialize (Hbo eq_refl). eapply fine_len; [reflexivity| |reflexivity|intros x Hx; apply fixed_declared in Hx; rewrite Hx; assumption].
    apply fixed_returns. intros _. split; [lia|]. cbn [length] in Hbo. do 3 open s Hbo. unfold at_. cbn [nth_error bind]. exact I.
  - fx 3.
  - fx 6.
  - fx 3.
  - fl 3.
  - fx 4.
  - fx 3.
  - vr ltac:(apply ip_at_returns; assumption).
  - (* private extension *)
    specialize (Hone (or_intror eq_refl)). vr idtac.
    assert (H5 : (5 <= length (255%N :: s))%nat).
    { destruct (N.eq_dec (declared (255 :: s)) 1) as [E|E]; [apply Hone, E|lia]. }
    rewrite slice_from_ok by lia. destruct s as [|x1 [|x2 [|x3 [|x4 s]]]]; cbn [length] in H5; try lia. fin.
Qed.
