(* V1CHdrSafety.v - GTPv1-C header decoding on arbitrary octets. *)
From Verif Require Import BaseFacts V1USpec V1UFacts V1USafety V1USafety2 V1CHdr V1CSpec V1CHdrFacts.
Local Open Scope N_scope.

Lemma num16_inv ty m b i : Num16_unmarshal ty m b = Ok i ->
  exists t l v s, b = t :: l :: v /\ l <> 0 /\ mul8 (E := GTPV1Error) m l 4 = Ok s /\
    (N.to_nat s <= length b)%nat /\ ne_length i = l.
Proof.
  intros H. apply ext_checked_inv in H as (t & l & v & s & E & A & B & C & D).
  apply bind_ok in D as (? & _ & D). apply bind_ok in D as (? & _ & [= <-]). exists t, l, v, s. auto.
Qed.
Lemma blob_inv ty m b i : Blob_unmarshal ty m b = Ok i ->
  exists t l v s, b = t :: l :: v /\ l <> 0 /\ mul8 (E := GTPV1Error) m l 4 = Ok s /\
    (N.to_nat s <= length b)%nat /\ be_length i = l.
Proof.
  intros H. apply ext_checked_inv in H as (t & l & v & s & E & A & B & C & D).
  apply bind_ok in D as (? & _ & [= <-]). exists t, l, v, s. auto.
Qed.

Lemma cext_step_inv m b e : cext_unmarshal m b = Ok e ->
  (exists r, b = 0 :: r /\ e = CX_NoMore) \/
  (exists t l v s, b = t :: l :: v /\ t <> 0 /\ l <> 0 /\ mul8 (E:=GTPV1Error) m l 4 = Ok s /\ (N.to_nat s <= length b)%nat
     /\ e <> CX_NoMore /\ cext_len m e = Ok (N.to_nat s)).
Proof.
  intros H. destruct b as [|t b]; [discriminate H|].
  unfold cext_unmarshal in H. unfold at_ in H at 1. cbn [nth_error bind] in H.
  destruct (N.eqb_spec t NO_MORE_EXTENSION_HEADERS) as [->|Ht]; [left; exists b; injection H as <-; auto|right].
  assert (Ht' : t <> 0) by exact Ht.
  assert (HN : forall ty (f : NumExt -> CExt),
    (forall i, f i <> CX_NoMore /\ cext_len m (f i) = ext_len_of m (ne_length i)) ->
    bind (Num16_unmarshal ty m (t :: b)) (fun i => Ok (f i)) = Ok e ->
    exists t0 l v s, t :: b = t0 :: l :: v /\ t0 <> 0 /\ l <> 0 /\ mul8 (E:=GTPV1Error) m l 4 = Ok s /\
      (N.to_nat s <= length (t :: b))%nat /\ e <> CX_NoMore /\ cext_len m e = Ok (N.to_nat s)).
  { intros ty f Hf Hb. apply bind_ok in Hb as (i & Hi & [= <-]).
    apply num16_inv in Hi as (t' & l & v & s & E & A & B & C & D). exists t', l, v, s.
    injection E as -> ->. destruct (Hf i) as [F1 F2]. rewrite F2. unfold ext_len_of. rewrite D, B. cbn [bind]. auto 10. }
  destruct (t =? C_PDCP_PDU_NUMBER); [apply (HN _ CX_PDCPPDUNumber) in H; eauto; split; [discriminate|reflexivity]|].
  destruct (t =? C_SUSPEND_REQUEST); [apply (HN _ CX_SuspendRequest) in H; eauto; split; [discriminate|reflexivity]|].
  destruct (t =? C_SUSPEND_RESPONSE); [apply (HN _ CX_SuspendResponse) in H; eauto; split; [discriminate|reflexivity]|].
  destruct (t =? C_MBMS_SUPPORT_INDICATION); [apply (HN _ CX_MBMSSupportIndication) in H; eauto; split; [discriminate|reflexivity]|].
  destruct (t =? C_MS_INFO_CHANGE_REPORTING); [apply (HN _ CX_MSInfoChangeReporting) in H; eauto; split; [discriminate|reflexivity]|].
  apply bind_ok in H as (i & Hi & [= <-]). unfold Unknown_unmarshal in Hi. apply bind_ok in Hi as (? & _ & Hi).
  apply blob_inv in Hi as (t' & l & v & s & E & A & B & C & D). exists t', l, v, s. injection E as -> ->.
  cbn [cext_len]. unfold ext_len_of. rewrite D, B. cbn [bind]. split; [reflexivity|]. split; [exact Ht'|].
  split; [exact A|]. split; [reflexivity|]. split; [exact C|]. split; [discriminate|reflexivity].
Qed.

Lemma cext_unmarshal_chain m t l v r :
  t <> 0 -> 1 <= l <= 63 -> nlen v + 2 = 4 * l -> (1 <= length r)%nat ->
  exists e, cext_unmarshal m (t :: l :: v ++ r) = Ok e /\ e <> CX_NoMore
    /\ cext_len m e = Ok (2 + length v)%nat.
Proof.
  intros Ht Hl Hv Hr. unfold nlen in Hv.
  assert (Hlen : ext_len_of m l = Ok (2 + length v)%nat).
  { unfold ext_len_of. rewrite mul8_small by lia. cbn [bind]. f_equal. lia. }
  assert (Hc : forall A (k : N -> N -> res A), ext_checked m (t :: l :: v ++ r) k = k l (l * 4)).
  { intros. apply ext_checked_ok; [lia|rewrite app_length; lia]. }
  assert (Hblob : forall ty, Blob_unmarshal ty m (t :: l :: v ++ r) = Ok (mkBlobExt ty l v)).
  { intros. unfold Blob_unmarshal. rewrite Hc.
    change (t :: l :: v ++ r) with ([t; l] ++ v ++ r).
    rewrite slice_app_mid; [reflexivity|reflexivity|cbn; lia]. }
  assert (Hn : exists a b w, v ++ r = a :: b :: w).
  { destruct v as [|a [|b v]]; cbn in Hv; try lia. cbn. eauto. }
  destruct Hn as (a & b & w & Hn).
  assert (Hnum : forall ty, Num16_unmarshal ty m (t :: l :: v ++ r) = Ok (mkNumExt ty l (be16 a b))).
  { intros. unfold Num16_unmarshal. rewrite Hc, Hn. reflexivity. }
  unfold cext_unmarshal. unfold at_ at 1. cbn [nth_error bind].
  rewrite !Hnum. unfold Unknown_unmarshal, at_; cbn [nth_error bind]. rewrite Hblob. cbn [bind].
  destruct (N.eqb_spec t NO_MORE_EXTENSION_HEADERS) as [E|_]; [exfalso; apply Ht; exact E|].
  repeat match goal with |- context [if ?c then _ else _] => destruct c;
    [eexists; split; [reflexivity|split; [discriminate|exact Hlen]]|] end.
  eexists; split; [reflexivity|split; [discriminate|exact Hlen]].
Qed.

Lemma cext_loop_chain m b : ext_chain b -> forall pre fuel data,
  (length b < fuel)%nat -> exists l n, cext_loop m fuel (pre ++ b) (length pre) data = Ok (data ++ l) /\
    cext_len_sum m l = Ok n /\ (n < length b)%nat.
Proof.
  induction 1 as [r|t l v r Ht Hl Hv Hr IH]; intros pre fuel data Hf;
    (destruct fuel as [|fuel]; [lia|]); cbn [cext_loop];
    rewrite slice_from_ok, skipn_app_exact by (reflexivity || (rewrite app_length; lia)); cbn [bind].
  - exists [], 0%nat. rewrite app_nil_r. split; [reflexivity|]. split; [reflexivity|cbn; lia].
  - destruct (cext_unmarshal_chain m t l v r Ht Hl Hv (chain_nonempty _ Hr)) as (e & E1 & He & E2).
    rewrite E1. cbn [bind].
    assert (HH : exists l0 n, cext_loop m fuel (pre ++ t :: l :: v ++ r) (length pre + (2 + length v)) (data ++ [e])
       = Ok (data ++ l0) /\ cext_len_sum m l0 = Ok n /\ (n < length (t :: l :: v ++ r))%nat).
    { replace (pre ++ t :: l :: v ++ r) with ((pre ++ t :: l :: v) ++ r) by (rewrite <- app_assoc; reflexivity).
      replace (length pre + (2 + length v))%nat with (length (pre ++ t :: l :: v)) by (rewrite app_length; cbn; lia).
      cbn [length] in Hf. rewrite app_length in Hf.
      destruct (IH (pre ++ t :: l :: v) fuel (data ++ [e]) ltac:(lia)) as (l0 & n & -> & En & Hn).
      exists (e :: l0), (2 + length v + n)%nat. rewrite <- app_assoc. split; [reflexivity|].
      cbn [cext_len_sum length]. rewrite E2, En. cbn [bind]. split; [reflexivity|]. rewrite app_length. lia. }
    destruct e; try (exfalso; apply He; reflexivity); rewrite E2; exact HH.
Qed.
Lemma c_unmarshal_ext_chain m b : ext_chain b -> exists l n, c_unmarshal_ext m b = Ok l /\
  cext_len_sum m l = Ok n /\ (n < length b)%nat.
Proof. intros H. exact (cext_loop_chain m b H [] (S (length b)) [] ltac:(lia)). Qed.

Lemma skipn_plus {A} (x : list A) a c : skipn (a + c) x = skipn a (skipn c x).
Proof.
  revert a c. induction x as [|h x IHx]; intros a c; [rewrite !skipn_nil; reflexivity|].
  destruct c; [rewrite Nat.add_0_r; reflexivity|]. replace (a + S c)%nat with (S (a + c)) by lia. cbn [skipn]. apply IHx.
Qed.

Lemma cext_loop_debug_inv fuel : forall b cursor data l, (cursor <= length b)%nat ->
  cext_loop Debug fuel b cursor data = Ok l -> ext_chain (skipn cursor b).
Proof.
  induction fuel as [|fuel IH]; intros b cursor data l Hc H; [discriminate|].
  cbn [cext_loop] in H. rewrite slice_from_ok in H by assumption. cbn [bind] in H.
  apply bind_ok in H as (e & He & H).
  destruct (cext_step_inv _ _ _ He) as [(r & E & ->)|(t & le & v & s & E & A & B & C & D & F & G)].
  - rewrite E. constructor.
  - apply mul8_debug in C as [-> C].
    assert (H' : cext_loop Debug fuel b (cursor + N.to_nat (le * 4)) (data ++ [e]) = Ok l)
      by (destruct e; try (rewrite G in H; exact H); exfalso; apply F; reflexivity).
    assert (Hc' : (cursor + N.to_nat (le * 4) <= length b)%nat) by (pose proof (skipn_length cursor b); lia).
    apply IH in H'; [|exact Hc'].
    rewrite Nat.add_comm, skipn_plus, E in H'. rewrite E in D |- *. cbn [length] in D.
    replace (N.to_nat (le * 4)) with (S (S (N.to_nat (le * 4) - 2))) in H' by lia.
    cbn [skipn] in H'.
    replace v with (firstn (N.to_nat (le * 4) - 2) v ++ skipn (N.to_nat (le * 4) - 2) v) by apply firstn_skipn.
    constructor; auto; [lia|]. unfold nlen. rewrite firstn_length. lia.
Qed.
Lemma c_unmarshal_ext_debug_iff b : (exists l, c_unmarshal_ext Debug b = Ok l) <-> ext_chain b.
Proof.
  split; [intros (l & H)|intros H; destruct (c_unmarshal_ext_chain Debug b H) as (l & _ & E & _); eauto].
  apply (cext_loop_debug_inv (S (length b)) b 0 [] l); [lia|exact H].
Qed.

Lemma cext_never_diverges m b : cext_unmarshal m b <> Diverge.
Proof.
  unfold cext_unmarshal, at_. destruct (nth_error _ 0); [|discriminate]. cbn [bind].
  repeat match goal with |- context[if ?c then _ else _] => destruct c; try discriminate end;
  unfold Num16_unmarshal, Unknown_unmarshal, Blob_unmarshal, ext_checked, at_, slice, mul8, ov;
  repeat (match goal with
    | |- context[match ?c with _ => _ end] => destruct c; cbn [bind]; try discriminate
    end).
Qed.

Lemma cext_loop_debug_terminates fuel : forall b cursor data,
  (cursor <= length b)%nat -> (length b - cursor < fuel)%nat -> cext_loop Debug fuel b cursor data <> Diverge.
Proof.
  induction fuel as [|fuel IH]; intros b cursor data Hc Hf; [lia|].
  cbn [cext_loop]. rewrite slice_from_ok by assumption. cbn [bind].
  destruct (cext_unmarshal Debug (skipn cursor b)) as [e| | |] eqn:He; cbn [bind]; try discriminate.
  - destruct (cext_step_inv _ _ _ He) as [(r & E & ->)|(t & le & v & s & E & A & B & C & D & F & G)]; [discriminate|].
    apply mul8_debug in C as [-> C]. assert (H' : cext_loop Debug fuel b (cursor + N.to_nat (le * 4)) (data ++ [e]) <> Diverge).
    { pose proof (skipn_length cursor b). apply IH; lia. }
    destruct e; try (rewrite G; exact H'). exfalso; apply F; reflexivity.
  - intros _. exact (cext_never_diverges _ _ He).
Qed.

(* ------------------------------------------------------------------------- *)
(* The header. *)

(* what decoding an accepted packet reads *)
Definition e_flag (b0 : N) : bool := N.testbit b0 2.

Lemma bit_eq x i : (N.land (N.shiftr x i) 1 =? 1) = N.testbit x i.
Proof.
  change 1 with (N.ones 1) at 1. rewrite N.land_ones. change (2 ^ 1) with 2. rewrite <- N.bit0_mod, N.shiftr_spec by lia.
  rewrite N.add_0_l. destruct (N.testbit x i); reflexivity.
Qed.
Lemma bit0_eq x : (N.land x 1 =? 1) = N.testbit x 0.
Proof. rewrite <- bit_eq, N.shiftr_0_r. reflexivity. Qed.
Lemma low3_eq x : (N.land x 7 =? 0) = negb (N.testbit x 2 || N.testbit x 1 || N.testbit x 0).
Proof.
  destruct (N.eqb_spec (N.land x 7) 0) as [E|E].
  - assert (H : forall i, i < 3 -> N.testbit x i = false).
    { intros i Hi. assert (Ha : N.testbit (N.land x 7) i = false) by (rewrite E; apply N.bits_0).
      rewrite N.land_spec in Ha. apply andb_false_iff in Ha as [Ha|Ha]; [exact Ha|].
      assert (i = 0 \/ i = 1 \/ i = 2) as [->|[->| ->]] by lia; discriminate Ha. }
    rewrite !H by lia. reflexivity.
  - destruct (N.testbit x 2) eqn:E2; [reflexivity|]. destruct (N.testbit x 1) eqn:E1; [reflexivity|].
    destruct (N.testbit x 0) eqn:E0; [reflexivity|]. exfalso. apply E. apply N.bits_inj_0. intros i. rewrite N.land_spec.
    assert (i = 0 \/ i = 1 \/ i = 2 \/ 3 <= i) as [->|[->|[->|Hi]]] by lia; rewrite ?E0, ?E1, ?E2; try reflexivity.
    replace (N.testbit 7 i) with false; [apply andb_false_r|]. symmetry. apply N.bits_above_log2. cbn. lia.
Qed.

(* The three optional parts, named. *)
Definition read_sqn (b : list N) (f : bool) : res (option N) :=
  if f then
    let? r := slice_from b 8 in
    if (length r <? 2)%nat then Err HeaderInvalidLength
    else let? s1 := at_ b 8 in let? s2 := at_ b 9 in Ok (Some (be16 s1 s2))
  else Ok None.
Definition read_npdu (b : list N) (f : bool) : res (option N) :=
  if f then
    let? r := slice_from b 8 in
    if (length r <? 3)%nat then Err HeaderInvalidLength
    else let? n := at_ b 10 in Ok (Some n)
  else Ok None.
Definition read_ext (m : mode) (b : list N) (f : bool) : res (option (list CExt)) :=
  if f then
    let? r := slice_from b 8 in
    if (length r <? 4)%nat then Err HeaderInvalidLength
    else let? r := slice_from b 11 in let? l := c_unmarshal_ext m r in Ok (Some l)
  else Ok None.

Lemma chdr_unmarshal_eq m b0 mt l1 l2 t1 t2 t3 t4 r :
  let b := b0 :: mt :: l1 :: l2 :: t1 :: t2 :: t3 :: t4 :: r in
  chdr_unmarshal m b =
    if (N.shiftr b0 5 =? 1) && N.testbit b0 4 then
      let? s := read_sqn b (N.testbit b0 1) in
      let? n := read_npdu b (N.testbit b0 0) in
      let? e := read_ext m b (N.testbit b0 2) in
      Ok (mkCHdr mt (be16 l1 l2) (be32 t1 t2 t3 t4) s n e)
    else Err HeaderVersionNotSupported.
Proof.
  cbn zeta. unfold chdr_unmarshal. set (b := _ :: _).
  change (length b <? 8)%nat with false. cbv iota.
  change (@at_ GTPV1Error b 0) with (@Ok GTPV1Error _ b0). cbn [bind].
  rewrite bit_eq. destruct ((N.shiftr b0 5 =? 1) && N.testbit b0 4); [|reflexivity].
  change (@at_ GTPV1Error b 1) with (@Ok GTPV1Error _ mt). change (@at_ GTPV1Error b 2) with (@Ok GTPV1Error _ l1).
  change (@at_ GTPV1Error b 3) with (@Ok GTPV1Error _ l2). change (@at_ GTPV1Error b 4) with (@Ok GTPV1Error _ t1).
  change (@at_ GTPV1Error b 5) with (@Ok GTPV1Error _ t2). change (@at_ GTPV1Error b 6) with (@Ok GTPV1Error _ t3).
  change (@at_ GTPV1Error b 7) with (@Ok GTPV1Error _ t4). cbn [bind].
  rewrite low3_eq, (bit0_eq b0), !bit_eq. fold (read_sqn b (N.testbit b0 1)) (read_npdu b (N.testbit b0 0)) (read_ext m b (N.testbit b0 2)).
  destruct (N.testbit b0 2), (N.testbit b0 1), (N.testbit b0 0); reflexivity.
Qed.

Lemma read_sqn_inv b f s : read_sqn b f = Ok s -> (8 <= length b)%nat ->
  if f then exists s1 s2, nth_error b 8 = Some s1 /\ nth_error b 9 = Some s2 /\ s = Some (be16 s1 s2) else s = None.
Proof.
  destruct f; cbn [read_sqn]; [|intros H _; injection H as <-; reflexivity]. intros H Hl. rewrite slice_from_ok in H by exact Hl. cbn [bind] in H.
  destruct (_ <? _)%nat; [discriminate|]. unfold at_ in H. destruct (nth_error b 8) as [s1|]; [|discriminate].
  destruct (nth_error b 9) as [s2|]; [|discriminate]. cbn [bind] in H. injection H as <-. eauto.
Qed.
Lemma read_npdu_inv b f s : read_npdu b f = Ok s -> (8 <= length b)%nat ->
  if f then exists n, nth_error b 10 = Some n /\ s = Some n else s = None.
Proof.
  destruct f; cbn [read_npdu]; [|intros H _; injection H as <-; reflexivity]. intros H Hl. rewrite slice_from_ok in H by exact Hl. cbn [bind] in H.
  destruct (_ <? _)%nat; [discriminate|]. unfold at_ in H. destruct (nth_error b 10) as [s1|]; [|discriminate].
  cbn [bind] in H. injection H as <-. eauto.
Qed.
Lemma read_ext_inv m b f s : read_ext m b f = Ok s -> (8 <= length b)%nat ->
  if f then exists l, (12 <= length b)%nat /\ c_unmarshal_ext m (skipn 11 b) = Ok l /\ s = Some l else s = None.
Proof.
  destruct f; cbn [read_ext]; [|intros H _; injection H as <-; reflexivity]. intros H Hl. rewrite slice_from_ok in H by exact Hl. cbn [bind] in H.
  rewrite skipn_length in H. destruct (Nat.ltb_spec (length b - 8) 4); [discriminate|]. rewrite slice_from_ok in H by lia. cbn [bind] in H.
  apply bind_ok in H as (l & Hx & [= <-]). exists l. split; [lia|auto].
Qed.

(* An accepted header: the octets it was read from. *)
Lemma chdr_inv m b h : chdr_unmarshal m b = Ok h ->
  exists b0 l1 l2 t1 t2 t3 t4 r, b = b0 :: c_msgtype h :: l1 :: l2 :: t1 :: t2 :: t3 :: t4 :: r /\
    N.shiftr b0 5 = 1 /\ N.testbit b0 4 = true /\
    c_length h = be16 l1 l2 /\ c_teid h = be32 t1 t2 t3 t4 /\
    (if N.testbit b0 1 then exists s1 s2, nth_error b 8 = Some s1 /\ nth_error b 9 = Some s2 /\ c_sqn h = Some (be16 s1 s2)
     else c_sqn h = None) /\
    (if N.testbit b0 0 then exists n, nth_error b 10 = Some n /\ c_npdu h = Some n else c_npdu h = None) /\
    (if N.testbit b0 2 then exists l, (12 <= length b)%nat /\ c_unmarshal_ext m (skipn 11 b) = Ok l /\ c_ext h = Some l
     else c_ext h = None).
Proof.
  intros H. assert (Hl : (8 <= length b)%nat).
  { unfold chdr_unmarshal in H. destruct (Nat.ltb_spec (length b) 8) as [|Hl]; [discriminate|exact Hl]. }
  destruct b as [|b0 [|mt [|l1 [|l2 [|t1 [|t2 [|t3 [|t4 r]]]]]]]]; cbn [length] in Hl; try lia.
  rewrite chdr_unmarshal_eq in H. destruct (N.eqb_spec (N.shiftr b0 5) 1) as [E5|]; [|discriminate].
  destruct (N.testbit b0 4) eqn:E4; [|discriminate]. cbn [andb] in H.
  apply bind_ok in H as (s & Hs & H). apply bind_ok in H as (n & Hn & H). apply bind_ok in H as (e & He & H). injection H as <-.
  apply read_sqn_inv in Hs; [|cbn; lia]. apply read_npdu_inv in Hn; [|cbn; lia]. apply read_ext_inv in He; [|cbn; lia].
  exists b0, l1, l2, t1, t2, t3, t4, r. cbn [c_msgtype c_length c_teid c_sqn c_npdu c_ext]. auto 10.
Qed.

(* The packets whose header decoding returns: everything but a malformed extension chain. *)
Lemma chdr_returns m b :
  (forall b0, nth_error b 0 = Some b0 -> N.testbit b0 2 = true -> (12 <= length b)%nat -> ext_chain (skipn 11 b)) ->
  returns (chdr_unmarshal m b).
Proof.
  intros Hc. destruct (Nat.ltb_spec (length b) 8) as [Hl|Hl].
  { unfold chdr_unmarshal. destruct (Nat.ltb_spec (length b) 8); [exact I|lia]. }
  destruct b as [|b0 [|mt [|l1 [|l2 [|t1 [|t2 [|t3 [|t4 r]]]]]]]]; cbn [length] in Hl; try lia.
  rewrite chdr_unmarshal_eq. destruct (_ && _); [|exact I]. set (b := b0 :: _) in *.
  assert (Hb : (8 <= length b)%nat) by (cbn; lia). assert (Hb0 : nth_error b 0 = Some b0) by reflexivity. clearbody b. clear Hl.
  unfold read_sqn, read_npdu, read_ext. rewrite slice_from_ok by exact Hb. cbn [bind]. rewrite skipn_length.
  unfold at_.
  destruct (N.testbit b0 1).
  1: destruct (Nat.ltb_spec (length b - 8) 2); [exact I|].
  1: destruct (nth_error b 8) eqn:E8; [|apply nth_error_None in E8; lia].
  1: destruct (nth_error b 9) eqn:E9; [|apply nth_error_None in E9; lia].
  all: cbn [bind].
  all: destruct (N.testbit b0 0); [destruct (Nat.ltb_spec (length b - 8) 3); [exact I|];
         destruct (nth_error b 10) eqn:E10; [|apply nth_error_None in E10; lia]|]; cbn [bind].
  all: destruct (N.testbit b0 2) eqn:F2; [destruct (Nat.ltb_spec (length b - 8) 4); [exact I|]|exact I].
  all: rewrite slice_from_ok by lia; cbn [bind].
  all: destruct (c_unmarshal_ext_chain m (skipn 11 b)) as (l & n' & -> & _); [|exact I].
  all: apply (Hc b0 Hb0 F2); lia.
Qed.

(* With a well-formed chain the size of a decoded header is known and not much beyond the
   packet: the 12 octets of an optional part are assumed even when fewer are there. *)
Lemma chdr_len_decoded m b h : chdr_unmarshal m b = Ok h ->
  (forall b0, nth_error b 0 = Some b0 -> N.testbit b0 2 = true -> (12 <= length b)%nat -> ext_chain (skipn 11 b)) ->
  exists n, chdr_len m h = Ok n /\ (8 <= n)%nat /\ (n <= length b \/ n = 12)%nat.
Proof.
  intros H Hc. apply chdr_inv in H as (b0 & l1 & l2 & t1 & t2 & t3 & t4 & r & Eb & _ & _ & _ & _ & Hs & Hn & He).
  unfold chdr_len. destruct (N.testbit b0 2) eqn:F2.
  - destruct He as (l & Hl & Hx & ->). destruct (c_unmarshal_ext_chain m (skipn 11 b)) as (l' & n & E & En & Hlt).
    { apply (Hc b0); [rewrite Eb; reflexivity|exact F2|exact Hl]. }
    rewrite Hx in E. injection E as <-. rewrite En. cbn [bind]. rewrite skipn_length in Hlt. eexists. split; [reflexivity|lia].
  - rewrite He. destruct (is_some (c_sqn h) || is_some (c_npdu h)); eexists; (split; [reflexivity|]); [lia|].
    rewrite Eb. cbn [length]. lia.
Qed.

Lemma c_length_u16 m b h : bytes b -> chdr_unmarshal m b = Ok h -> c_length h < 65536.
Proof.
  intros Hb H. apply chdr_inv in H as (b0 & l1 & l2 & t1 & t2 & t3 & t4 & r & Eb & _ & _ & El & _).
  rewrite El. subst b. repeat (apply bytes_cons in Hb as [? Hb]). apply be16_bound; assumption.
Qed.

Lemma cext_len_never_diverges m e : cext_len m e <> Diverge.
Proof. destruct e; cbn [cext_len]; unfold ext_len_of, mul8, ov; repeat (destruct (_ <? _); cbn [bind]); try destruct m; discriminate. Qed.
Lemma cext_len_sum_never_diverges m l : cext_len_sum m l <> Diverge.
Proof.
  induction l as [|e l IH]; cbn [cext_len_sum]; [discriminate|]. pose proof (cext_len_never_diverges m e).
  destruct (cext_len m e); cbn [bind]; try discriminate; [|congruence]. destruct (cext_len_sum m l); cbn [bind]; congruence.
Qed.
Lemma chdr_len_never_diverges m h : chdr_len m h <> Diverge.
Proof.
  unfold chdr_len. destruct (c_ext h) as [l|].
  - pose proof (cext_len_sum_never_diverges m l). destruct (cext_len_sum m l); cbn [bind]; congruence.
  - destruct (_ || _); discriminate.
Qed.
Lemma chdr_debug_terminates b : chdr_unmarshal Debug b <> Diverge.
Proof.
  destruct (Nat.ltb_spec (length b) 8) as [Hl|Hl].
  { unfold chdr_unmarshal. destruct (Nat.ltb_spec (length b) 8); [discriminate|lia]. }
  destruct b as [|b0 [|mt [|l1 [|l2 [|t1 [|t2 [|t3 [|t4 r]]]]]]]]; cbn [length] in Hl; try lia.
  rewrite chdr_unmarshal_eq. destruct (_ && _); [|discriminate]. set (b := b0 :: _).
  assert (A1 : read_sqn b (N.testbit b0 1) <> Diverge).
  { unfold read_sqn, slice_from, at_. destruct (N.testbit b0 1); [|discriminate]. destruct (_ <=? _)%nat; [|discriminate].
    cbn [bind]. destruct (_ <? _)%nat; [discriminate|]. destruct (nth_error b 8); [|discriminate]. destruct (nth_error b 9); discriminate. }
  assert (A2 : read_npdu b (N.testbit b0 0) <> Diverge).
  { unfold read_npdu, slice_from, at_. destruct (N.testbit b0 0); [|discriminate]. destruct (_ <=? _)%nat; [|discriminate].
    cbn [bind]. destruct (_ <? _)%nat; [discriminate|]. destruct (nth_error b 10); discriminate. }
  assert (A3 : read_ext Debug b (N.testbit b0 2) <> Diverge).
  { unfold read_ext, slice_from. destruct (N.testbit b0 2); [|discriminate]. destruct (_ <=? _)%nat; [|discriminate].
    cbn [bind]. destruct (_ <? _)%nat; [discriminate|]. destruct (_ <=? _)%nat; [|discriminate]. cbn [bind].
    pose proof (cext_loop_debug_terminates (S (length (skipn 11 b))) (skipn 11 b) 0 []) as T.
    fold (c_unmarshal_ext Debug (skipn 11 b)) in T.
    destruct (c_unmarshal_ext Debug (skipn 11 b)); cbn [bind]; try discriminate. exfalso. apply T; [lia|lia|reflexivity]. }
  destruct (read_sqn _ _); cbn [bind]; try congruence. destruct (read_npdu _ _); cbn [bind]; try congruence.
  destruct (read_ext _ _ _); cbn [bind]; congruence.
Qed.
