(* V1USafety.v - behaviour of GTP-U decoding on arbitrary octets. *)
From Verif Require Import BaseFacts V1U V1USpec V1UFacts.
Local Open Scope N_scope.

Lemma ext_unmarshal_chain m t l v r :
  t <> 0 -> 1 <= l <= 63 -> nlen v + 2 = 4 * l -> (1 <= length r)%nat ->
  exists e, ext_unmarshal m (t :: l :: v ++ r) = Ok e /\ e <> NoMoreExtensionHeaders
    /\ ext_len m e = Ok (2 + length v)%nat.
Proof.
  intros Ht Hl Hv Hr. unfold nlen in Hv.
  assert (Hlen : ext_len_of m l = Ok (2 + length v)%nat).
  { unfold ext_len_of. rewrite mul8_small by lia. cbn [bind]. f_equal. lia. }
  assert (Hc : forall A (k : N -> N -> res A), ext_checked m (t :: l :: v ++ r) k = k l (l * 4)).
  { intros. apply ext_checked_ok; [lia|rewrite app_length; lia]. }
  assert (Hblob : forall ty, Blob_unmarshal ty m (t :: l :: v ++ r) = Ok (mkBlobExt ty l v)).
  { intros. unfold Blob_unmarshal. rewrite Hc.
    change (t :: l :: v ++ r) with ([t; l] ++ v ++ r).
    rewrite slice_app_mid; [reflexivity|reflexivity|cbn; lia]. }
  assert (Hn : exists a b c w, v ++ r = a :: b :: c :: w).
  { destruct v as [|a [|b v]]; cbn in Hv; try lia. cbn.
    destruct v as [|c v]; cbn; [destruct r as [|c r]; [cbn in Hr; lia|]|]; eauto. }
  destruct Hn as (a & b & c & w & Hn).
  assert (Hnum : forall ty, Num16_unmarshal ty m (t :: l :: v ++ r) = Ok (mkNumExt ty l (be16 a b))).
  { intros. unfold Num16_unmarshal. rewrite Hc, Hn. reflexivity. }
  assert (Hsci : Sci_unmarshal m (t :: l :: v ++ r) = Ok (mkNumExt SCI l a)).
  { unfold Sci_unmarshal. rewrite Hc, Hn. reflexivity. }
  assert (Hlong : t = 3 \/ t = 130 -> Long_unmarshal m (t :: l :: v ++ r) = Ok (mkNumExt t l (be32 0 a b c))).
  { intros Hor. unfold Long_unmarshal. unfold at_ at 1. cbn [nth_error bind].
    replace ((t =? LONG_PDCP_PDU_NUMBER_I) || (t =? LONG_PDCP_PDU_NUMBER_II)) with true
      by (destruct Hor as [-> | ->]; reflexivity).
    rewrite Hc, Hn. reflexivity. }
  unfold ext_unmarshal. unfold at_ at 1. cbn [nth_error bind].
  rewrite !Hnum, Hsci, !Hblob. unfold Unknown_unmarshal, at_; cbn [nth_error bind]. rewrite Hblob. cbn [bind].
  destruct (N.eqb_spec t NO_MORE_EXTENSION_HEADERS) as [E|_]; [exfalso; apply Ht; exact E|].
  destruct (N.eqb_spec t PDCP_PDU_NUMBER); [eexists; split; [reflexivity|split; [discriminate|exact Hlen]]|].
  destruct (N.eqb_spec t UDP_PORT); [eexists; split; [reflexivity|split; [discriminate|exact Hlen]]|].
  destruct (N.eqb_spec t LONG_PDCP_PDU_NUMBER_I) as [E|_].
  { rewrite Hlong by (left; exact E). eexists; split; [reflexivity|split; [discriminate|exact Hlen]]. }
  destruct (N.eqb_spec t LONG_PDCP_PDU_NUMBER_II) as [E|_].
  { rewrite Hlong by (right; exact E). eexists; split; [reflexivity|split; [discriminate|exact Hlen]]. }
  destruct (N.eqb_spec t SCI); [eexists; split; [reflexivity|split; [discriminate|exact Hlen]]|].
  destruct (N.eqb_spec t RAN_CONTAINER); [eexists; split; [reflexivity|split; [discriminate|exact Hlen]]|].
  destruct (N.eqb_spec t XW_RAN_CONTAINER); [eexists; split; [reflexivity|split; [discriminate|exact Hlen]]|].
  destruct (N.eqb_spec t NR_RAN_CONTAINER); [eexists; split; [reflexivity|split; [discriminate|exact Hlen]]|].
  destruct (N.eqb_spec t PDU_SESSION_CONTAINER); eexists; (split; [reflexivity|split; [discriminate|exact Hlen]]).
Qed.

Lemma chain_nonempty b : ext_chain b -> (1 <= length b)%nat.
Proof. destruct 1; cbn; lia. Qed.

Lemma ext_loop_chain m b : ext_chain b -> forall pre fuel data,
  (length b < fuel)%nat -> exists l, ext_loop m fuel (pre ++ b) (length pre) data = Ok (data ++ l).
Proof.
  induction 1 as [r|t l v r Ht Hl Hv Hr IH]; intros pre fuel data Hf;
    (destruct fuel as [|fuel]; [lia|]); cbn [ext_loop];
    rewrite slice_from_ok, skipn_app_exact by (reflexivity || (rewrite app_length; lia)); cbn [bind].
  - exists []. rewrite app_nil_r. reflexivity.
  - destruct (ext_unmarshal_chain m t l v r Ht Hl Hv (chain_nonempty _ Hr)) as (e & E1 & He & E2).
    rewrite E1. cbn [bind].
    assert (HH : exists l0, ext_loop m fuel (pre ++ t :: l :: v ++ r) (length pre + (2 + length v)) (data ++ [e])
       = Ok (data ++ l0)).
    { replace (pre ++ t :: l :: v ++ r) with ((pre ++ t :: l :: v) ++ r) by (rewrite <- app_assoc; reflexivity).
      replace (length pre + (2 + length v))%nat with (length (pre ++ t :: l :: v)) by (rewrite app_length; cbn; lia).
      cbn [length] in Hf. rewrite app_length in Hf.
      destruct (IH (pre ++ t :: l :: v) fuel (data ++ [e]) ltac:(lia)) as (l0 & ->).
      exists (e :: l0). rewrite <- app_assoc. reflexivity. }
    destruct e; try (exfalso; apply He; reflexivity); rewrite E2; exact HH.
Qed.

Lemma unmarshal_ext_chain m b : ext_chain b -> exists l, unmarshal_ext_hdr m b = Ok l.
Proof. intros H. destruct (ext_loop_chain m b H [] (S (length b)) [] ltac:(lia)) as (l & E). exists l. exact E. Qed.

(* What a successful step says about the octets. *)
Lemma ext_checked_inv {A} m b (k : N -> N -> res A) x : ext_checked m b k = Ok x ->
  exists t l v s, b = t :: l :: v /\ l <> 0 /\ mul8 (E:=GTPV1Error) m l 4 = Ok s /\ (N.to_nat s <= length b)%nat /\ k l s = Ok x.
Proof.
  unfold ext_checked, at_. destruct b as [|t [|l v]]; try discriminate. cbn [nth_error bind].
  destruct (N.eqb_spec l 0); [discriminate|]. destruct (mul8 m l 4) as [s| | |] eqn:E; cbn [bind]; try discriminate.
  destruct (Nat.leb_spec (N.to_nat s) (length (t :: l :: v))); [|discriminate].
  intros. exists t, l, v, s. auto.
Qed.

Lemma ext_step_inv m b e : ext_unmarshal m b = Ok e ->
  (exists r, b = 0 :: r /\ e = NoMoreExtensionHeaders) \/
  (exists t l v s, b = t :: l :: v /\ t <> 0 /\ l <> 0 /\ mul8 (E:=GTPV1Error) m l 4 = Ok s /\ (N.to_nat s <= length b)%nat
     /\ e <> NoMoreExtensionHeaders /\ ext_len m e = Ok (N.to_nat s)).
Proof.
  intros H. destruct b as [|t b]; [discriminate H|].
  unfold ext_unmarshal in H. unfold at_ in H at 1. cbn [nth_error bind] in H.
  destruct (N.eqb_spec t NO_MORE_EXTENSION_HEADERS) as [->|Ht].
  { left. exists b. injection H as <-. auto. }
  assert (Ht' : t <> 0) by exact Ht. right.
  assert (HN : forall (f : NumExt -> ExtensionHeader) (r : res NumExt),
    (forall i, f i <> NoMoreExtensionHeaders /\ ext_len m (f i) = ext_len_of m (ne_length i)) ->
    (forall i, r = Ok i -> exists t' l v s, t :: b = t' :: l :: v /\ l <> 0 /\ mul8 (E:=GTPV1Error) m l 4 = Ok s /\
        (N.to_nat s <= length (t :: b))%nat /\ ne_length i = l) ->
    bind r (fun i => Ok (f i)) = Ok e ->
    exists t0 l v s, t :: b = t0 :: l :: v /\ t0 <> 0 /\ l <> 0 /\ mul8 (E:=GTPV1Error) m l 4 = Ok s /\
      (N.to_nat s <= length (t :: b))%nat /\ e <> NoMoreExtensionHeaders /\ ext_len m e = Ok (N.to_nat s)).
  { intros f r Hf Hr Hb. apply bind_ok in Hb as (i & Hi & [= <-]).
    destruct (Hr i Hi) as (t' & l & v & s & E & A & B & C & D). exists t', l, v, s.
    injection E as -> ->. destruct (Hf i) as [F1 F2]. rewrite F2. unfold ext_len_of. rewrite D, B. cbn [bind]. auto 10. }
  assert (HB : forall (f : BlobExt -> ExtensionHeader) (r : res BlobExt),
    (forall i, f i <> NoMoreExtensionHeaders /\ ext_len m (f i) = ext_len_of m (be_length i)) ->
    (forall i, r = Ok i -> exists t' l v s, t :: b = t' :: l :: v /\ l <> 0 /\ mul8 (E:=GTPV1Error) m l 4 = Ok s /\
        (N.to_nat s <= length (t :: b))%nat /\ be_length i = l) ->
    bind r (fun i => Ok (f i)) = Ok e ->
    exists t0 l v s, t :: b = t0 :: l :: v /\ t0 <> 0 /\ l <> 0 /\ mul8 (E:=GTPV1Error) m l 4 = Ok s /\
      (N.to_nat s <= length (t :: b))%nat /\ e <> NoMoreExtensionHeaders /\ ext_len m e = Ok (N.to_nat s)).
  { intros f r Hf Hr Hb. apply bind_ok in Hb as (i & Hi & [= <-]).
    destruct (Hr i Hi) as (t' & l & v & s & E & A & B & C & D). exists t', l, v, s.
    injection E as -> ->. destruct (Hf i) as [F1 F2]. rewrite F2. unfold ext_len_of. rewrite D, B. cbn [bind]. auto 10. }
  assert (Hnum : forall ty i, Num16_unmarshal ty m (t :: b) = Ok i ->
    exists t' l v s, t :: b = t' :: l :: v /\ l <> 0 /\ mul8 (E:=GTPV1Error) m l 4 = Ok s /\
        (N.to_nat s <= length (t :: b))%nat /\ ne_length i = l).
  { intros ty i Hi. apply ext_checked_inv in Hi as (t' & l & v & s & E & A & B & C & D).
    apply bind_ok in D as (? & _ & D). apply bind_ok in D as (? & _ & [= <-]). exists t', l, v, s. auto. }
  assert (Hblob : forall ty i, Blob_unmarshal ty m (t :: b) = Ok i ->
    exists t' l v s, t :: b = t' :: l :: v /\ l <> 0 /\ mul8 (E:=GTPV1Error) m l 4 = Ok s /\
        (N.to_nat s <= length (t :: b))%nat /\ be_length i = l).
  { intros ty i Hi. apply ext_checked_inv in Hi as (t' & l & v & s & E & A & B & C & D).
    apply bind_ok in D as (? & _ & [= <-]). exists t', l, v, s. auto. }
  assert (Hsci : forall i, Sci_unmarshal m (t :: b) = Ok i ->
    exists t' l v s, t :: b = t' :: l :: v /\ l <> 0 /\ mul8 (E:=GTPV1Error) m l 4 = Ok s /\
        (N.to_nat s <= length (t :: b))%nat /\ ne_length i = l).
  { intros i Hi. apply ext_checked_inv in Hi as (t' & l & v & s & E & A & B & C & D).
    apply bind_ok in D as (? & _ & [= <-]). exists t', l, v, s. auto. }
  assert (Hlong : forall i, Long_unmarshal m (t :: b) = Ok i ->
    exists t' l v s, t :: b = t' :: l :: v /\ l <> 0 /\ mul8 (E:=GTPV1Error) m l 4 = Ok s /\
        (N.to_nat s <= length (t :: b))%nat /\ ne_length i = l).
  { intros i Hi. unfold Long_unmarshal in Hi. apply bind_ok in Hi as (? & _ & Hi).
    destruct (_ || _); [|discriminate]. apply ext_checked_inv in Hi as (t' & l & v & s & E & A & B & C & D).
    apply bind_ok in D as (? & _ & D). apply bind_ok in D as (? & _ & D). apply bind_ok in D as (? & _ & [= <-]).
    exists t', l, v, s. auto. }
  assert (Hunk : forall i, Unknown_unmarshal m (t :: b) = Ok i ->
    exists t' l v s, t :: b = t' :: l :: v /\ l <> 0 /\ mul8 (E:=GTPV1Error) m l 4 = Ok s /\
        (N.to_nat s <= length (t :: b))%nat /\ be_length i = l).
  { intros i Hi. unfold Unknown_unmarshal in Hi. apply bind_ok in Hi as (? & _ & Hi). eauto. }
  destruct (t =? PDCP_PDU_NUMBER); [apply (HN EH_PDCPPDUNumber) in H; eauto; split; [discriminate|reflexivity]|].
  destruct (t =? UDP_PORT); [apply (HN EH_UDPPort) in H; eauto; split; [discriminate|reflexivity]|].
  destruct (t =? LONG_PDCP_PDU_NUMBER_I); [apply (HN EH_LongPDCPPDUNumber) in H; eauto; split; [discriminate|reflexivity]|].
  destruct (t =? LONG_PDCP_PDU_NUMBER_II); [apply (HN EH_LongPDCPPDUNumber) in H; eauto; split; [discriminate|reflexivity]|].
  destruct (t =? SCI); [apply (HN EH_Sci) in H; eauto; split; [discriminate|reflexivity]|].
  destruct (t =? RAN_CONTAINER); [apply (HB EH_RanContainer) in H; eauto; split; [discriminate|reflexivity]|].
  destruct (t =? XW_RAN_CONTAINER); [apply (HB EH_XwRanContainer) in H; eauto; split; [discriminate|reflexivity]|].
  destruct (t =? NR_RAN_CONTAINER); [apply (HB EH_NrRanContainer) in H; eauto; split; [discriminate|reflexivity]|].
  destruct (t =? PDU_SESSION_CONTAINER); [apply (HB EH_PduSessionContainer) in H; eauto; split; [discriminate|reflexivity]|].
  apply (HB EH_Unknown) in H; eauto; split; [discriminate|reflexivity].
Qed.

Lemma mul8_debug l s : mul8 (E := GTPV1Error) Debug l 4 = Ok s -> s = l * 4 /\ l * 4 < 256.
Proof. unfold mul8, ov. destruct (N.ltb_spec (l * 4) 256); [|discriminate]. intros [= <-]. auto. Qed.

(* Debug: a successful walk means the octets were a chain. *)
Lemma ext_loop_debug_inv fuel : forall b cursor data l, (cursor <= length b)%nat ->
  ext_loop Debug fuel b cursor data = Ok l -> ext_chain (skipn cursor b).
Proof.
  induction fuel as [|fuel IH]; intros b cursor data l Hc H; [discriminate|].
  cbn [ext_loop] in H. rewrite slice_from_ok in H by assumption. cbn [bind] in H.
  apply bind_ok in H as (e & He & H).
  destruct (ext_step_inv _ _ _ He) as [(r & E & ->)|(t & le & v & s & E & A & B & C & D & F & G)].
  - rewrite E. constructor.
  - apply mul8_debug in C as [-> C].     assert (H' : ext_loop Debug fuel b (cursor + N.to_nat (le * 4)) (data ++ [e]) = Ok l)
      by (destruct e; try (rewrite G in H; exact H); exfalso; apply F; reflexivity).
    assert (Hc' : (cursor + N.to_nat (le * 4) <= length b)%nat).
    { pose proof (skipn_length cursor b). lia. }
    apply IH in H'; [|exact Hc'].
    replace (cursor + N.to_nat (le * 4))%nat with (N.to_nat (le * 4) + cursor)%nat in H' by lia.
    assert (Hsk : forall (x : list N) a c, skipn (a + c) x = skipn a (skipn c x)).
    { clear. induction x as [|h x IHx]; intros a c; [rewrite !skipn_nil; reflexivity|].
      destruct c; [rewrite Nat.add_0_r; reflexivity|]. replace (a + S c)%nat with (S (a + c)) by lia. cbn [skipn]. apply IHx. }
    rewrite Hsk, E in H'. rewrite E in D |- *. cbn [length] in D.
    replace (N.to_nat (le * 4)) with (S (S (N.to_nat (le * 4) - 2))) in H' by lia.
    cbn [skipn] in H'.
    replace v with (firstn (N.to_nat (le * 4) - 2) v ++ skipn (N.to_nat (le * 4) - 2) v) by apply firstn_skipn.
    constructor; auto; [lia|]. unfold nlen. rewrite firstn_length. lia.
Qed.

Lemma unmarshal_ext_debug_iff b : (exists l, unmarshal_ext_hdr Debug b = Ok l) <-> ext_chain b.
Proof.
  split; [intros (l & H)|apply unmarshal_ext_chain].
  apply (ext_loop_debug_inv (S (length b)) b 0 [] l); [lia|exact H].
Qed.

(* Debug: the loop never runs forever. *)
Lemma ext_loop_debug_terminates fuel : forall b cursor data,
  (cursor <= length b)%nat -> (length b - cursor < fuel)%nat -> ext_loop Debug fuel b cursor data <> Diverge.
Proof.
  induction fuel as [|fuel IH]; intros b cursor data Hc Hf; [lia|].
  cbn [ext_loop]. rewrite slice_from_ok by assumption. cbn [bind].
  destruct (ext_unmarshal Debug (skipn cursor b)) as [e| | |] eqn:He; cbn [bind]; try discriminate.
  - destruct (ext_step_inv _ _ _ He) as [(r & E & ->)|(t & le & v & s & E & A & B & C & D & F & G)]; [discriminate|].
    apply mul8_debug in C as [-> C]. assert (H' : ext_loop Debug fuel b (cursor + N.to_nat (le * 4)) (data ++ [e]) <> Diverge).
    { pose proof (skipn_length cursor b). apply IH; lia. }
    destruct e; try (rewrite G; exact H'). exfalso; apply F; reflexivity.
  - exfalso. clear -He. revert He. unfold ext_unmarshal, at_. destruct (nth_error _ 0); [|discriminate]. cbn [bind].
    repeat match goal with |- context[if ?c then _ else _] => destruct c; try discriminate end;
    unfold Num16_unmarshal, Long_unmarshal, Sci_unmarshal, Unknown_unmarshal, Blob_unmarshal, ext_checked, at_, slice, mul8, ov;
    repeat (match goal with
      | |- context[match ?c with _ => _ end] => destruct c; cbn [bind]; try discriminate
      end).
Qed.
