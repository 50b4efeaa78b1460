(* V1USafety3.v - Error Indication decoding on arbitrary octets; endless loops. *)
From Verif Require Import BaseFacts V1U V1USpec V1UFacts V1USafety V1USafety2.
Local Open Scope N_scope.

Lemma gsn_inv m b i : Gsn_unmarshal m b = Ok i -> gsn_length i = 4 \/ gsn_length i = 16.
Proof.
  unfold Gsn_unmarshal. destruct (3 <=? length b)%nat; [|discriminate]. intros H.
  apply bind_ok in H as (l1 & _ & H). apply bind_ok in H as (l2 & _ & H). cbv zeta in H.
  revert H. generalize (be16 l1 l2); intros l H.
  destruct (l =? 0); [discriminate|]. apply bind_ok in H as (ok & _ & H). destruct ok; [|discriminate].
  destruct (N.eqb_spec l 4) as [E4|].
  { apply bind_ok in H as (? & _ & H). apply bind_ok in H as (? & _ & H).
    apply bind_ok in H as (? & _ & H). apply bind_ok in H as (? & _ & [= <-]). auto. }
  destruct (N.eqb_spec l 16) as [E16|]; [|discriminate]. destruct (19 <=? length b)%nat; [|discriminate].
  apply bind_ok in H as (? & _ & [= <-]). auto.
Qed.

Lemma gsn_returns m b : bytes b -> (forall l1 l2, nth_error b 1 = Some l1 -> nth_error b 2 = Some l2 -> be16 l1 l2 < 65533) ->
  returns (Gsn_unmarshal m b).
Proof.
  intros Hb Hl. unfold Gsn_unmarshal. destruct (Nat.leb_spec 3 (length b)) as [H3|]; [|exact I].
  destruct (@at_lt GTPV1Error b 1) as (l1 & -> & N1); [lia|]. destruct (@at_lt GTPV1Error b 2) as (l2 & -> & N2); [lia|].
  cbn [bind]. specialize (Hl l1 l2 N1 N2). revert Hl. generalize (be16 l1 l2); intros l Hl.
  destruct (N.eqb_spec l 0); [exact I|]. unfold check_tlv_ie_buffer. destruct (N.eqb_spec l 0); [lia|].
  rewrite add16_small by lia. cbn [bind]. destruct (Nat.leb_spec (N.to_nat (l + 3)) (length b)); [|exact I].
  destruct (N.eqb_spec l 4) as [->|].
  { destruct (@at_lt GTPV1Error b 3) as (? & -> & _); [lia|]. destruct (@at_lt GTPV1Error b 4) as (? & -> & _); [lia|].
    destruct (@at_lt GTPV1Error b 5) as (? & -> & _); [lia|]. destruct (@at_lt GTPV1Error b 6) as (? & -> & _); [lia|]. exact I. }
  destruct (N.eqb_spec l 16) as [->|]; [|exact I]. destruct (Nat.leb_spec 19 (length b)); [|exact I].
  rewrite slice_ok by lia. exact I.
Qed.

Lemma teid_returns b : returns (Teid_unmarshal b).
Proof.
  unfold Teid_unmarshal. destruct (Nat.ltb_spec 4 (length b)); [|exact I].
  destruct (@at_lt GTPV1Error b 0) as (? & -> & _); [lia|]. destruct (@at_lt GTPV1Error b 1) as (? & -> & _); [lia|].
  destruct (@at_lt GTPV1Error b 2) as (? & -> & _); [lia|]. destruct (@at_lt GTPV1Error b 3) as (? & -> & _); [lia|].
  destruct (@at_lt GTPV1Error b 4) as (? & -> & _); [lia|]. exact I.
Qed.

Lemma pe_inv m b i : Pe_unmarshal m b = Ok i -> exists l1 l2, nth_error b 1 = Some l1 /\ nth_error b 2 = Some l2
  /\ pe_length i = be16 l1 l2 /\ be16 l1 l2 <> 0 /\ (3 <= length b)%nat.
Proof.
  unfold Pe_unmarshal. destruct (Nat.leb_spec 3 (length b)); [|discriminate].
  destruct (@at_lt GTPV1Error b 1) as (l1 & -> & N1); [lia|]. destruct (@at_lt GTPV1Error b 2) as (l2 & -> & N2); [lia|].
  cbn [bind]. destruct (N.eqb_spec (be16 l1 l2) 0); [discriminate|]. intros H1.
  apply bind_ok in H1 as (ok & _ & H1). destruct ok; [|discriminate].
  apply bind_ok in H1 as (? & _ & H1). apply bind_ok in H1 as (? & _ & H1). apply bind_ok in H1 as (? & _ & [= <-]).
  exists l1, l2. cbn [pe_length]. auto.
Qed.

Definition cnt (c : option N) : nat := match c with None => 0%nat | Some n => N.to_nat n end.

Lemma count_ok m c : (cnt c < 255)%nat -> exists c', count m c = Ok c' /\ cnt c' = S (cnt c).
Proof.
  destruct c as [n|]; unfold cnt at 1; intros H; cbn [count].
  - rewrite add8_small by lia. cbn [bind]. eexists; split; [reflexivity|]. unfold cnt. lia.
  - eexists; split; [reflexivity|]. reflexivity.
Qed.

Lemma ei_loop_returns m b : bytes b -> (length b < 1020)%nat -> (forall i, pe_harmless (skipn i b)) ->
  forall fuel s, (0 < fuel)%nat -> (length b < fuel + ei_cursor s)%nat ->
  (4 * cnt (c_teid s) <= ei_cursor s)%nat -> (4 * cnt (c_gsn s) <= ei_cursor s)%nat -> (4 * cnt (c_pe s) <= ei_cursor s)%nat ->
  returns (ei_loop m fuel b s).
Proof.
  intros Hb Hl Hp. induction fuel as [|fuel IH]; intros s Hf0 Hf H1 H2 H3; [lia|]. cbn [ei_loop].
  destruct (Nat.leb_spec (length b) (ei_cursor s)) as [|Hc]; [exact I|].
  destruct (@at_lt GTPV1Error b (ei_cursor s) Hc) as (t & -> & Ht). cbn [bind].
  destruct (t <? ei_increment s); [exact I|]. rewrite slice_from_ok by lia. cbn [bind].
  pose proof (Hp (ei_cursor s)) as Hpe.
  assert (Hbs : bytes (skipn (ei_cursor s) b)) by (apply bytes_skipn; exact Hb).
  assert (Hln : length (skipn (ei_cursor s) b) = (length b - ei_cursor s)%nat) by apply skipn_length.
  destruct (t =? TEID_DATA).
  { pose proof (teid_returns (skipn (ei_cursor s) b)) as Hr.
    destruct (Teid_unmarshal _) as [i| | |]; try exact Hr; try exact I.
    destruct (count_ok m (c_teid s)) as (c' & -> & Hc'); [lia|]. cbn [bind].
    apply IH; cbn [ei_cursor c_teid c_gsn c_pe]; lia. }
  destruct (t =? GSN_ADDRESS).
  { assert (Hr : returns (Gsn_unmarshal m (skipn (ei_cursor s) b))).
    { apply gsn_returns; [exact Hbs|]. intros l1 l2 N1 N2. unfold pe_harmless in Hpe.
      destruct (skipn (ei_cursor s) b) as [|x [|y [|z w]]]; try discriminate. injection N1 as ->. injection N2 as ->. tauto. }
    destruct (Gsn_unmarshal m (skipn (ei_cursor s) b)) as [i| | |] eqn:Hi; try exact Hr; try exact I.
    destruct (count_ok m (c_gsn s)) as (c' & -> & Hc'); [lia|]. cbn [bind].
    unfold Gsn_len. rewrite add16_small by (destruct (gsn_inv _ _ _ Hi); lia). cbn [bind].
    destruct (gsn_inv _ _ _ Hi); apply IH; cbn [ei_cursor c_teid c_gsn c_pe]; lia. }
  destruct (t =? PRIVATE_EXTENSION); [|exact I].
  pose proof (pe_returns m _ Hpe) as Hr.
  destruct (Pe_unmarshal m (skipn (ei_cursor s) b)) as [i| | |] eqn:Hi; try exact Hr; try exact I.
  destruct (count_ok m (c_pe s)) as (c' & -> & Hc'); [lia|]. cbn [bind].
  apply pe_inv in Hi as (l1 & l2 & N1 & N2 & Hpl & Hnz & Hl3).
  assert (be16 l1 l2 < 65533).
  { unfold pe_harmless in Hpe. destruct (skipn (ei_cursor s) b) as [|x [|y [|z w]]]; try discriminate. injection N1 as ->. injection N2 as ->. tauto. }
  unfold Pe_len. rewrite Hpl. rewrite add16_small by lia. cbn [bind].
  apply IH; cbn [ei_cursor c_teid c_gsn c_pe]; lia.
Qed.

Lemma errind_returns m b : bytes b -> (length b < 1020)%nat -> (forall i, pe_harmless (skipn i b)) ->
  returns (hdr_unmarshal m b) -> (forall h, hdr_unmarshal m b = Ok h -> h_length h <= 65527) ->
  returns (ErrorIndication_unmarshal m b).
Proof.
  intros Hb Hl Hp Hr HL. unfold ErrorIndication_unmarshal.
  destruct (hdr_unmarshal m b) as [h| | |] eqn:Hh; try exact Hr; try exact I. cbn [bind].
  destruct (negb _); [exact I|]. specialize (HL h eq_refl). rewrite add16_small by lia. cbn [bind].
  destruct (_ <=? _)%nat; [|exact I]. destruct (header_size_decoded _ _ _ Hh) as (hs & -> & H8 & _). cbn [bind].
  match goal with |- context[ei_loop m ?f b ?s] =>
    assert (Hx : returns (ei_loop m f b s)) by (apply ei_loop_returns; cbn [ei_cursor c_teid c_gsn c_pe cnt]; try assumption; lia);
    destruct (ei_loop m f b s); cbn [bind]; try exact Hx
  end. destruct (_ && _); exact I.
Qed.

(* Debug builds: the Error Indication loop always ends. *)
Lemma ei_loop_debug_terminates b : forall fuel s, (0 < fuel)%nat -> (length b < fuel + ei_cursor s)%nat ->
  ei_loop Debug fuel b s <> Diverge.
Proof.
  induction fuel as [|fuel IH]; intros s Hf0 Hf; [lia|]. cbn [ei_loop].
  destruct (Nat.leb_spec (length b) (ei_cursor s)) as [|Hc]; [discriminate|].
  destruct (@at_lt GTPV1Error b (ei_cursor s) Hc) as (t & -> & Ht). cbn [bind].
  destruct (t <? ei_increment s); [discriminate|]. rewrite slice_from_ok by lia. cbn [bind].
  assert (Hcnt : forall c, count Debug c = Panic \/ exists c', count Debug c = Ok c').
  { intros [n|]; cbn [count]; [|eauto]. unfold add8, ov. destruct (_ <? _); cbn [bind]; eauto. }
  assert (Hnd : forall (r : list N), (Gsn_unmarshal Debug r <> Diverge) /\ (Pe_unmarshal Debug r <> Diverge)).
  { intros r. unfold Gsn_unmarshal, Pe_unmarshal, check_tlv_ie_buffer, at_, add16, ov, slice, slice_from. split;
    repeat (match goal with
      | |- context[match ?c with _ => _ end] => destruct c; cbn [bind]; try discriminate
      end). }
  destruct (t =? TEID_DATA).
  { pose proof (teid_returns (skipn (ei_cursor s) b)) as Hr.
    destruct (Teid_unmarshal _) as [i| | |]; try discriminate; try (destruct Hr).
    destruct (Hcnt (c_teid s)) as [->|(c' & ->)]; [discriminate|]. cbn [bind].
    apply IH; cbn [ei_cursor]; lia. }
  destruct (t =? GSN_ADDRESS).
  { destruct (Hnd (skipn (ei_cursor s) b)) as [Hn _].
    destruct (Gsn_unmarshal Debug (skipn (ei_cursor s) b)) as [i| | |] eqn:Hi; try discriminate; try congruence.
    destruct (Hcnt (c_gsn s)) as [->|(c' & ->)]; [discriminate|]. cbn [bind].
    unfold Gsn_len. rewrite add16_small by (destruct (gsn_inv _ _ _ Hi); lia). cbn [bind].
    destruct (gsn_inv _ _ _ Hi); apply IH; cbn [ei_cursor]; lia. }
  destruct (t =? PRIVATE_EXTENSION); [|discriminate].
  destruct (Hnd (skipn (ei_cursor s) b)) as [_ Hn].
  destruct (Pe_unmarshal Debug (skipn (ei_cursor s) b)) as [i| | |] eqn:Hi; try discriminate; try congruence.
  destruct (Hcnt (c_pe s)) as [->|(c' & ->)]; [discriminate|]. cbn [bind].
  apply pe_inv in Hi as (l1 & l2 & N1 & N2 & Hpl & Hnz & Hl3).
  unfold Pe_len, add16, ov. destruct (N.ltb_spec (pe_length i + 3) 65536); [|discriminate]. cbn [bind].
  apply IH; cbn [ei_cursor]; lia.
Qed.

(* Release builds: a PDCP extension header with length octet 64 is never left. *)
Definition endless_ext : list N := [192; 64; 0; 0].
Lemma ext_loop_endless fuel : forall data, ext_loop Release fuel endless_ext 0 data = Diverge.
Proof.
  induction fuel as [|fuel IH]; intros data; [reflexivity|].
  cbn [ext_loop]. change (slice_from endless_ext 0) with (@Ok GTPV1Error _ endless_ext). cbn [bind].
  replace (ext_unmarshal Release endless_ext) with (@Ok GTPV1Error _ (EH_PDCPPDUNumber (mkNumExt 192 64 0))) by (vm_compute; reflexivity).
  cbn [bind]. replace (ext_len Release (EH_PDCPPDUNumber (mkNumExt 192 64 0))) with (@Ok GTPV1Error _ 0%nat) by (vm_compute; reflexivity).
  cbn [bind]. apply IH.
Qed.

(* Release builds: a private extension with length 65533 is never left. *)
Definition endless_ei : list N := [255; 255; 253; 0; 1].
Lemma ei_loop_endless fuel : forall inc ct cg cp st sg sp, inc <= 255 ->
  ei_loop Release fuel endless_ei (mkEi 0 inc ct cg cp st sg sp) = Diverge.
Proof.
  induction fuel as [|fuel IH]; intros inc ct cg cp st sg sp Hi; [reflexivity|].
  cbn [ei_loop ei_cursor ei_increment c_teid c_gsn c_pe s_teid s_gsn s_pe].
  change (length endless_ei <=? 0)%nat with false. cbv iota.
  change (at_ endless_ei 0) with (@Ok GTPV1Error _ 255). cbn [bind].
  destruct (N.ltb_spec 255 inc); [lia|].
  change (slice_from endless_ei 0) with (@Ok GTPV1Error _ endless_ei). cbn [bind].
  change (255 =? TEID_DATA) with false. change (255 =? GSN_ADDRESS) with false. change (255 =? PRIVATE_EXTENSION) with true. cbv iota.
  replace (Pe_unmarshal Release endless_ei) with (@Ok GTPV1Error _ (mkPe 255 65533 1 [])) by (vm_compute; reflexivity).
  assert (Hc : exists c', count Release cp = Ok c').
  { destruct cp as [n|]; cbn [count]; eauto. unfold add8, ov. destruct (_ <? _); cbn [bind]; eauto. }
  destruct Hc as (c' & ->). cbn [bind].
  replace (Pe_len Release (mkPe 255 65533 1 [])) with (@Ok GTPV1Error _ 0%nat) by (vm_compute; reflexivity).
  cbn [bind]. apply IH. lia.
Qed.
