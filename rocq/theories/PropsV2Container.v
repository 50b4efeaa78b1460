(* C24 for the container GroupedIe itself. *)
From Verif Require Import Base BaseFacts V2Base V2BaseFacts V2Decoder V2DecSpec V2DecMore V2GroupedIe PropsV2Ie.
Local Open Scope N_scope.

(* What a container with elements that survive on their own is read back as: the elements, whatever the type
   octet and the instance octet say; the length field counts the octets of the elements. *)
Theorem C24_container : forall m t len ins l rest,
  Forall (fun e => ie_wf e /\ routed e) l -> 1 <= nlen (encoder l) <= 65531 ->
  GroupedIe_unmarshal (decoder m) m (GroupedIe_marshal (mkIe t len ins l) ++ rest) = Ok (mkIe t (nlen (encoder l)) ins l) /\
  GroupedIe_len m (mkIe t (nlen (encoder l)) ins l) = Ok (length (GroupedIe_marshal (mkIe t len ins l))).
Proof.
  intros m t len ins l rest W B. pose proof (C18_ie_list_roundtrip m l W) as R.
  unfold GroupedIe_marshal. cbn [ie_t ie_length ie_ins ie_v]. rewrite tliv_framed. unfold framed.
  set (v := encoder l) in *. clearbody v. cbn [app].
  assert (E : be16 ((nlen v / 256) mod 256) (nlen v mod 256) = nlen v).
  { unfold be16. rewrite (N.mod_small (nlen v / 256)) by (apply N.div_lt_upper_bound; lia). rewrite N.mul_comm. symmetry. apply N.div_mod. lia. }
  split.
  - unfold GroupedIe_unmarshal. replace (MIN_IE_SIZE <=? length _)%nat with true
      by (symmetry; apply Nat.leb_le; cbn [length]; unfold MIN_IE_SIZE; lia).
    unfold at_ at 1. cbn [nth_error bind]. rewrite hdr4_cons, E.
    rewrite checked_ok by (try lia; cbn [length]; rewrite app_length; unfold nlen; lia).
    rewrite end16_ok by lia. cbn [bind]. rewrite slice4 by (unfold nlen; lia). cbn [bind]. rewrite R. reflexivity.
  - unfold GroupedIe_len, len_u16, add16, ov. cbn [ie_length].
    replace (nlen v + 4 <? 65536) with true by (symmetry; apply N.ltb_lt; lia). cbn [bind length]. f_equal. unfold nlen. lia.
Qed.
Print Assumptions C24_container.

(* Exactly which octets are a container, and what it holds. *)
Theorem C24_container_means : forall m b g, Forall (fun o => o < 256) b ->
  (GroupedIe_unmarshal (decoder m) m b = Ok g <->
   exists l1 l2 v rest, b = ie_t g :: l1 :: l2 :: ie_ins g :: v ++ rest /\ 256 * l1 + l2 = nlen v /\ ie_length g = nlen v /\
     1 <= nlen v <= 65531 /\ decoder m v = Ok (ie_v g)).
Proof.
  intros m b g HB. split.
  - unfold GroupedIe_unmarshal. destruct (Nat.leb_spec MIN_IE_SIZE (length b)) as [L|L]; [|destruct (at_ b 0); discriminate].
    destruct b as [|t [|l1 [|l2 [|i r]]]]; try (cbn in L; unfold MIN_IE_SIZE in L; lia).
    unfold at_ at 1. cbn [nth_error bind]. rewrite hdr4_cons.
    assert (Hn : be16 l1 l2 = 256 * l1 + l2 /\ l1 < 256 /\ l2 < 256).
    { apply Forall_inv_tail in HB as HB1. apply Forall_inv_tail in HB1 as HB2. apply Forall_inv in HB1, HB2. unfold be16. lia. }
    destruct Hn as (Hn & H1 & H2). rewrite Hn. set (n := 256 * l1 + l2) in *. assert (n < 65536) by (unfold n; lia). clear Hn.
    set (B := t :: l1 :: l2 :: i :: r) in *. assert (LB : length B = (4 + length r)%nat) by reflexivity.
    unfold checked, check_tliv_ie_buffer. destruct (N.eqb_spec n 0) as [Z|Z]; cbn [bind]; [discriminate|].
    unfold end16. destruct (@add16 GTPV2Error m n 4) as [s|e| |] eqn:A; cbn [bind]; try discriminate.
    destruct (Nat.leb_spec (N.to_nat s) (length B)) as [Q|Q]; [|discriminate].
    unfold slice. destruct (Nat.leb_spec 4 (N.to_nat s)) as [P|P]; cbn [andb bind]; [|discriminate].
    assert (Hs : s = n + 4).
    { unfold add16, ov in A. destruct (N.ltb_spec (n + 4) 65536); [apply Ok_inj in A; lia|]. destruct m; [discriminate|].
      apply Ok_inj in A. assert ((n + 4) mod 65536 = n + 4 - 65536). { symmetry. apply (N.mod_unique _ _ 1); lia. } lia. }
    assert (Hn : n + 4 < 65536).
    { unfold add16, ov in A. destruct (N.ltb_spec (n + 4) 65536); [assumption|]. destruct m; [discriminate|].
      apply Ok_inj in A. assert (s < 65536) by (rewrite <- A; apply N.mod_lt; lia). lia. }
    replace (N.to_nat s <=? length B)%nat with true by (symmetry; apply Nat.leb_le; exact Q). cbn [bind].
    unfold B. cbn [skipn]. set (v := firstn (N.to_nat s - 4) r).
    destruct (decoder m v) as [l|e| |] eqn:D; cbn [bind]; try discriminate. intros G. apply Ok_inj in G. subst g. cbn [ie_t ie_length ie_ins ie_v].
    assert (V : nlen v = n) by (unfold nlen, v; rewrite firstn_length; lia).
    exists l1, l2, v, (skipn (N.to_nat s - 4) r). unfold v at 1. rewrite firstn_skipn. repeat split; try assumption; try lia.
  - intros (l1 & l2 & v & rest & -> & Hv & Hg & Bd & D). unfold GroupedIe_unmarshal.
    replace (MIN_IE_SIZE <=? length _)%nat with true by (symmetry; apply Nat.leb_le; cbn [length]; unfold MIN_IE_SIZE; lia).
    unfold at_ at 1. cbn [nth_error bind]. rewrite hdr4_cons. replace (be16 l1 l2) with (nlen v) by (unfold be16; lia).
    rewrite checked_ok by (try lia; cbn [length]; rewrite app_length; unfold nlen; lia).
    rewrite end16_ok by lia. cbn [bind]. rewrite slice4 by (unfold nlen; lia). cbn [bind]. rewrite D. cbn [bind].
    rewrite <- Hg. destruct g; reflexivity.
Qed.
Print Assumptions C24_container_means.

(* An empty container is written, but no receiver takes it. *)
Theorem C24_container_empty_refuted : forall m t len ins rest,
  GroupedIe_marshal (mkIe t len ins []) = [t; 0; 0; ins] /\
  GroupedIe_unmarshal (decoder m) m (GroupedIe_marshal (mkIe t len ins []) ++ rest) = Err (IEInvalidLength t).
Proof. intros. split; reflexivity. Qed.
Print Assumptions C24_container_empty_refuted.

(* Empty is the container that reports four octets; none that was decoded is, the default one is. *)
Theorem C24_container_empty : (forall x : Tliv (list ie), GroupedIe_is_empty x = true <-> GroupedIe_len Debug x = Ok 4%nat) /\
  GroupedIe_is_empty GroupedIe_default = true /\
  (forall m b g, Forall (fun o => o < 256) b -> GroupedIe_unmarshal (decoder m) m b = Ok g -> GroupedIe_is_empty g = false).
Proof.
  split; [|split; [reflexivity|]].
  - intros x. unfold GroupedIe_is_empty, GroupedIe_len, len_u16, add16, ov. destruct (N.eqb_spec (ie_length x) 0) as [->|E]; [split; reflexivity|].
    split; [discriminate|]. destruct (ie_length x + 4 <? 65536); cbn [bind]; [|discriminate]. intros H. apply Ok_inj in H. lia.
  - intros m b g Hb H. apply C24_container_means in H as (l1 & l2 & v & rest & _ & _ & E & Hv & _); [|exact Hb].
    unfold GroupedIe_is_empty. apply N.eqb_neq. lia.
Qed.
Print Assumptions C24_container_empty.

(* Non-vacuity: the container of the unit test grouped_ie_unmarshal_test, without its bearer QoS. *)
Example container_case :
  let l := [IE_Ebi (mkIe 73 1 0 5); IE_Metric (mkIe 182 1 0 9)] in
  Forall (fun e => ie_wf e /\ routed e) l /\ 1 <= nlen (encoder l) <= 65531 /\
  GroupedIe_marshal (mkIe 93 0 1 l) = [93; 0; 10; 1; 73; 0; 1; 0; 5; 182; 0; 1; 0; 9].
Proof. cbv zeta. split; [|split; [vm_compute; split; discriminate|reflexivity]]. repeat constructor; cbn; try lia; try discriminate. Qed.
