(* V1UWireFacts.v - GTP-U headers, elements and messages are encoded as V1UWireSpec.v says. *)
From Verif Require Import BaseFacts OctetsFacts V1USpec V1UFacts V1UWireSpec.
Local Open Scope N_scope.

Lemma ext_wire_ok e : wf_ext e -> ext_marshal e = ext_wire e.
Proof.
  destruct e as [|x|x|x|x|x|x|x|x|x]; cbn [wf_ext ext_marshal ext_wire]; intros H; try reflexivity.
  - unfold Num16_marshal. rewrite enc16_oct by apply H. reflexivity.
  - unfold Num16_marshal. rewrite enc16_oct by apply H. reflexivity.
  - destruct H as (_ & _ & H). unfold Long_marshal. rewrite N.mod_small by lia.
    rewrite enc32_oct by (unfold u32; lia). unfold oct4, oct3. cbn [app].
    assert (E1 : ne_value x * 256 / 16777216 = ne_value x / 65536) by lia.
    assert (E2 : ne_value x * 256 / 65536 = ne_value x / 256) by lia.
    assert (E3 : ne_value x * 256 / 256 = ne_value x) by lia.
    assert (E4 : ne_value x * 256 mod 256 = 0) by lia.
    rewrite E1, E2, E3, E4. reflexivity.
Qed.

Lemma hdr_wire_ok h : wf_header h -> hdr_marshal h = hdr_wire h (h_length h).
Proof.
  destruct h as [mt l t s n e]. intros (Hl & Ht & Hs & He). cbn [msgtype h_length teid sequence_number npdu_number extension_headers] in *.
  assert (Hx : forall x, e = Some x -> map ext_marshal x = map ext_wire x).
  { intros x E. apply map_ext_in. intros a Ha. apply ext_wire_ok. exact (proj1 (Forall_forall _ _) (He x E) a Ha). }
  unfold hdr_marshal, hdr_wire, construct_flags, marshal_ext_hdr. cbn [msgtype h_length teid sequence_number npdu_number extension_headers].
  rewrite (enc16_oct l Hl), (enc32_oct t Ht).
  destruct s as [s|], n as [n|], e as [e|]; cbn [is_some given or0];
    try rewrite (Hx e eq_refl); try rewrite (enc16_oct s (Hs s eq_refl)); cbn [app concat map]; rewrite ?app_nil_r; reflexivity.
Qed.
Lemma hdr_wire_length h n : length (hdr_wire h n) = length (hdr_wire h 0).
Proof. destruct h as [mt l t [s|] [k|] [e|]]; reflexivity. Qed.

(* Any message: the octets of header and body, with the length field filled in. *)
Lemma framed_wire h p : wf_header h -> nlen (hdr_marshal h ++ p) - 8 < 65536 ->
  set_length (hdr_marshal h ++ p) = msg_wire h p.
Proof.
  intros Hw Hn. rewrite set_length_hdr, N.mod_small by exact Hn. unfold msg_wire.
  rewrite hdr_wire_ok by (apply with_length_wf; [exact Hw|exact Hn]).
  assert (E : nlen (hdr_marshal h ++ p) = nlen (hdr_wire h 0 ++ p)).
  { unfold nlen. rewrite !app_length, (hdr_wire_ok h Hw), hdr_wire_length. reflexivity. }
  rewrite E. reflexivity.
Qed.

Lemma teid_wire_ok x : u32 (te_teid x) -> Teid_marshal x = teid_wire x.
Proof. intros H. unfold Teid_marshal, teid_wire. rewrite enc32_oct by exact H. reflexivity. Qed.
Lemma gsn_wire_ok x : wf_gsn x -> Gsn_marshal x = gsn_wire x.
Proof.
  intros (Ht & H). unfold Gsn_marshal, gsn_wire. rewrite Ht. destruct (gsn_ip x) as [a b c d|o].
  - rewrite H. reflexivity.
  - destruct H as [H Ho]. unfold enc16. cbn [app ip_octets]. rewrite set_tlv_cons. cbn [app].
    unfold nlen. rewrite Ho. reflexivity.
Qed.
Lemma pe_wire_ok x : wf_pe x -> Pe_marshal x = pe_wire x.
Proof.
  intros (Ht & Hi & Hl & Hm). unfold Pe_marshal, pe_wire. rewrite Ht. unfold enc16 at 1. cbn [app]. rewrite set_tlv_cons.
  rewrite (enc16_oct _ Hi). rewrite enc16_oct.
  - unfold oct2, nlen. cbn [app length]. rewrite !Nat2N.inj_succ.
    replace (N.succ (N.succ (N.of_nat (length (pe_value x))))) with (2 + N.of_nat (length (pe_value x))) by lia.
    rewrite N.mod_small by (unfold nlen in *; lia). reflexivity.
  - unfold u16, nlen in *. cbn [app oct2 length]. lia.
Qed.
Lemma ehtl_wire_ok x : wf_ehtl x -> Ehtl_marshal x = ehtl_wire x.
Proof.
  intros (Ht & Hl & Hm). unfold Ehtl_marshal, ehtl_wire. cbn [app set_nth]. rewrite Ht.
  unfold nlen in *. cbn [length]. rewrite !Nat2N.inj_succ. rewrite N.mod_small by lia.
  replace (N.succ (N.succ (N.of_nat (length (ehtl_list x)))) - 2) with (N.of_nat (length (ehtl_list x))) by lia. reflexivity.
Qed.
Lemma opt_wire_ok o : wf_opt wf_pe o -> opt_bytes Pe_marshal o = opt_wire pe_wire o.
Proof. destruct o; cbn; [apply pe_wire_ok|reflexivity]. Qed.
