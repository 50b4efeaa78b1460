(* PropsV1Smuggle.v - C92 for GTPv1-C: the contents of an element are not taken for other elements. The vocabulary is that of C43 (V1CMsgSpec.v)
   and C91 (PropsV1Oversize.v). *)
From Verif Require Import Base BaseFacts V1U V1USpec V1UFacts V1CHdrFacts V1CIeFacts V1CMsgSpec V1CMsgFacts V1CTables PropsV1Oversize.
From Verif Require PropsV1C.
Local Open Scope N_scope.
Notation length := List.length.

(* --- specification --------------------------------------------------------------------------------------------------- *)
(* The elements whose contents end with octets an application chooses freely: the element with [t] behind the contents of [x]. *)
Definition more_octets (x : Tlv (list N)) (t : list N) : Tlv (list N) := mkTlv (tlv_t x) (tlv_length x) (tlv_v x ++ t).
Definition lengthened (x : ie1) (t : list N) : option ie1 :=
  match x with
  | I1_Pco x => Some (I1_Pco (more_octets x t))
  | I1_Tft x => Some (I1_Tft (more_octets x t))
  | I1_TriggerId x => Some (I1_TriggerId (more_octets x t))
  | I1_OmcId x => Some (I1_OmcId (more_octets x t))
  | I1_Camel x => Some (I1_Camel (more_octets x t))
  | I1_Pe x => Some (I1_Pe (mkTlv (tlv_t x) (tlv_length x) (mkPeV (pev_id (tlv_v x)) (pev_value (tlv_v x) ++ t))))
  | _ => None
  end.
(* the octets of a sequence of elements *)
Definition octets_of (l : list ie1) : list N := concat (map ie1_marshal l).

(* --- theorems -------------------------------------------------------------------------------------------------------- *)
Lemma tlv_more {A} (f : A -> list N) T l v w t : f w = f v ++ t -> nlen t mod 65536 = 0 ->
  tlv_marshal f (mkTlv T l w) = tlv_marshal f (mkTlv T l v) ++ t.
Proof.
  intros E H. unfold tlv_marshal, set_tlv_ie_length. cbn [tlv_t tlv_length tlv_v enc16 app]. rewrite E.
  set (a := (l / 256) mod 256). set (c := l mod 256). unfold nlen. cbn [length]. rewrite app_length.
  replace (N.of_nat (S (S (S (length (f v) + length t)))) - 3) with (N.of_nat (length (f v)) + nlen t) by (unfold nlen; lia).
  replace (N.of_nat (S (S (S (length (f v))))) - 3) with (N.of_nat (length (f v))) by lia.
  rewrite N.add_mod, H, N.add_0_r, N.mod_mod by discriminate. reflexivity.
Qed.

(* The element with a multiple of 65536 octets behind its contents is sent as the element followed by these octets. *)
Theorem C92_element1_refuted : forall x t y, lengthened x t = Some y -> nlen t mod 65536 = 0 -> ie1_marshal y = ie1_marshal x ++ t.
Proof.
  intros x t y Hy Ht. destruct x as [x|x|x|x|x|x|x|x|x|x|x|x|x|x|x|x|x|x|x|x|x|x|x|x|x|x|x|x|x|x|x|x|x|x|x|x|x|x|x|x|x|x|x|x|x|x|x|x];
    try discriminate Hy; cbn [lengthened] in Hy; injection Hy as <-; destruct x as [T l v]; apply tlv_more; try exact Ht; try reflexivity.
Qed.
Print Assumptions C92_element1_refuted.

Lemma octets_present x : msg1_octets x = chdr_marshal (m_header x) ++ octets_of (present x).
Proof.
  unfold msg1_octets, octets_of, present. f_equal. induction (m_fields x) as [|[i|] l IH]; [reflexivity| |].
  - cbn [map concat flat_map opt_bytes app]. rewrite IH. reflexivity.
  - cbn [map concat flat_map opt_bytes app]. exact IH.
Qed.
(* A message with such an element is sent as the octets of the message that has the other elements as well. *)
Theorem C92_same_octets1_refuted : forall s z A x X y B, m_header s = m_header z ->
  present s = A ++ y :: B -> present z = A ++ x :: X ++ B ->
  lengthened x (octets_of X) = Some y -> nlen (octets_of X) mod 65536 = 0 ->
  msg1_marshal s [] = msg1_marshal z [].
Proof.
  intros s z A x X y B Hh Hs Hz Hy Ht. unfold msg1_marshal. rewrite !octets_present, Hh, Hs, Hz. f_equal. f_equal. f_equal. unfold octets_of.
  rewrite !map_app, !concat_app. cbn [map concat]. rewrite (C92_element1_refuted x _ y Hy Ht), map_app, concat_app. unfold octets_of. rewrite <- !app_assoc. reflexivity.
Qed.
Print Assumptions C92_same_octets1_refuted.
(* The receiver has the other message: the elements are read to the end of the packet. *)
Theorem C92_smuggled1_refuted : forall code L T m s z A x X y B, In (code, L, T) messages1 -> wf_msg1 code L z -> ~ has_code1 z 149 ->
  (has_code1 z 251 -> forall t, 148 <= t <= 218 -> ~ has_code1 z t) -> (nlen (msg1_octets z) - 8) mod 65536 <= 65527 ->
  m_header s = m_header z -> present s = A ++ y :: B -> present z = A ++ x :: X ++ B ->
  lengthened x (octets_of X) = Some y -> nlen (octets_of X) mod 65536 = 0 ->
  msg1_unmarshal T m (msg1_marshal s []) = Ok (received z).
Proof.
  intros code L T m s z A x X y B HI W H1 H2 H3 Hh Hs Hz Hy Ht.
  rewrite (C92_same_octets1_refuted s z A x X y B Hh Hs Hz Hy Ht), (C91_gtpv1c_partial code L T m z HI W H1 H2).
  unfold said. destruct m; [|reflexivity]. destruct (N.ltb_spec 65527 ((nlen (msg1_octets z) - 8) mod 65536)); [lia|reflexivity].
Qed.
Print Assumptions C92_smuggled1_refuted.

(* A delete request with protocol configuration options of 65539 octets: the receiver has it with a location timestamp and a private extension. *)
Definition hidden : list ie1 := [I1_UliTs (mkTlv 214 4 77); I1_Pe (mkTlv 255 65526 (mkPeV 10415 (repeat 7 (N.to_nat 65524))))].
Definition delete_pdp (p : ie1) (ts pe : option ie1) : Msg1 := mkMsg1 (mkCHdr 20 0 9 (Some 1) None None)
  [None; None; Some (I1_Nsapi (mkTv 20 5)); Some p; None; None; None; ts; pe].
Definition pco3 : ie1 := I1_Pco (mkTlv 132 3 [128; 0; 1]).
Definition deleted : Msg1 := delete_pdp pco3 (nth_error hidden 0) (nth_error hidden 1).
Example C92_case1 : exists p, lengthened pco3 (octets_of hidden) = Some p /\ wf_msg1 20 DeletePDPContextRequest_L deleted /\
  forall m, msg1_unmarshal DeletePDPContextRequest_T m (msg1_marshal (delete_pdp p None None) []) = Ok (received deleted).
Proof.
  assert (W : wf_msg1 20 DeletePDPContextRequest_L deleted).
  { split; [reflexivity|]. split; [repeat split; discriminate|]. split.
    - unfold deleted, delete_pdp, hidden, DeletePDPContextRequest_L. cbn [m_fields nth_error].
      do 2 (constructor; [reflexivity|]). constructor; [split; [reflexivity|split; reflexivity]|].
      constructor; [split; [reflexivity|]; cbn [pco3 wf_ie1]; unfold wf_tlv; repeat split; try reflexivity; discriminate|].
      do 3 (constructor; [reflexivity|]).
      constructor; [split; [reflexivity|]; cbn [wf_ie1]; unfold wf_tlv; repeat split; try reflexivity; discriminate|].
      constructor; [|constructor].
      split; [reflexivity|]. cbn [wf_ie1]. unfold wf_tlv. cbn [tlv_t tlv_length tlv_v pev_value]. unfold nlen. rewrite repeat_length, N2Nat.id.
      split; [reflexivity|]. split; [reflexivity|]. split; [discriminate|]. unfold pe_ok. cbn [pev_id]. reflexivity.
    - apply PropsV1C.no_gapb_ok. vm_compute. reflexivity. }
  eexists. split; [reflexivity|]. split; [exact W|]. intros m.
  eapply (C92_smuggled1_refuted 20 DeletePDPContextRequest_L DeletePDPContextRequest_T m _ deleted [I1_Nsapi (mkTv 20 5)] pco3 hidden _ []).
  - vm_compute. tauto.
  - exact W.
  - vm_compute. intuition discriminate.
  - vm_compute. intuition discriminate.
  - assert (Z : nlen (msg1_octets deleted) = 65556) by (vm_compute; reflexivity). rewrite Z. discriminate.
  - reflexivity.
  - reflexivity.
  - reflexivity.
  - reflexivity.
  - vm_compute. reflexivity.
Qed.
