(* PropsV2Smuggle.v - C92 for GTPv2-C: the contents of an element are not taken for other elements. The vocabulary is that of C18 and C26. *)
From Coq Require Import String.
From Verif Require Import Base BaseFacts LabelsFacts V2BaseFacts V2MsgWire PropsV2Ie PropsV2Msg.
Local Open Scope N_scope.
Notation length := List.length.

(* --- specification --------------------------------------------------------------------------------------------------- *)
(* The elements whose contents end with octets an application chooses freely: the element with [t] behind the contents of [x]. *)
Definition more_octets (i : Tliv (list N)) (t : list N) : Tliv (list N) := mkIe (ie_t i) (ie_length i) (ie_ins i) (ie_v i ++ t).
Definition lengthened (x : ie) (t : list N) : option ie :=
  match x with
  | IE_Pco i => Some (IE_Pco (more_octets i t))
  | IE_Apco i => Some (IE_Apco (more_octets i t))
  | IE_Epco i => Some (IE_Epco (more_octets i t))
  | IE_BearerTft i => Some (IE_BearerTft (more_octets i t))
  | IE_TrafficAggregateDescription i => Some (IE_TrafficAggregateDescription (more_octets i t))
  | IE_SrcRncPdcpCtxInfo i => Some (IE_SrcRncPdcpCtxInfo (more_octets i t))
  | IE_IntegerNumber i => Some (IE_IntegerNumber (more_octets i t))
  | IE_GroupId i => Some (IE_GroupId (more_octets i t))
  | IE_Unknown i => Some (IE_Unknown (more_octets i t))
  | IE_Ldn i => if forallb (fun o => o <? 128) t then Some (IE_Ldn (more_octets i t)) else None
  | IE_PrivateExtension i =>
      Some (IE_PrivateExtension (mkIe (ie_t i) (ie_length i) (ie_ins i) (mkPrivateExt (pe_id (ie_v i)) (pe_value (ie_v i) ++ t))))
  | IE_Fcause i => Some (IE_Fcause (mkIe (ie_t i) (ie_length i) (ie_ins i) (mkFcause (fc_type (ie_v i)) (fc_field (ie_v i) ++ t))))
  | IE_Fcontainer i =>
      let y v := Some (IE_Fcontainer (mkIe (ie_t i) (ie_length i) (ie_ins i) v)) in
      match ie_v i with
      | FcReserved => None | FcUtran o => y (FcUtran (o ++ t)) | FcBss o => y (FcBss (o ++ t)) | FcEutran o => y (FcEutran (o ++ t))
      | FcNbifom o => y (FcNbifom (o ++ t)) | FcEnDc o => y (FcEnDc (o ++ t)) | FcInterSystemSON o => y (FcInterSystemSON (o ++ t))
      | FcUnknown o => y (FcUnknown (o ++ t))
      end
  | IE_CompleteRequestMessage i =>
      let y v := Some (IE_CompleteRequestMessage (mkIe (ie_t i) (ie_length i) (ie_ins i) v)) in
      match ie_v i with ReqSpare => None | ReqAttach o => y (ReqAttach (o ++ t)) | ReqTau o => y (ReqTau (o ++ t)) end
  | _ => None
  end.
(* a message as the receiver has it: with the length field filled in *)
Definition as_received (x : message) : message := mkMsg (with_length (msg_header x) (counted x)) (msg_fields x).

(* --- theorems -------------------------------------------------------------------------------------------------------- *)
Lemma tliv_more T l i v t : nlen t mod 65536 = 0 -> tliv T l i (v ++ t) = tliv T l i v ++ t.
Proof.
  intros H. rewrite !tliv_eq. replace (nlen (v ++ t)) with (nlen v + nlen t) by (unfold nlen; rewrite app_length; lia).
  rewrite N.add_mod, H, N.add_0_r, N.mod_mod by discriminate. reflexivity.
Qed.
Lemma utf8_more s t : Forall (fun c => c < 128) t -> utf8 (s ++ t) = utf8 s ++ t.
Proof. intros H. rewrite <- (utf8_ascii t H) at 2. unfold utf8. rewrite map_app, concat_app. reflexivity. Qed.

(* While the contents fit the length field, every element is received as what it is. *)
Theorem C92_contained_partial : forall m A x B, Forall (fun e => ie_wf e /\ routed e) (A ++ x :: B) ->
  decoder m (encoder (A ++ x :: B)) = Ok (A ++ x :: B).
Proof. intros m A x B. apply C18_ie_list_roundtrip. Qed.
Print Assumptions C92_contained_partial.

(* The element with a multiple of 65536 octets behind its contents is sent as the element followed by these octets. *)
Theorem C92_element_refuted : forall x t y, lengthened x t = Some y -> nlen t mod 65536 = 0 -> ie_marshal y = ie_marshal x ++ t.
Proof.
  intros x t y Hy Ht. destruct x; try discriminate Hy; cbn [lengthened] in Hy;
    try (injection Hy as <-; cbn [ie_marshal]; exact (tliv_more _ _ _ _ t Ht)).
  - destruct i as [T l n v]. cbn [ie_v ie_t ie_length ie_ins] in Hy. destruct v; try discriminate Hy; injection Hy as <-; exact (tliv_more _ _ _ (_ :: _) t Ht).
  - destruct i as [T l n v]. cbn [ie_v ie_t ie_length ie_ins] in Hy. destruct v; try discriminate Hy; injection Hy as <-;
      first [exact (tliv_more _ _ _ (_ :: _) t Ht)|exact (tliv_more _ _ _ _ t Ht)].
  - injection Hy as <-. exact (tliv_more _ _ _ (_ :: _) t Ht).
  - destruct (forallb _ t) eqn:E; [|discriminate]. injection Hy as <-. unfold ie_marshal, Ldn_marshal, marshal_ie, Ldn_value, more_octets. cbn [ie_v ie_length ie_ins].
    rewrite utf8_more; [apply tliv_more, Ht|]. apply Forall_forall. intros c Hc. apply N.ltb_lt. exact (proj1 (forallb_forall _ _) E c Hc).
  - injection Hy as <-. unfold ie_marshal, PrivateExtension_marshal, marshal_ie, PrivateExtension_value. cbn [ie_v ie_length ie_ins pe_id pe_value].
    rewrite app_assoc. exact (tliv_more _ _ _ _ t Ht).
Qed.
Print Assumptions C92_element_refuted.

(* So, if the octets are those of elements X, a receiver has these elements, which the sender never put into the list. *)
Theorem C92_smuggled_refuted : forall m A x X y B, Forall (fun e => ie_wf e /\ routed e) (A ++ x :: X ++ B) ->
  lengthened x (encoder X) = Some y -> nlen (encoder X) mod 65536 = 0 ->
  decoder m (encoder (A ++ y :: B)) = Ok (A ++ x :: X ++ B).
Proof.
  intros m A x X y B W Hy Ht. rewrite <- (C18_ie_list_roundtrip m _ W). f_equal. unfold encoder.
  rewrite !map_app, !concat_app. cbn [map concat]. rewrite (C92_element_refuted x _ y Hy Ht), map_app, concat_app. unfold encoder. rewrite <- !app_assoc. reflexivity.
Qed.
Print Assumptions C92_smuggled_refuted.

(* A message with such an element is sent as the octets of the message that has the other elements as well. *)
Theorem C92_same_octets_refuted : forall d s z A x X y B, msg_header s = msg_header z ->
  tovec d (msg_fields s) = A ++ y :: B -> tovec d (msg_fields z) = A ++ x :: X ++ B ->
  lengthened x (encoder X) = Some y -> nlen (encoder X) mod 65536 = 0 ->
  msg_marshal d s [] = msg_marshal d z [].
Proof.
  intros d s z A x X y B Hh Hs Hz Hy Ht. unfold msg_marshal. rewrite Hh, Hs, Hz. f_equal. f_equal. f_equal. unfold encoder.
  rewrite !map_app, !concat_app. cbn [map concat]. rewrite (C92_element_refuted x _ y Hy Ht), map_app, concat_app. unfold encoder. rewrite <- !app_assoc. reflexivity.
Qed.
Print Assumptions C92_same_octets_refuted.

(* What the receiver of such a message has, the length field of the message being too short for all of it: the elements before, the element
   itself with its first octets, and then what the other octets begin with instead of the elements that were to follow. *)
Theorem C92_replaced_refuted : forall d L s z m A x t y B X r, In (d, L) gtpv2_messages -> well_formed d L z ->
  (md_name d = "ModifyBearerCommand"%string -> (length (nth 1 (msg_fields z) []) <= 1)%nat) -> counted z < 65536 ->
  msg_header s = msg_header z -> tovec d (msg_fields s) = A ++ y :: B -> tovec d (msg_fields z) = A ++ x :: X ->
  lengthened x t = Some y -> nlen t mod 65536 = 0 -> t ++ encoder B = encoder X ++ r -> nlen (encoder X) = nlen (encoder B) ->
  msg_unmarshal d m (msg_marshal d s []) = Ok (as_received z).
Proof.
  intros d L s z m A x t y B X r H W BC C Hh Hs Hz Hy Ht He Hn.
  assert (E : msg_marshal d s [] = msg_marshal d z [] ++ r).
  { unfold msg_marshal. cbn [app]. rewrite Hh, Hs, Hz, !set_length_marshal, <- app_assoc.
    assert (E1 : encoder (A ++ y :: B) = encoder (A ++ x :: X) ++ r).
    { unfold encoder. rewrite !map_app, !concat_app. cbn [map concat]. rewrite (C92_element_refuted x t y Hy Ht). rewrite <- !app_assoc. f_equal. f_equal. exact He. }
    rewrite E1. f_equal. f_equal. f_equal.
    assert (En : nlen r = nlen t). { apply (f_equal (@List.length N)) in He. rewrite !app_length in He. unfold nlen in Hn |- *. lia. }
    replace (nlen (encoder (A ++ x :: X) ++ r)) with (nlen (encoder (A ++ x :: X)) + nlen r) by (unfold nlen; rewrite app_length; lia).
    rewrite N.add_assoc, En, N.add_mod, Ht, N.add_0_r, N.mod_mod by discriminate. reflexivity. }
  rewrite E. exact (C26_round_trip_partial d L z m r H W BC C).
Qed.
Print Assumptions C92_replaced_refuted.

(* A delete session request from an MME with protocol configuration options of 65539 octets: the receiver has it from an SGSN, with three octets. *)
Definition pco3 : ie := IE_Pco (mkIe 78 3 0 [128; 0; 1]).
Definition from_node (n : Node) : ie := IE_NodeType (mkIe 135 1 0 n).
Definition zeros : list N := repeat 0 (N.to_nat 65531).
Definition hidden : list N := encoder [from_node Node_Sgsn] ++ zeros.
Definition delete_session (p : ie) (n : Node) : message := mkMsg (mkHdr2 36 false (Some 5) 0 (Some 7) 42)
  (fill ly_deletesessionreq [("linked_ebi", [IE_Ebi (mkIe 73 1 0 5)]); ("pco", [p]); ("orig_node", [from_node n])]%string).
Lemma hidden_size : nlen hidden = 65536.
Proof. unfold hidden, zeros, nlen. rewrite app_length, repeat_length. change (length (encoder [from_node Node_Sgsn])) with 5%nat. lia. Qed.
Example C92_case : exists p, lengthened pco3 hidden = Some p /\
  forall m, msg_unmarshal md_deletesessionreq m (msg_marshal md_deletesessionreq (delete_session p Node_Mme) []) =
    Ok (as_received (delete_session pco3 Node_Sgsn)).
Proof.
  eexists. split; [reflexivity|]. intros m.
  eapply (C92_replaced_refuted md_deletesessionreq ly_deletesessionreq _ (delete_session pco3 Node_Sgsn) m
    [IE_Ebi (mkIe 73 1 0 5)] pco3 hidden _ [from_node Node_Mme] [from_node Node_Sgsn] (zeros ++ encoder [from_node Node_Mme])).
  - listed.
  - wf_msg.
  - discriminate.
  - vm_compute. reflexivity.
  - reflexivity.
  - reflexivity.
  - reflexivity.
  - reflexivity.
  - rewrite hidden_size. reflexivity.
  - unfold hidden. rewrite <- app_assoc. reflexivity.
  - reflexivity.
Qed.
(* Elements with free contents, and elements of 65536 octets to hide: two private extensions of 32768 octets. *)
Definition filler : ie := IE_PrivateExtension (mkIe 255 32764 0 (mkPrivateExt 10415 (repeat 7 (N.to_nat 32762)))).
Lemma filler_wf : ie_wf filler /\ routed filler.
Proof.
  split; [|exact I]. unfold filler. cbn [ie_wf]. unfold PrivateExtension_wf, wf_ie. cbn [ie_t ie_ins ie_length ie_v].
  assert (Z : nlen (PrivateExtension_value (mkPrivateExt 10415 (repeat 7 (N.to_nat 32762)))) = 32764).
  { unfold PrivateExtension_value, nlen. cbn [pe_id pe_value]. rewrite app_length, repeat_length. change (length (enc_be 2 10415)) with 2%nat. lia. }
  rewrite Z. split; [reflexivity|]. split; [reflexivity|]. split; [reflexivity|]. split; [discriminate|]. split; [reflexivity|].
  cbn [pe_value]. intros E. apply (f_equal (@length N)) in E. rewrite repeat_length in E. cbn [length] in E. lia.
Qed.
Example C92_smuggled_case : exists p, lengthened pco3 (encoder [filler; filler]) = Some p /\
  forall m, decoder m (encoder [p; from_node Node_Mme]) = Ok [pco3; filler; filler; from_node Node_Mme].
Proof.
  eexists. split; [reflexivity|]. intros m.
  refine (C92_smuggled_refuted m [] pco3 [filler; filler] _ [from_node Node_Mme] _ eq_refl _).
  - cbn [app]. repeat apply Forall_cons; try exact filler_wf; try apply Forall_nil; split; try exact I; wf_ies.
  - vm_compute. reflexivity.
Qed.
