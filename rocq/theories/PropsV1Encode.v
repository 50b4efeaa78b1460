(* PropsV1Encode.v - C76 for GTPv1: encoding a header, an element or a message never panics, in either build, for all
   values of their fields; the octets are those of the other theorems. *)
From Verif Require Import Base Encode V1U V1CHdr V1CIe V1CKind V1CMsg V1Encode.
Local Open Scope N_scope.

(* The flag elements are Rust arrays of eight booleans. *)
Definition eight_flags (i : ie1) : Prop :=
  match i with I1_CommonFlags x | I1_ExtCommonFlags x => length (tlv_v x) = 8%nat | _ => True end.

(* --- proofs --------------------------------------------------------------------------------------------------- *)
Lemma length_set m b : (8 <= length b)%nat -> set_length_checked m b = Ok (set_length b).
Proof. intros H. unfold set_length_checked. rewrite set_size_ok by (unfold nlen; lia). reflexivity. Qed.
Lemma ie_length_set m b : (3 <= length b)%nat -> set_tlv_ie_length_checked m b = Ok (set_tlv_ie_length b).
Proof. intros H. unfold set_tlv_ie_length_checked. rewrite set_size_ok by (unfold nlen; lia). reflexivity. Qed.
Lemma hdr_safe m h : hdr_checked m h = Ok (hdr_marshal h).
Proof.
  unfold hdr_checked, hdr_marshal. destruct (sequence_number h), (npdu_number h), (extension_headers h); cbn [is_some unwrap bind];
    rewrite ?app_nil_r, <- ?app_assoc; reflexivity.
Qed.
Lemma hdr_size h : (8 <= length (hdr_marshal h))%nat.
Proof. unfold hdr_marshal. rewrite !app_length. cbn. lia. Qed.
Lemma chdr_size h : (8 <= length (chdr_marshal h))%nat.
Proof. unfold chdr_marshal. rewrite ?app_length. cbn. lia. Qed.
Lemma pe_safe m x : Pe_checked m x = Ok (Pe_marshal x).
Proof. apply ie_length_set. rewrite !app_length. cbn. lia. Qed.
Lemma gsn_safe m x : Gsn_checked m x = Ok (Gsn_marshal x).
Proof. apply ie_length_set. rewrite !app_length. cbn. lia. Qed.
Lemma opt_safe {A} (f : A -> res (list N)) g o : (forall x, f x = Ok (g x)) -> opt_checked f o = Ok (opt_bytes g o).
Proof. intros H. destruct o; [apply H|reflexivity]. Qed.
Lemma type_list_safe m t n l : type_list_checked m t n l = Ok (set_nth ([t; n] ++ l) 1 ((nlen ([t; n] ++ l) - 2) mod 256)).
Proof.
  unfold type_list_checked, sub_usize. replace (2 <=? nlen ([t; n] ++ l)) with true by (symmetry; apply N.leb_le; unfold nlen; cbn; lia).
  cbn [bind]. reflexivity.
Qed.
Ltac room := rewrite ?app_length; (pose proof hdr_size as SH; pose proof chdr_size as SC);
  match goal with
  | |- context [hdr_marshal ?h] => specialize (SH h); lia
  | |- context [chdr_marshal ?h] => specialize (SC h); lia
  end.

Lemma flags_safe m v : length v = 8%nat -> Flags8_checked m v = Ok (Flags_value v).
Proof.
  intros H. do 8 (destruct v as [|? v]; [discriminate H|]). destruct v; [|discriminate H].
  destruct m; destruct b, b0, b1, b2, b3, b4, b5, b6; reflexivity.
Qed.
Lemma plmn_safe p : plmn_checked p = Ok (plmn_octets p).
Proof. destruct p as [[mcc mnc] three]. apply mcc_mnc_encode_safe. Qed.
Lemma tlv_safe {A} m (f : mode -> A -> res (list N)) g x : f m (tlv_v x) = Ok (g (tlv_v x)) -> tlv_checked m f x = Ok (tlv_marshal g x).
Proof.
  intros H. unfold tlv_checked. rewrite H. cbn [bind]. apply ie_length_set. rewrite !app_length. cbn. lia.
Qed.
Lemma ie1_safe m i : eight_flags i -> ie1_checked m i = Ok (ie1_marshal i).
Proof.
  intros H. destruct i; try reflexivity; cbn [ie1_checked ie1_marshal eight_flags] in *;
    try (apply tlv_safe; reflexivity); try (apply tlv_safe; apply flags_safe; exact H).
  - unfold Rai_checked. rewrite plmn_safe. reflexivity.
  - apply tlv_safe. unfold Uli_checked. rewrite plmn_safe. reflexivity.
  - apply tlv_safe. unfold Uci_checked. rewrite plmn_safe. reflexivity.
Qed.
Lemma fields_safe m l : (forall i, In (Some i) l -> eight_flags i) -> fields_checked m l = Ok (concat (map (opt_bytes ie1_marshal) l)).
Proof.
  induction l as [|o l IH]; intros H; [reflexivity|]. cbn [fields_checked map concat].
  assert (E : opt_checked (ie1_checked m) o = Ok (opt_bytes ie1_marshal o)).
  { destruct o as [i|]; [|reflexivity]. apply ie1_safe, H. left. reflexivity. }
  rewrite E. cbn [bind]. rewrite IH by (intros i K; apply H; right; exact K). reflexivity.
Qed.

(* --- C76 -------------------------------------------------------------------------------------------------------- *)
(* A GTP-U header and the five kinds of GTP-U messages, into a buffer [b] that may already hold octets. *)
Theorem C76_gtpu_messages : forall m b,
  (forall h, hdr_checked m h = Ok (hdr_marshal h)) /\
  (forall x, Simple_checked m x b = Ok (Simple_marshal x b)) /\
  (forall x, EchoResponse_checked m x b = Ok (EchoResponse_marshal x b)) /\
  (forall x, ErrorIndication_checked m x b = Ok (ErrorIndication_marshal x b)) /\
  (forall x, Gpdu_checked m x b = Ok (Gpdu_marshal x b)) /\
  (forall x, SupExtNotif_checked m x b = Ok (SupExtNotif_marshal x b)).
Proof.
  intros m b. split; [intros h; apply hdr_safe|]. split; [|split; [|split; [|split]]]; intros x.
  - unfold Simple_checked. rewrite hdr_safe, (opt_safe _ Pe_marshal) by apply pe_safe. cbn [bind]. apply length_set. room.
  - unfold EchoResponse_checked. rewrite hdr_safe, (opt_safe _ Pe_marshal) by apply pe_safe. cbn [bind]. apply length_set. room.
  - unfold ErrorIndication_checked. rewrite hdr_safe, gsn_safe, (opt_safe _ Pe_marshal) by apply pe_safe. cbn [bind]. apply length_set. room.
  - unfold Gpdu_checked. rewrite hdr_safe. cbn [bind]. apply length_set. room.
  - unfold SupExtNotif_checked. rewrite hdr_safe, type_list_safe. cbn [bind]. apply length_set. room.
Qed.
(* Every GTPv1-C element, with all the values its fields can have. *)
Theorem C76_gtpc_elements : forall m i, eight_flags i -> ie1_checked m i = Ok (ie1_marshal i).
Proof. exact ie1_safe. Qed.
(* Every GTPv1-C message. *)
Theorem C76_gtpc_messages : forall m b,
  (forall x, (forall i, In (Some i) (m_fields x) -> eight_flags i) -> msg1_checked m x b = Ok (msg1_marshal x b)) /\
  (forall h, Vns_checked m h b = Ok (Vns_marshal h b)) /\
  (forall x, CEchoReq_checked m x b = Ok (CEchoReq_marshal x b)) /\
  (forall x, CEchoResp_checked m x b = Ok (CEchoResp_marshal x b)) /\
  (forall x, CSup_checked m x b = Ok (CSup_marshal x b)).
Proof.
  intros m b. split; [|split; [|split; [|split]]]; intros x.
  - intros H. unfold msg1_checked. rewrite fields_safe by exact H. cbn [bind]. apply length_set. room.
  - apply length_set. room.
  - unfold CEchoReq_checked. rewrite (opt_safe _ (tlv_marshal CPe_value)) by (intros p; apply tlv_safe; reflexivity). cbn [bind].
    apply length_set. room.
  - unfold CEchoResp_checked. rewrite (opt_safe _ (tlv_marshal CPe_value)) by (intros p; apply tlv_safe; reflexivity). cbn [bind].
    apply length_set. room.
  - unfold CSup_checked. rewrite type_list_safe. cbn [bind]. apply length_set. room.
Qed.

(* A user who calls set_length on a buffer that is too short does get the panic: the operations are modelled. *)
Example C76_witness_gtpv1 : forall m,
  set_length_checked Debug [1; 2; 3; 4; 5; 6; 7] = Panic /\
  set_length_checked m [1; 2; 3] = Panic /\
  ie1_checked m (I1_CommonFlags (mkTlv COMMONFLAGS 1 [true; false; false; false; false; false; true; true])) = Ok [148; 0; 1; 131] /\
  Flags8_checked Debug [true; false; false; false; false; false; true; true; true] = Panic.
Proof. intros m. destruct m; repeat split; vm_compute; reflexivity. Qed.
Print Assumptions C76_gtpu_messages.
Print Assumptions C76_gtpc_elements.
Print Assumptions C76_gtpc_messages.
