(* PropsV1UFill.v - C100 for GTPv1-U: the length that a program puts into an element or a header does not change what is
   sent; the length of an extension header is sent as given. *)
From Verif Require Import Base BaseFacts V1U.
Local Open Scope N_scope.

(* Headers and elements that differ at most in their length fields. *)
Definition but_length_h (h h' : Gtpv1Header) : Prop :=
  exists n, h' = mkHdr (msgtype h) n (teid h) (sequence_number h) (npdu_number h) (extension_headers h).
Definition but_length_p (p p' : option PrivateExtension) : Prop :=
  match p, p' with Some p, Some p' => exists n, p' = mkPe (pe_t p) n (pe_id p) (pe_value p) | None, None => True | _, _ => False end.
Definition but_length_g (g g' : GsnAddress) : Prop := exists n, g' = mkGsn (gsn_t g) n (gsn_ip g).
Definition but_length_l (l l' : ExtensionHeaderTypeList) : Prop := exists n, l' = mkEhtl (ehtl_t l) n (ehtl_list l).

Lemma fill_p p p' : but_length_p p p' -> opt_bytes Pe_marshal p' = opt_bytes Pe_marshal p.
Proof. destruct p, p'; cbn [but_length_p]; intros H; try contradiction; [|reflexivity]. destruct H as [n ->]. reflexivity. Qed.
Lemma fill_g g g' : but_length_g g g' -> Gsn_marshal g' = Gsn_marshal g.
Proof. intros [n ->]. reflexivity. Qed.
Lemma fill_l l l' : but_length_l l l' -> Ehtl_marshal l' = Ehtl_marshal l.
Proof. intros [n ->]. reflexivity. Qed.
Lemma fill_h h h' o : but_length_h h h' -> set_length (hdr_marshal h' ++ o) = set_length (hdr_marshal h ++ o).
Proof. intros [n ->]. reflexivity. Qed.

(* An echo request or end marker, an echo response, an error indication, a data packet, a list of supported extensions. *)
Theorem C100_u_message : forall h h' p p' g g' l l' r t d,
  but_length_h h h' -> but_length_p p p' -> but_length_g g g' -> but_length_l l l' ->
  Simple_marshal (mkSimple h' p') [] = Simple_marshal (mkSimple h p) [] /\
  EchoResponse_marshal (mkEchoResp h' r p') [] = EchoResponse_marshal (mkEchoResp h r p) [] /\
  ErrorIndication_marshal (mkErrInd h' t g' p') [] = ErrorIndication_marshal (mkErrInd h t g p) [] /\
  Gpdu_marshal (mkGpdu h' d) [] = Gpdu_marshal (mkGpdu h d) [] /\
  SupExtNotif_marshal (mkSup h' l') [] = SupExtNotif_marshal (mkSup h l) [].
Proof.
  intros h h' p p' g g' l l' r t d Hh Hp Hg Hl.
  unfold Simple_marshal, EchoResponse_marshal, ErrorIndication_marshal, Gpdu_marshal, SupExtNotif_marshal.
  cbn [app sm_header sm_private_ext er_header er_recovery er_private_ext ei_header ei_teid ei_peer ei_private gp_header gp_tpdu sn_header sn_list].
  rewrite (fill_p _ _ Hp), (fill_g _ _ Hg), (fill_l _ _ Hl). repeat split; apply fill_h, Hh.
Qed.
Print Assumptions C100_u_message.

(* REMARK: the first two octets of an extension header are the type and the length it was given, right or wrong. *)
Theorem C100_u_extension_length_sent : forall e, e <> NoMoreExtensionHeaders -> exists r,
  ext_marshal e =
    match e with
    | NoMoreExtensionHeaders => []
    | EH_PDCPPDUNumber x | EH_UDPPort x | EH_LongPDCPPDUNumber x | EH_Sci x => [ne_type x; ne_length x]
    | EH_RanContainer x | EH_XwRanContainer x | EH_NrRanContainer x | EH_PduSessionContainer x | EH_Unknown x => [be_type x; be_length x]
    end ++ r.
Proof. intros e H. destruct e; [contradiction|..]; eexists; reflexivity. Qed.
Print Assumptions C100_u_extension_length_sent.

(* A data packet of two octets and an error indication, with any lengths. *)
Example C100_u_case : forall k n j,
  Gpdu_marshal (mkGpdu (mkHdr 255 k 7 None None None) [5; 6]) [] = [48; 255; 0; 2; 0; 0; 0; 7; 5; 6] /\
  ErrorIndication_marshal (mkErrInd (mkHdr 26 k 0 (Some 9) None None) (mkTeid 16 7) (mkGsn 133 n (V4 10 0 0 1))
                                    (Some (mkPe 255 j 8 [1]))) [] =
    [50; 26; 0; 22; 0; 0; 0; 0; 0; 9; 0; 0; 16; 0; 0; 0; 7; 133; 0; 4; 10; 0; 0; 1; 255; 0; 3; 0; 8; 1].
Proof. intros k n j. split; reflexivity. Qed.
