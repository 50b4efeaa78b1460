(* V2Encode.v - the GTPv2-C encoders with the operations that can panic. The octets are those of V2Common.v - V2Msg.v;
   here the encoders in which something is indexed, sliced, subtracted or unwrapped are modelled once more with the
   panic as a result. What is left as it is: slices with constant bounds of arrays whose size is in their type
   ([to_be_bytes()[1..]], [octets()[..8]]), and [partial_cmp(..).unwrap()] in uli.rs 62, whose argument is Some because
   the derived order compares integers and booleans. The encoders of all other elements contain no operation that can
   panic except set_tliv_ie_length and mcc_mnc_encode, so that their octets are [Ok]. *)
From Verif Require Import Base Encode V2Base V2Common V2IeA V2IeB V2IeC V2IeD V2IeE V2IeF V2Decoder V2Msg.
Local Open Scope N_scope.

(* utils.rs 193-197, 201-205 *)
Definition set_msg_length_checked (m : mode) (b : list N) : res (list N) := set_size m 4 2 b.
Definition set_tliv_ie_length_checked (m : mode) (b : list N) : res (list N) := set_size m 4 1 b.
(* the common body of the elements' [marshal] *)
Definition marshal_checked {A} (m : mode) (T : N) (value : mode -> A -> res (list N)) (x : Tliv A) : res (list N) :=
  let? v := value m (ie_v x) in
  set_tliv_ie_length_checked m ([T] ++ enc16 (ie_length x) ++ [ie_ins x] ++ v).

(* fcontainer.rs 54-92 *)
Definition Fcontainer_checked (m : mode) (v : container) : res (list N) :=
  match v with
  | FcReserved => Ok [0] | FcUtran i => Ok (1 :: i) | FcBss i => Ok (2 :: i) | FcEutran i => Ok (3 :: i)
  | FcNbifom i => Ok (4 :: i) | FcEnDc i => Ok (5 :: i) | FcInterSystemSON i => Ok (6 :: i)
  | FcUnknown i => let? x := at_ i 0 in let? r := slice_from i 1 in Ok (x :: r)
  end.
(* maxpacketlossrate.rs 45-71 *)
Definition MaxPacketLossRate_checked (m : mode) (v : max_loss) : res (list N) :=
  match is_some (ml_dl v), is_some (ml_ul v) with
  | false, false => Ok [0]
  | false, true => let? u := unwrap (ml_ul v) in Ok (1 :: enc_be 2 u)
  | true, false => let? d := unwrap (ml_dl v) in Ok (2 :: enc_be 2 d)
  | true, true => let? u := unwrap (ml_ul v) in let? d := unwrap (ml_dl v) in Ok (3 :: enc_be 2 u ++ enc_be 2 d)
  end.
(* mbmssa.rs 41-59 *)
Definition MbmsServiceArea_checked (m : mode) (v : list N) : res (list N) :=
  if (length v =? 0)%nat then Ok [0; 0; 0]
  else let? n := sub_usize m (nlen v) 1 in Ok (n mod 256 :: enc_all (enc_be 2) v).
(* praa.rs 66-169 *)
Definition cap {A} (l : list A) (n : nat) : nat := if (length l <=? n)%nat then length l else n.
Definition PresenceReportingAreaAction_checked (m : mode) (v : praa) : res (list N) :=
  let? tai := upto (pa_tai v) (cap (pa_tai v) 15) in
  let? rai := upto (pa_rai v) (cap (pa_rai v) 15) in
  let? mac := upto (pa_macro v) (cap (pa_macro v) 63) in
  let? home := upto (pa_home v) (cap (pa_home v) 63) in
  let? ecgi := upto (pa_ecgi v) (cap (pa_ecgi v) 63) in
  let? sai := upto (pa_sai v) (cap (pa_sai v) 63) in
  let? cgi := upto (pa_cgi v) (cap (pa_cgi v) 63) in
  let? ext := upto (pa_ext v) (cap (pa_ext v) 63) in
  Ok (N.lor (flag (pa_inapra v) 8) (pa_action v) :: enc_be 3 (pa_prai v) ++
  [16 * nlen tai + nlen rai; nlen mac; nlen home; nlen ecgi; nlen sai; nlen cgi] ++
  enc_all Tai_enc tai ++ enc_all MacroEnbId_enc mac ++ enc_all MacroEnbId_enc home ++
  enc_all Ecgi_enc ecgi ++ enc_all Rai_enc rai ++ enc_all Sai_enc sai ++ enc_all Cgi_enc cgi ++
  nlen ext :: enc_all ExtMacroEnbId_enc ext).
(* prai.rs 24-43 *)
Definition area_octets (a : presence_area) : list N :=
  match a with Inapra j => enc_be 3 j ++ [8] | Ipra j => enc_be 3 j ++ [1] | Opra j => enc_be 3 j ++ [2] end.
(* prai.rs 92-94 and 97-99: the last octet of the buffer is marked; its place is the new cursor *)
Definition mark_last (m : mode) (b : list N) : res (list N * nat) :=
  let? k := sub_usize m (nlen b) 1 in
  let? x := at_ b (N.to_nat k) in
  let? b := put b (N.to_nat k) (N.lor x 4) in Ok (b, N.to_nat k).
(* prai.rs 95-100 *)
Fixpoint mark_areas (m : mode) (b : list N) (cursor : nat) (l : list presence_area) : res (list N * nat) :=
  match l with
  | [] => Ok (b, cursor)
  | k :: r => let? (b, c) := mark_last m (b ++ area_octets k) in mark_areas m b c r
  end.
(* prai.rs 85-106; [head] is what buffer_ie holds before the value *)
Definition PresenceReportingAreaInformation_buffer (m : mode) (head : list N) (v : prai) : res (list N) :=
  let b := head ++ area_octets (pr_area v) in
  match pr_more v with
  | None => Ok b
  | Some l =>
      let? (b, c) := mark_last m b in
      let? (b, c) := mark_areas m b c l in
      let? x := at_ b c in put b c (N.land x 11)
  end.
Definition PresenceReportingAreaInformation_marshal_checked (m : mode) (x : Tliv prai) : res (list N) :=
  let? b := PresenceReportingAreaInformation_buffer m ([178] ++ enc16 (ie_length x) ++ [ie_ins x]) (ie_v x) in
  set_tliv_ie_length_checked m b.
(* targetid.rs 26-34, 686-695 *)
Definition RncIdentifier_checked (m : mode) (v : rnc_id) : res (list N) :=
  let rai := Rai_enc (rn_rai v) in
  let? n := sub_usize m (nlen rai) 1 in
  let? s := slice rai 0 (N.to_nat n) in
  Ok (s ++ enc_be 2 (rn_id v) ++ opt_be 2 (rn_ext v)).
Definition TargetIdentification_checked (m : mode) (v : target_type) : res (list N) :=
  match v with
  | Tt_Rnc i => let? s := RncIdentifier_checked m i in Ok (target_type_to v :: s)
  | _ => Ok (target_type_to v :: target_type_enc v)
  end.

(* ie.rs 326-475 *)
Definition ie_marshal_checked (m : mode) (e : ie) : res (list N) :=
  match e with
  | IE_Fcontainer i => marshal_checked m 118 Fcontainer_checked i
  | IE_MaxPacketLossRate i => marshal_checked m 203 MaxPacketLossRate_checked i
  | IE_MbmsSa i => marshal_checked m 139 MbmsServiceArea_checked i
  | IE_PresenceReportingAreaAction i => marshal_checked m 177 PresenceReportingAreaAction_checked i
  | IE_PresenceReportingAreaInformation i => PresenceReportingAreaInformation_marshal_checked m i
  | IE_TargetIdentification i => marshal_checked m 121 TargetIdentification_checked i
  | _ => Ok (ie_marshal e)
  end.
(* ie.rs 477-481 *)
Fixpoint encoder_checked (m : mode) (l : list ie) : res (list N) :=
  match l with
  | [] => Ok []
  | e :: r => let? o := ie_marshal_checked m e in let? q := encoder_checked m r in Ok (o ++ q)
  end.
(* updatebearerreq.rs 67-72 *)
Definition msg_marshal_checked (d : message_def) (m : mode) (x : message) (buffer : list N) : res (list N) :=
  let? o := encoder_checked m (tovec d (msg_fields x)) in
  set_msg_length_checked m (buffer ++ h2_marshal (msg_header x) ++ o).
