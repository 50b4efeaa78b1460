(* V1CHdr.v - the GTPv1-C header and its extension headers: src/gtpv1/gtpc/header.rs and
   src/gtpv1/gtpc/extensionheaders. The struct shapes NumExt (type, length, u16 value) and
   BlobExt (type, length, octets) and their marshal and unmarshal are those of V1U.v: the
   files of gtpc/extensionheaders contain the same code as the corresponding ones of gtpu. *)
From Verif Require Import Base.
From Verif Require Export V1U.
Local Open Scope N_scope.

(* extension header types: pdcppdunumber.rs 3, suspendrequest.rs 3, suspendresponse.rs 3,
   mbmssupportindication.rs 3, msicrsi.rs 3 *)
Definition C_PDCP_PDU_NUMBER : N := 192.
Definition C_SUSPEND_REQUEST : N := 193.
Definition C_SUSPEND_RESPONSE : N := 194.
Definition C_MBMS_SUPPORT_INDICATION : N := 1.
Definition C_MS_INFO_CHANGE_REPORTING : N := 2.

(* header.rs 8-17 *)
Inductive CExt :=
| CX_NoMore
| CX_PDCPPDUNumber (x : NumExt)
| CX_SuspendRequest (x : NumExt)
| CX_SuspendResponse (x : NumExt)
| CX_MBMSSupportIndication (x : NumExt)
| CX_MSInfoChangeReporting (x : NumExt)
| CX_Unknown (x : BlobExt).

(* header.rs 20-50 *)
Definition cext_unmarshal (m : mode) (b : list N) : res CExt :=
  let? t := at_ b 0 in
  if t =? NO_MORE_EXTENSION_HEADERS then Ok CX_NoMore
  else if t =? C_PDCP_PDU_NUMBER then
    let? x := Num16_unmarshal C_PDCP_PDU_NUMBER m b in Ok (CX_PDCPPDUNumber x)
  else if t =? C_SUSPEND_REQUEST then
    let? x := Num16_unmarshal C_SUSPEND_REQUEST m b in Ok (CX_SuspendRequest x)
  else if t =? C_SUSPEND_RESPONSE then
    let? x := Num16_unmarshal C_SUSPEND_RESPONSE m b in Ok (CX_SuspendResponse x)
  else if t =? C_MBMS_SUPPORT_INDICATION then
    let? x := Num16_unmarshal C_MBMS_SUPPORT_INDICATION m b in Ok (CX_MBMSSupportIndication x)
  else if t =? C_MS_INFO_CHANGE_REPORTING then
    let? x := Num16_unmarshal C_MS_INFO_CHANGE_REPORTING m b in Ok (CX_MSInfoChangeReporting x)
  else let? x := Unknown_unmarshal m b in Ok (CX_Unknown x).

(* header.rs 52-62 *)
Definition cext_marshal (e : CExt) : list N :=
  match e with
  | CX_NoMore => []
  | CX_PDCPPDUNumber x | CX_SuspendRequest x | CX_SuspendResponse x
  | CX_MBMSSupportIndication x | CX_MSInfoChangeReporting x => Num16_marshal x
  | CX_Unknown x => Blob_marshal x
  end.

(* header.rs 64-74; every [len] of the extension headers is (length * 4) as usize on u8 *)
Definition cext_len (m : mode) (e : CExt) : res nat :=
  match e with
  | CX_NoMore => Ok 1%nat
  | CX_PDCPPDUNumber x | CX_SuspendRequest x | CX_SuspendResponse x
  | CX_MBMSSupportIndication x | CX_MSInfoChangeReporting x => ext_len_of m (ne_length x)
  | CX_Unknown x => ext_len_of m (be_length x)
  end.

(* header.rs 88-95 *)
Record CHdr := mkCHdr {
  c_msgtype : N; c_length : N; c_teid : N;
  c_sqn : option N; c_npdu : option N; c_ext : option (list CExt) }.

(* header.rs 189-201 *)
Definition c_flags (h : CHdr) : N :=
  let flags := if is_some (c_ext h) then 4 else 0 in
  let flags := if is_some (c_sqn h) then N.lor flags 2 else flags in
  let flags := if is_some (c_npdu h) then N.lor flags 1 else flags in
  N.lor flags 48.

(* header.rs 203-216: both branches of the emptiness test push the same octets *)
Definition c_marshal_ext (h : CHdr) : list N :=
  match c_ext h with
  | Some l => concat (map cext_marshal l) ++ [NO_MORE_EXTENSION_HEADERS]
  | None => [NO_MORE_EXTENSION_HEADERS]
  end.

(* header.rs 111-130, the octets appended *)
Definition chdr_marshal (h : CHdr) : list N :=
  [c_flags h; c_msgtype h] ++ enc16 (c_length h) ++ enc32 (c_teid h) ++
  (if negb (is_some (c_sqn h)) && negb (is_some (c_ext h)) && negb (is_some (c_npdu h)) then []
   else enc16 (match c_sqn h with Some s => s | None => 0 end)
        ++ [match c_npdu h with Some n => n | None => 0 end]
        ++ (if is_some (c_ext h) then c_marshal_ext h else [NO_MORE_EXTENSION_HEADERS])).

(* header.rs 218-234: the [loop]. Fuel counts iterations; running out of it is [Diverge]. *)
Fixpoint cext_loop (m : mode) (fuel : nat) (b : list N) (cursor : nat) (data : list CExt) : res (list CExt) :=
  match fuel with
  | O => Diverge
  | S fuel' =>
    let? rest := slice_from b cursor in
    let? i := cext_unmarshal m rest in
    match i with
    | CX_NoMore => Ok data
    | _ => let? l := cext_len m i in cext_loop m fuel' b (cursor + l) (data ++ [i])
    end
  end.
Definition c_unmarshal_ext (m : mode) (b : list N) : res (list CExt) :=
  cext_loop m (S (length b)) b 0 [].

(* header.rs 132-185 *)
Definition chdr_unmarshal (m : mode) (b : list N) : res CHdr :=
  if (length b <? 8)%nat then Err HeaderInvalidLength
  else
    let? b0 := at_ b 0 in
    if (N.shiftr b0 5 =? 1) && (N.land (N.shiftr b0 4) 1 =? 1) then
      let? mt := at_ b 1 in
      let? l1 := at_ b 2 in let? l2 := at_ b 3 in
      let? t1 := at_ b 4 in let? t2 := at_ b 5 in let? t3 := at_ b 6 in let? t4 := at_ b 7 in
      let len := be16 l1 l2 in
      let td := be32 t1 t2 t3 t4 in
      if N.land b0 7 =? 0 then Ok (mkCHdr mt len td None None None)
      else
        let e := N.land (N.shiftr b0 2) 1 in
        let s := N.land (N.shiftr b0 1) 1 in
        let pn := N.land b0 1 in
        let? sqn := (if s =? 1 then
                       let? r := slice_from b 8 in
                       if (length r <? 2)%nat then Err HeaderInvalidLength
                       else let? s1 := at_ b 8 in let? s2 := at_ b 9 in Ok (Some (be16 s1 s2))
                     else Ok None) in
        let? np := (if pn =? 1 then
                      let? r := slice_from b 8 in
                      if (length r <? 3)%nat then Err HeaderInvalidLength
                      else let? n := at_ b 10 in Ok (Some n)
                    else Ok None) in
        let? ex := (if e =? 1 then
                      let? r := slice_from b 8 in
                      if (length r <? 4)%nat then Err HeaderInvalidLength
                      else let? r := slice_from b 11 in let? l := c_unmarshal_ext m r in Ok (Some l)
                    else Ok None) in
        Ok (mkCHdr mt len td sqn np ex)
    else Err HeaderVersionNotSupported.

(* header.rs 236-299 *)
Fixpoint cext_len_sum (m : mode) (l : list CExt) : res nat :=
  match l with
  | [] => Ok 0%nat
  | e :: r => let? a := cext_len m e in let? s := cext_len_sum m r in Ok (a + s)%nat
  end.
Definition chdr_len (m : mode) (h : CHdr) : res nat :=
  match c_ext h with
  | Some l => let? s := cext_len_sum m l in Ok (8 + 2 + 1 + s + 1)%nat
  | None => if is_some (c_sqn h) || is_some (c_npdu h) then Ok (8 + 2 + 1 + 1)%nat else Ok 8%nat
  end.
