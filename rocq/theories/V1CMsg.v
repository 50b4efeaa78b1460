(* V1CMsg.v - the GTPv1-C messages: src/gtpv1/gtpc/messages. Sixteen of the twenty files
   follow one scheme, described here once and instantiated by the tables of V1CTables.v:
   marshal writes the header and the fields in a fixed order and calls set_length; unmarshal
   reads the header, checks type and length, and walks over information elements in a loop
   with a HashMap of occurrence counts. The other four (echo request and response, version not
   supported, supported extension headers notification) are at the end of this file. *)
From Verif Require Import Base.
From Verif Require Export V1CKind.
Local Open Scope N_scope.

(* A field of the Rust struct: the kind of element it holds, and its value in
   Default::default() (None for Option fields). Slots are listed in the order in which
   marshal writes them. *)
Record slot1 := mkSlot1 { s_kind : kind1; s_default : option ie1 }.
Notation opt1 k := (mkSlot1 k None).
Notation mand1 k d := (mkSlot1 k (Some d)).

(* What the arm of an element type does with the fields: store the first occurrence; store
   the first and, while the count is below 2, the next; store four by count. *)
Inductive arm_slots := One (s : nat) | Two (s1 s2 : nat) | Four (s1 s2 s3 s4 : nat).
(* What the arm returns when the element does not decode. *)
Inductive arm_err :=
| EMand   (* MessageMandatoryIEMissing *)
| EOpt    (* MessageOptionalIEIncorrect *)
| ENsapi  (* createpdpctxreq.rs: mandatory unless [increment] is already NSAPI *)
| EGsn.   (* updatepdpctxreq.rs: msg_hash.get().unwrap() < 3 => mandatory, else optional *)
Record arm1 := mkArm1 { a_type : N; a_kind : kind1; a_slots : arm_slots; a_err : arm_err }.

Record table1 := mkTable1 {
  t_msgtype : N; t_slots : list slot1; t_arms : list arm1;
  t_required : list N  (* element types whose count must be present at the end *) }.

(* The Rust struct: header and fields, in slot order. *)
Record Msg1 := mkMsg1 { m_header : CHdr; m_fields : list (option ie1) }.

Definition find_arm (arms : list arm1) (t : N) : option arm1 := find (fun a => a_type a =? t) arms.

(* marshal: the octets the header and fields append to the buffer, then set_length on the
   whole buffer *)
Definition msg1_octets (x : Msg1) : list N :=
  chdr_marshal (m_header x) ++ concat (map (opt_bytes ie1_marshal) (m_fields x)).
Definition msg1_marshal (x : Msg1) (b : list N) : list N := set_length (b ++ msg1_octets x).

(* HashMap<u8, u8> of occurrence counts *)
Definition counts1 := N -> option N.
Definition put1 (c : counts1) (t n : N) : counts1 := fun u => if u =? t then Some n else c u.

Fixpoint set_field (l : list (option ie1)) (i : nat) (x : ie1) : list (option ie1) :=
  match l, i with
  | [], _ => []
  | _ :: r, O => Some x :: r
  | y :: r, S i' => y :: set_field r i' x
  end.

(* which field an occurrence goes to; [n] is the count before it *)
Definition arm_target (a : arm_slots) (n : option N) : option nat :=
  match a, n with
  | One s, None | Two s _, None | Four s _ _ _, None => Some s
  | One _, Some _ => None
  | Two _ s2, Some n => if n <? 2 then Some s2 else None
  | Four _ s2 s3 s4, Some n =>
      if n =? 1 then Some s2 else if n =? 2 then Some s3 else if n =? 3 then Some s4 else None
  end.

(* the count after it: insert(t, 1), or n + 1 on u8 *)
Definition next_count (m : mode) (n : option N) : res N :=
  match n with None => Ok 1 | Some n => add8 m n 1 end.

Definition arm_error (e : arm_err) (increment : N) (n : option N) : res GTPV1Error :=
  match e with
  | EMand => Ok MessageMandatoryIEMissing
  | EOpt => Ok MessageOptionalIEIncorrect
  | ENsapi => if increment =? NSAPI then Ok MessageOptionalIEIncorrect else Ok MessageMandatoryIEMissing
  | EGsn => match n with
            | None => Panic
            | Some n => if n <? 3 then Ok MessageMandatoryIEMissing else Ok MessageOptionalIEIncorrect
            end
  end.

(* The loop. It runs to the end of the buffer, not of the message. Fuel counts iterations. *)
Fixpoint msg1_loop (T : table1) (m : mode) (fuel : nat) (b : list N)
    (cursor : nat) (increment : N) (c : counts1) (fs : list (option ie1))
    : res (counts1 * list (option ie1)) :=
  match fuel with
  | O => Diverge
  | S fuel' =>
    if (length b <=? cursor)%nat then Ok (c, fs)
    else
      let? t := at_ b cursor in
      if t <? increment then Err MessageInvalidMessageFormat
      else
        match find_arm (t_arms T) t with
        | None => Err MessageInvalidMessageFormat
        | Some a =>
          let? rest := slice_from b cursor in
          match ie1_unmarshal (a_kind a) m rest with
          | Ok i =>
              let? n := next_count m (c t) in
              let? l := ie1_len m i in
              let fs' := match arm_target (a_slots a) (c t) with
                         | Some s => set_field fs s i
                         | None => fs
                         end in
              msg1_loop T m fuel' b (cursor + l) t (put1 c t n) fs'
          | Err _ => let? e := arm_error (a_err a) increment (c t) in Err e
          | Panic => Panic
          | Diverge => Diverge
          end
        end
  end.

Definition msg1_unmarshal (T : table1) (m : mode) (b : list N) : res Msg1 :=
  let? h := chdr_unmarshal m b in
  if negb (c_msgtype h =? t_msgtype T) then Err MessageIncorrectMessageType
  else
    let? s := add16 m (c_length h) 8 in
    if (N.to_nat s <=? length b)%nat then
      let? cursor := chdr_len m h in
      let? r := msg1_loop T m (S (length b)) b cursor 0 (fun _ => None)
                  (map s_default (t_slots T)) in
      if forallb (fun t => is_some (fst r t)) (t_required T)
      then Ok (mkMsg1 h (snd r)) else Err MessageMandatoryIEMissing
    else Err MessageLengthError.

(* ------------------------------------------------------------------------- *)
(* versionnotsupported.rs 9-44: header only *)
Definition C_VERSION_NOT_SUPPORTED : N := 3.
Definition Vns_marshal (h : CHdr) (b : list N) : list N := set_length (b ++ chdr_marshal h).
Definition Vns_unmarshal (m : mode) (b : list N) : res CHdr :=
  let? h := chdr_unmarshal m b in
  if c_msgtype h =? C_VERSION_NOT_SUPPORTED then Ok h else Err MessageIncorrectMessageType.

(* echoreq.rs 9-59 *)
Record CEchoReq := mkCEchoReq { ceq_header : CHdr; ceq_pe : option (Tlv PeV) }.
Definition CEchoReq_marshal (x : CEchoReq) (b : list N) : list N :=
  set_length (b ++ chdr_marshal (ceq_header x) ++ opt_bytes (tlv_marshal CPe_value) (ceq_pe x)).
Definition CEchoReq_unmarshal (m : mode) (b : list N) : res CEchoReq :=
  let? h := chdr_unmarshal m b in
  if c_msgtype h =? ECHO_REQUEST then
    if (N.to_nat (c_length h) <? length b)%nat then
      let? s := chdr_len m h in
      let? r := slice_from b s in
      let? o := optional (CPe_unmarshal m r) in
      Ok (mkCEchoReq h o)
    else Ok (mkCEchoReq h None)
  else Err MessageIncorrectMessageType.

(* echoresp.rs 9-83 *)
Record CEchoResp := mkCEchoResp { cer_header : CHdr; cer_recovery : Tv N; cer_pe : option (Tlv PeV) }.
Definition CEchoResp_marshal (x : CEchoResp) (b : list N) : list N :=
  set_length (b ++ chdr_marshal (cer_header x) ++ CRecovery_marshal (cer_recovery x)
                ++ opt_bytes (tlv_marshal CPe_value) (cer_pe x)).
Definition CEchoResp_unmarshal (m : mode) (b : list N) : res CEchoResp :=
  let? h := chdr_unmarshal m b in
  if c_msgtype h =? ECHO_RESPONSE then
    if (N.to_nat (c_length h) + 4 <? length b)%nat then
      let? cursor := chdr_len m h in
      if (cursor <? length b)%nat then
        let? t := at_ b cursor in
        if t =? RECOVERY then
          let? r := slice_from b cursor in
          let? rec := CRecovery_unmarshal r in
          let cursor := (cursor + 2)%nat in
          if (cursor <? length b)%nat then
            let? r := slice_from b cursor in
            let? o := optional (CPe_unmarshal m r) in
            Ok (mkCEchoResp h rec o)
          else Ok (mkCEchoResp h rec None)
        else Err MessageMandatoryIEMissing
      else Err MessageMandatoryIEMissing
    else Err MessageLengthError
  else Err MessageIncorrectMessageType.

(* supportedexthdrnotification.rs 9-73 *)
Record CSup := mkCSup { cs_header : CHdr; cs_list : Tlv (list N) }.
Definition CSup_marshal (x : CSup) (b : list N) : list N :=
  set_length (b ++ chdr_marshal (cs_header x) ++ CEhtl_marshal (cs_list x)).
Definition CSup_unmarshal (m : mode) (b : list N) : res CSup :=
  let? h := chdr_unmarshal m b in
  if negb (c_msgtype h =? SUPPORTED_EXTENSION_HEADERS_NOTIFICATION)
  then Err MessageIncorrectMessageType
  else
    let? tot := add16 m (c_length h) 8 in
    if (N.to_nat tot <=? length b)%nat then
      let? hs := chdr_len m h in
      if (hs =? length b)%nat then Err MessageMandatoryIEMissing
      else
        let? t := at_ b hs in
        if t =? EXTENSION_HEADER_TYPE_LIST then
          let? r := slice_from b hs in
          match CEhtl_unmarshal m r with
          | Ok i => Ok (mkCSup h i)
          | Err _ => Err MessageMandatoryIEMissing
          | Panic => Panic | Diverge => Diverge
          end
        else Err MessageInvalidMessageFormat
    else Err MessageLengthError.
