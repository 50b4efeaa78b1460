(* V2Msg.v - GTPv2-C messages. The 83 files of src/gtpv2/messages are all written to one pattern (the
   [Messages] trait of commons.rs 1-21, with the same marshal and unmarshal bodies); what differs is the
   message type, the fields, the order of tovec, the arms of fromvec and its final check. The pattern is
   modelled here once, the differing parts are the tables of V2MsgTables.v. Line numbers of the pattern are
   those of updatebearerreq.rs. *)
From Coq Require Import String.
From Verif Require Import Base.
From Verif Require Export V2Kind.
Local Open Scope N_scope.

(* the test an arm makes on the instance of the element: [j.ins == n], [j.ins < n] or none *)
Inductive ins_cond := InsIs (n : N) | InsBelow (n : N) | InsAny.
Definition ins_test (c : ins_cond) (n : N) : bool :=
  match c with InsIs k => n =? k | InsBelow k => n <? k | InsAny => true end.

(* What an arm does with an element (the forms found in the 83 fromvec bodies; s is its slot, k a flag):
   OptFirst         if self.s.is_none() { self.s = Some(j) }
   OptLast          self.s = Some(j)
   MandFirst k      if !mandatory[k] { self.s = j; mandatory[k] = true }
   MandLast k       self.s = j; mandatory[k] = true
   Push             self.s.push(j)
   PushMand k       self.s.push(j); mandatory[k] = true
   PushMandFirst k  if !mandatory[k] { self.s.push(j); mandatory[k] = true } *)
Inductive action :=
| OptFirst | OptLast | MandFirst (k : nat) | MandLast (k : nat)
| Push | PushMand (k : nat) | PushMandFirst (k : nat).

(* an arm [InformationElement::K(j) => if <instance test> { <action> }] of fromvec *)
Record arm := rule { r_kind : kind; r_ins : ins_cond; r_slot : nat; r_act : action }.

(* One message type. md_start is the offset of the IEs given to the decoder (None: no IEs are decoded);
   md_tovec the slots in the order of tovec; md_final the arms of the final check, read in order: the state
   of some of the flags, and the code of the missing IE reported (None: Ok(true)); md_init the
   IEs the fields hold in default() as far as they can be observed after a successful decode. *)
Record message_def := {
  md_name : string; md_type : N; md_start : option nat; md_tovec : list nat;
  md_arms : list arm; md_final : list (list (nat * bool) * option N); md_init : list (list ie) }.

(* Cause::default(), cause.rs 29-42 *)
Definition cause_default : Tliv cause := mkIe 2 2 0 (mkCause 0 false false false None).

(* A message: its header and, for each field of its struct, the IEs it holds (one for a plain field, none or
   one for an Option, any number for a Vec). *)
Record message := mkMsg { msg_header : Gtpv2Header; msg_fields : list (list ie) }.

(* ------------------------------------------------------------------------- *)
(* tovec, updatebearerreq.rs 100-163: the IEs of the fields, in order *)
Definition tovec (d : message_def) (x : list (list ie)) : list ie :=
  concat (map (fun i => nth i x []) (md_tovec d)).

(* ------------------------------------------------------------------------- *)
(* fromvec, updatebearerreq.rs 165-258 *)

(* self (the slots) and the local variables [mandatory] (the flags that are true) *)
Record dstate := mkSt { st_slots : list (list ie); st_flags : list nat }.
Definition flag_set (st : dstate) (k : nat) : bool := existsb (Nat.eqb k) (st_flags st).

Fixpoint update (l : list (list ie)) (i : nat) (v : list ie) : list (list ie) :=
  match l, i with
  | [], _ => []
  | _ :: r, O => v :: r
  | x :: r, S i' => x :: update r i' v
  end.

(* does the arm apply to the element *)
Definition arm_matches (r : arm) (e : ie) : bool :=
  kind_eqb (kind_of e) (r_kind r) && ins_test (r_ins r) (ie_instance e).

(* the effect of an arm that applies *)
Definition act (r : arm) (e : ie) (st : dstate) : dstate :=
  let s := r_slot r in
  let old := nth s (st_slots st) [] in
  match r_act r with
  | OptFirst => match old with [] => mkSt (update (st_slots st) s [e]) (st_flags st) | _ => st end
  | OptLast => mkSt (update (st_slots st) s [e]) (st_flags st)
  | MandFirst k => if flag_set st k then st else mkSt (update (st_slots st) s [e]) (k :: st_flags st)
  | MandLast k => mkSt (update (st_slots st) s [e]) (k :: st_flags st)
  | Push => mkSt (update (st_slots st) s (old ++ [e])) (st_flags st)
  | PushMand k => mkSt (update (st_slots st) s (old ++ [e])) (k :: st_flags st)
  | PushMandFirst k => if flag_set st k then st else mkSt (update (st_slots st) s (old ++ [e])) (k :: st_flags st)
  end.

(* one turn of the loop: the first arm that applies is taken *)
Definition step (d : message_def) (st : dstate) (e : ie) : dstate :=
  match find (fun r => arm_matches r e) (md_arms d) with Some r => act r e st | None => st end.

(* the final check: the first arm whose flags are as listed decides *)
Fixpoint decide (fl : nat -> bool) (l : list (list (nat * bool) * option N)) : option N :=
  match l with
  | [] => None
  | (c, o) :: t => if forallb (fun p => Bool.eqb (fl (fst p)) (snd p)) c then o else decide fl t
  end.

Definition fromvec (d : message_def) (l : list ie) : res (list (list ie)) :=
  let st := fold_left (step d) l (mkSt (md_init d) []) in
  match decide (flag_set st) (md_final d) with
  | Some c => Err (MessageMandatoryIEMissing c)
  | None => Ok (st_slots st)
  end.

(* ------------------------------------------------------------------------- *)
(* marshal, updatebearerreq.rs 67-72: the whole contents of the buffer afterwards *)
Definition msg_marshal (d : message_def) (x : message) (buffer : list N) : list N :=
  set_msg_length (buffer ++ h2_marshal (msg_header x) ++ encoder (tovec d (msg_fields x))).

(* unmarshal, updatebearerreq.rs 74-98; versionnotsupported.rs 35-45 for md_start = None *)
Definition msg_unmarshal (d : message_def) (m : mode) (b : list N) : res message :=
  let? h := h2_unmarshal b in
  if negb (h2_msgtype h =? md_type d) then Err MessageIncorrectMessageType
  else match md_start d with
       | None => Ok (mkMsg h (md_init d))
       | Some s =>
           let offset := (N.to_nat (h2_length h) + MANDATORY_HDR_LENGTH)%nat in
           if (offset <=? length b)%nat then
             let? body := slice b s offset in
             let? l := decoder m body in
             let? x := fromvec d l in
             Ok (mkMsg h x)
           else Err MessageInvalidMessageFormat
       end.
