(* V2Merge.v - the parts of the [Messages] trait that a user calls on a message in memory: [fromvec] on a message that
   already holds elements, [tovec], the iterator of commons.rs, and [vec_by_ins]. *)
From Coq Require Import String.
From Verif Require Import Base V2Base V2Common V2IeA V2IeB V2IeC V2IeD V2IeE V2IeF V2Decoder V2Kind V2Msg V2MsgTables V2MsgSpec V2MsgLayouts V2MsgFacts V2MsgThms.
Local Open Scope N_scope.

(* The locals before the loop of fromvec. They are all false, but in updatebearerreq.rs 252 and
   deletebearerfailureind.rs 138 the last check asks self.bearer_ctxs.is_empty(), which V2Msg.v models as a flag
   that the arm sets; it is set already if the field holds something. *)
Definition looks_at_self : list (string * nat) := [("UpdateBearerRequest", 0%nat); ("DeleteBearerFailureInd", 1%nat)]%string.
Definition looked_at (d : message_def) : option nat := option_map snd (find (fun p => String.eqb (fst p) (md_name d)) looks_at_self).
Definition flags_before (d : message_def) (self : list (list ie)) : list nat :=
  match looked_at d with Some s => match nth s self [] with [] => [] | _ => [1%nat] end | None => [] end.
(* [self.fromvec(l)]: the fields of self afterwards, which are changed whatever the result is, and the code of the
   element reported missing (None: Ok(true)) *)
Definition fromvec_on (d : message_def) (self : list (list ie)) (l : list ie) : list (list ie) * option N :=
  let st := fold_left (step d) l (mkSt self (flags_before d self)) in (st_slots st, decide (flag_set st) (md_final d)).

(* commons.rs 15-25, [impl Iterator for dyn Messages]: next() pops the last element of a new copy of the elements.
   The message is not changed. *)
Definition next (d : message_def) (x : list (list ie)) : option ie * list (list ie) :=
  (match rev (tovec d x) with [] => None | e :: _ => Some e end, x).
(* what a caller of next() gets in n calls *)
Fixpoint calls (d : message_def) (n : nat) (x : list (list ie)) : list (option ie) :=
  match n with O => [] | S k => let '(o, y) := next d x in o :: calls d k y end.
(* commons.rs 27-31 *)
Definition vec_by_ins (ins : N) (l : list ie) : list ie := filter (fun e => ie_instance e =? ins) l.
