(* Labels.v - strings and dotted names: the label encoding of access point names, the same code in
   src/gtpv2/messages/ies (apn.rs and others) and src/gtpv1/gtpc/messages/ies/apn.rs. *)
From Verif Require Import Base.
Local Open Scope N_scope.

(* Strings are lists of character codes (Unicode scalar values); str::as_bytes is UTF-8. *)
Definition utf8_char (c : N) : list N :=
  if c <? 128 then [c]
  else if c <? 2048 then [192 + c / 64; 128 + c mod 64]
  else if c <? 65536 then [224 + c / 4096; 128 + (c / 64) mod 64; 128 + c mod 64]
  else [240 + c / 262144; 128 + (c / 4096) mod 64; 128 + (c / 64) mod 64; 128 + c mod 64].
Definition utf8 (s : list N) : list N := concat (map utf8_char s).

(* str::split('.') *)
Fixpoint split_dot (s : list N) : list (list N) :=
  match s with
  | [] => [[]]
  | c :: r => if c =? 46 then [] :: split_dot r
              else match split_dot r with [] => [[c]] | w :: ws => (c :: w) :: ws end
  end.

(* [for i in name.split('.') { z.push(i.len() as u8); z.extend_from_slice(i.as_bytes()) }]:
   gtpv2 apn.rs 46-51, apnrelativecapacity.rs 49-54 and others, gtpv1 apn.rs 34-39 *)
Definition labels_encode (name : list N) : list N :=
  concat (map (fun w => nlen (utf8 w) mod 256 :: utf8 w) (split_dot name)).

(* The drain loop of gtpv2 apn.rs 68-80, gtpv1 apn.rs 60-72: each label followed by a dot. drain(..n) panics when fewer
   than n octets are left. *)
Fixpoint labels_loop {E} (fuel : nat) (donor : list N) : res E (list N) :=
  match donor with
  | [] => Ok []
  | n :: r =>
      match fuel with
      | O => Diverge
      | S f =>
          if (N.to_nat n <=? length r)%nat then
            let? rest := labels_loop f (skipn (N.to_nat n) r) in
            Ok (firstn (N.to_nat n) r ++ 46 :: rest)
          else Panic
      end
  end.
(* ... followed by p.pop() *)
Definition labels_decode {E} (donor : list N) : res E (list N) :=
  let? p := labels_loop (length donor) donor in Ok (removelast p).

(* A dotted name whose characters are ASCII and whose labels are shorter than 256. *)
Definition name_ok (s : list N) : Prop :=
  Forall (fun c => c < 128) s /\ Forall (fun w => nlen w < 256) (split_dot s).
