(* Digits.v - TBCD digits and PLMN identities: src/gtpv1/utils.rs 16-194 and
   src/gtpv2/utils.rs 11-189 (the two files contain the same code for these functions).
   A string is a list of character codes. *)
From Verif Require Import Base.
Local Open Scope N_scope.

(* char::to_digit(10) *)
Definition to_digit (c : N) : option N :=
  if (48 <=? c) && (c <=? 57) then Some (c - 48) else None.
(* char::from_digit(d, 10) *)
Definition from_digit (d : N) : option N := if d <? 10 then Some (48 + d) else None.

Fixpoint filter_map {A B} (f : A -> option B) (l : list A) : list B :=
  match l with
  | [] => []
  | x :: r => match f x with Some y => y :: filter_map f r | None => filter_map f r end
  end.

(* the step_by(2)/zip of tbcd_encode: pairs (a,b) of neighbours; [b << 4] is a u8 shift *)
Fixpoint tbcd_pairs (l : list N) : list N :=
  match l with
  | a :: b :: r => N.lor ((N.shiftl b 4) mod 256) a :: tbcd_pairs r
  | _ => []
  end.

(* gtpv2/utils.rs 11-27, gtpv1/utils.rs 16-32 *)
Definition tbcd_encode (s : list N) : list N :=
  let chr := filter_map to_digit s in
  let chr := if Nat.odd (length chr) then chr ++ [15] else chr in
  tbcd_pairs chr.

(* gtpv2/utils.rs 38-49, gtpv1/utils.rs 43-54 *)
Definition tbcd_decode (b : list N) : list N :=
  filter_map from_digit (concat (map (fun x => [N.land x 15; N.shiftr x 4]) b)).

(* u16::to_string followed by to_digit: the decimal digits, most significant first. A u16
   has at most five. *)
Fixpoint dec_digits (fuel : nat) (n : N) : list N :=
  match fuel with
  | O => []
  | S f => if n <? 10 then [n] else dec_digits f (n / 10) ++ [n mod 10]
  end.
(* gtpv2/utils.rs 178-189, gtpv1/utils.rs 183-194 *)
Definition to_digits (n : N) : list N :=
  let r := dec_digits 5 n in
  if (length r =? 1)%nat then 0 :: r else r.

Fixpoint pad_front (k : nat) (l : list N) : list N :=
  match k with O => l | S k' => pad_front k' (0 :: l) end.

(* gtpv2/utils.rs 60-81, gtpv1/utils.rs 65-86. The vectors always have the digits that are
   indexed: [nth _ _ 0] never uses its default. *)
Definition mcc_mnc_encode (mcc mnc : N) (three : bool) : list N :=
  let mcc_digits := pad_front (3 - length (to_digits mcc)) (to_digits mcc) in
  let mnc_digits := to_digits mnc in
  let e3 := three || (100 <=? mnc) in
  let mnc_digits := if e3 && (length mnc_digits <? 3)%nat then 0 :: mnc_digits else mnc_digits in
  let d := fun l i => nth i l 0 in
  [ N.lor ((N.shiftl (d mcc_digits 1%nat) 4) mod 256) (d mcc_digits 0%nat);
    (if e3 then N.lor ((N.shiftl (d mnc_digits 2%nat) 4) mod 256) (d mcc_digits 2%nat)
     else N.lor 240 (d mcc_digits 2%nat));
    N.lor ((N.shiftl (d mnc_digits 1%nat) 4) mod 256) (d mnc_digits 0%nat) ].

(* str::parse::<u16> on at most three digit characters; the empty string is an error, which
   leaves the value at 0. *)
Definition parse_dec (s : list N) : N := fold_left (fun a c => a * 10 + (c - 48)) s 0.

(* gtpv2/utils.rs 114-145, gtpv1/utils.rs 119-150 *)
Definition mcc_mnc_decode {E} (b : list N) : res E (N * N * bool) :=
  let? b0 := at_ b 0 in let? b1 := at_ b 1 in let? b2 := at_ b 2 in
  let third := N.shiftr b1 4 in
  let three := negb (third =? 15) in
  let mcc := [N.land b0 15; N.shiftr b0 4; N.land b1 15] in
  let mnc := [N.land b2 15; N.shiftr b2 4] ++ (if three then [third] else []) in
  Ok (parse_dec (filter_map from_digit mcc), parse_dec (filter_map from_digit mnc), three).
