(* Encode.v - the operations of the encoders that can panic. The other files model an encoder by the octets it
   appends, a total function; here the functions of src/gtpv1/utils.rs and src/gtpv2/utils.rs in which an encoder
   indexes, assigns or subtracts are modelled once more, with the panic as a result. *)
From Verif Require Import Base Digits.
Local Open Scope N_scope.

(* [v[i] = x] *)
Definition put {E} (b : list N) (i : nat) (x : N) : res E (list N) := if (i <? length b)%nat then Ok (set_nth b i x) else Panic.
(* [a - b] on usize *)
Definition sub_usize {E} (m : mode) (a b : N) : res E N :=
  if b <=? a then Ok (a - b) else match m with Debug => Panic | Release => Ok (18446744073709551616 + a - b) end.
(* [o.unwrap()] *)
Definition unwrap {E A} (o : option A) : res E A := match o with Some x => Ok x | None => Panic end.
(* [&v[..n]] *)
Definition upto {E A} (l : list A) (n : nat) : res E (list A) := if (n <=? length l)%nat then Ok (firstn n l) else Panic.

(* gtpv1/utils.rs 198-210, gtpv2/utils.rs 193-205: the length of the buffer less [k], as u16, goes into the octets [i]
   and [i + 1] *)
Definition set_size {E} (m : mode) (k : N) (i : nat) (b : list N) : res E (list N) :=
  let? n := sub_usize m (nlen b) k in
  let size := n mod 65536 in
  let? b := put b i ((size / 256) mod 256) in
  put b (i + 1) (size mod 256).

(* gtpv2/utils.rs 60-81, gtpv1/utils.rs 65-86 *)
Definition mcc_mnc_encode_checked {E} (mcc mnc : N) (three : bool) : res E (list N) :=
  let mcc_digits := pad_front (3 - length (to_digits mcc)) (to_digits mcc) in
  let mnc_digits := to_digits mnc in
  let e3 := three || (100 <=? mnc) in
  let mnc_digits := if e3 && (length mnc_digits <? 3)%nat then 0 :: mnc_digits else mnc_digits in
  let? x1 := at_ mcc_digits 1 in let? x0 := at_ mcc_digits 0 in
  let first := N.lor ((N.shiftl x1 4) mod 256) x0 in
  let? second :=
    (if e3 then let? y2 := at_ mnc_digits 2 in let? x2 := at_ mcc_digits 2 in Ok (N.lor ((N.shiftl y2 4) mod 256) x2)
     else let? x2 := at_ mcc_digits 2 in Ok (N.lor 240 x2)) in
  let? y1 := at_ mnc_digits 1 in let? y0 := at_ mnc_digits 0 in
  Ok [first; second; N.lor ((N.shiftl y1 4) mod 256) y0].

(* --- facts ---------------------------------------------------------------------------------------------------- *)
Lemma set_size_ok {E} m k i b : k <= nlen b -> (i + 1 < length b)%nat ->
  set_size (E:=E) m k i b = Ok (set_nth (set_nth b i ((((nlen b - k) mod 65536) / 256) mod 256)) (i + 1) (((nlen b - k) mod 65536) mod 256)).
Proof.
  intros Hk Hi. unfold set_size, sub_usize. replace (k <=? nlen b) with true by (symmetry; apply N.leb_le; exact Hk). cbn [bind]. unfold put.
  replace (i <? length b)%nat with true by (symmetry; apply Nat.ltb_lt; lia). cbn [bind].
  assert (L : forall b i x, length (set_nth b i x) = length b) by (induction b0; intros [|j] x; cbn [set_nth length]; [reflexivity..|f_equal; apply IHb0]).
  rewrite L. replace (i + 1 <? length b)%nat with true by (symmetry; apply Nat.ltb_lt; lia). reflexivity.
Qed.
Lemma at_ok {E} (l : list N) i : (i < length l)%nat -> at_ (E:=E) l i = Ok (nth i l 0).
Proof. intros H. unfold at_. rewrite (nth_error_nth' l 0 H). reflexivity. Qed.
Lemma dec_digits_pos n f : (1 <= length (dec_digits (S f) n))%nat.
Proof. cbn [dec_digits]. destruct (n <? 10); [cbn; lia|]. rewrite app_length. cbn. lia. Qed.
Lemma to_digits_two n : (2 <= length (to_digits n))%nat.
Proof.
  unfold to_digits. pose proof (dec_digits_pos n 4) as P. destruct (Nat.eqb_spec (length (dec_digits 5 n)) 1) as [K|K]; cbn [length]; lia.
Qed.
Lemma pad_front_length k l : length (pad_front k l) = (k + length l)%nat.
Proof. revert l. induction k as [|k IH]; intros l; [reflexivity|]. cbn [pad_front]. rewrite IH. cbn [length]. lia. Qed.
(* The digits that are indexed are always there. *)
Lemma mcc_mnc_encode_safe {E} mcc mnc three : mcc_mnc_encode_checked (E:=E) mcc mnc three = Ok (mcc_mnc_encode mcc mnc three).
Proof.
  unfold mcc_mnc_encode_checked, mcc_mnc_encode. pose proof (to_digits_two mcc) as P1. pose proof (to_digits_two mnc) as P2.
  set (dc := pad_front (3 - length (to_digits mcc)) (to_digits mcc)). set (e3 := (three || (100 <=? mnc))%bool).
  set (dn := if (e3 && (length (to_digits mnc) <? 3)%nat)%bool then 0 :: to_digits mnc else to_digits mnc).
  assert (C : (3 <= length dc)%nat) by (unfold dc; rewrite pad_front_length; lia).
  assert (D : (2 <= length dn)%nat) by (unfold dn; destruct (e3 && _)%bool; cbn [length]; lia).
  assert (D3 : e3 = true -> (3 <= length dn)%nat).
  { intros K. unfold dn. rewrite K. cbn [andb]. destruct (Nat.ltb_spec (length (to_digits mnc)) 3); cbn [length]; lia. }
  rewrite !(at_ok dc) by lia. cbn [bind]. destruct e3; cbn [bind].
  - specialize (D3 eq_refl). rewrite !(at_ok dn) by lia. reflexivity.
  - rewrite !(at_ok dn) by lia. reflexivity.
Qed.
Lemma upto_min {E A} (l : list A) n : upto (E:=E) l (if (length l <=? n)%nat then length l else n) = Ok (firstn n l).
Proof.
  unfold upto. destruct (Nat.leb_spec (length l) n) as [K|K].
  - rewrite Nat.leb_refl. rewrite firstn_all, firstn_all2 by exact K. reflexivity.
  - replace (n <=? length l)%nat with true by (symmetry; apply Nat.leb_le; lia). reflexivity.
Qed.
