(* Base.v - shared vocabulary of the gtp-rs model: results with explicit panics,
   build modes, octet access, slices and big-endian integers. *)

From Coq Require Export List NArith ZArith Arith Bool Lia.
From Coq Require Export ZifyBool ZifyNat ZifyN.
Export ListNotations.
Ltac Zify.zify_post_hook ::= Z.div_mod_to_equations.

(* Build mode: in [Debug] (overflow-checks on) integer overflow panics, in
   [Release] it wraps. *)
Inductive mode := Debug | Release.

(* Rust [Result<A, E>] plus the two ways of not returning: a panic, and a loop that
   does not finish within its fuel. *)
Inductive res (E A : Type) : Type :=
| Ok (a : A)
| Err (e : E)
| Panic
| Diverge.
Arguments Ok {E A} a.
Arguments Err {E A} e.
Arguments Panic {E A}.
Arguments Diverge {E A}.

Definition bind {E A B} (r : res E A) (k : A -> res E B) : res E B :=
  match r with
  | Ok a => k a
  | Err e => Err e
  | Panic => Panic
  | Diverge => Diverge
  end.

Notation "'let?' x := r 'in' k" := (bind r (fun x => k))
  (at level 200, x pattern, r at level 100, k at level 200, right associativity).

(* The call came back to the caller with a value or an error. *)
Definition returns {E A} (r : res E A) : Prop :=
  match r with Ok _ | Err _ => True | Panic | Diverge => False end.

Definition is_ok {E A} (r : res E A) : Prop :=
  match r with Ok _ => True | _ => False end.

(* [buffer[i]]: panics when out of range. *)
Definition at_ {E} (b : list N) (i : nat) : res E N :=
  match nth_error b i with Some x => Ok x | None => Panic end.

(* [&buffer[i..j]]: panics unless i <= j <= len. *)
Definition slice {E} (b : list N) (i j : nat) : res E (list N) :=
  if (i <=? j) && (j <=? length b) then Ok (firstn (j - i) (skipn i b)) else Panic.

(* [&buffer[i..]]: panics unless i <= len. *)
Definition slice_from {E} (b : list N) (i : nat) : res E (list N) :=
  if i <=? length b then Ok (skipn i b) else Panic.

(* [buffer[i] = v] on a buffer known to be long enough (the model keeps the list
   unchanged when it is not; every use below is on a long enough list). *)
Fixpoint set_nth (b : list N) (i : nat) (v : N) : list N :=
  match b, i with
  | [], _ => []
  | _ :: r, O => v :: r
  | x :: r, S i' => x :: set_nth r i' v
  end.

(* Checked/wrapping unsigned arithmetic on a [w]-valued type (w = 2^bits). *)
Definition ov {E} (m : mode) (w : N) (v : N) : res E N :=
  if (v <? w)%N then Ok v
  else match m with Debug => Panic | Release => Ok (v mod w)%N end.
Definition add8 {E} (m : mode) (a b : N) : res E N := ov m 256 (a + b).
Definition mul8 {E} (m : mode) (a b : N) : res E N := ov m 256 (a * b).
Definition add16 {E} (m : mode) (a b : N) : res E N := ov m 65536 (a + b).

(* Big-endian conversions: uN::from_be_bytes / to_be_bytes. *)
Definition be16 (a b : N) : N := (a * 256 + b)%N.
Definition be24 (a b c : N) : N := ((a * 256 + b) * 256 + c)%N.
Definition be32 (a b c d : N) : N := (((a * 256 + b) * 256 + c) * 256 + d)%N.
Definition enc16 (n : N) : list N := [(n / 256) mod 256; n mod 256]%N.
Definition enc24 (n : N) : list N := [(n / 65536) mod 256; (n / 256) mod 256; n mod 256]%N.
Definition enc32 (n : N) : list N :=
  [(n / 16777216) mod 256; (n / 65536) mod 256; (n / 256) mod 256; n mod 256]%N.
(* Generic versions for wider integers: big-endian digits in base 256. *)
Fixpoint be_list (acc : N) (l : list N) : N :=
  match l with [] => acc | x :: r => be_list (acc * 256 + x)%N r end.
Fixpoint enc_be (k : nat) (n : N) : list N :=
  match k with
  | O => []
  | S k' => ((n / 256 ^ N.of_nat k') mod 256)%N :: enc_be k' n
  end.

(* Octets. *)
Definition byte (n : N) : Prop := (n < 256)%N.
Definition bytes (l : list N) : Prop := Forall byte l.
Definition u16 (n : N) : Prop := (n < 65536)%N.
Definition u32 (n : N) : Prop := (n < 4294967296)%N.
Definition u64 (n : N) : Prop := (n < 18446744073709551616)%N.

Definition b2n (b : bool) : N := if b then 1%N else 0%N.
Definition nlen {A} (l : list A) : N := N.of_nat (length l).

Definition is_some {A} (o : option A) : bool :=
  match o with Some _ => true | None => false end.
