(* V1CSafeSpec.v - the octets that GTPv1-C element decoding handles without crashing or
   looping, stated on the octets alone. *)
From Verif Require Import Base.
Local Open Scope N_scope.

(* the 16-bit number in the second and third octet *)
Definition declared (s : list N) : N :=
  match s with _ :: a :: b :: _ => 256 * a + b | _ => 0 end.
(* length-prefixed labels that end exactly at the end of the octets *)
Definition labels_exact (v : list N) : Prop := exists ws, v = concat (map (fun w => nlen w :: w) ws).

(* [s] starts with the type octet of an element and runs to the end of the packet. *)
Definition harmless (s : list N) : Prop :=
  match s with
  | [] => True
  | t :: _ =>
      (* no 16-bit overflow of length + 3 *)
      (128 <= t -> declared s <= 65532) /\
      (* end user address, private extension: not one octet of value at the end of the packet *)
      (t = 128 \/ t = 255 -> declared s = 1 -> (5 <= length s)%nat) /\
      (* access point name: labels that fit *)
      (t = 131 -> (3 + N.to_nat (declared s) <= length s)%nat -> labels_exact (firstn (N.to_nat (declared s)) (skipn 3 s))) /\
      (* MSISDN: at least nine octets of value, whatever is declared *)
      (t = 134 -> (12 <= length s)%nat) /\
      (* GGSN back-off time: at least one octet of value *)
      (t = 202 -> (4 <= length s)%nat)
  end.
