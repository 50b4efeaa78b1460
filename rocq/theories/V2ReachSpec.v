(* V2ReachSpec.v - specification: the positions at which an information element is read while the octets of a GTPv2-C
   packet are decoded, in terms of the octets alone. [head_says] of V2ListSpec.v says that octets begin with an element
   and where the next one begins, [fits], [declared], [value_of] and [grouped_codes] are in V2WireSpec.v and
   V2CrashSpec.v. *)
From Verif Require Import Base V2WireSpec V2CrashSpec.
From Verif Require V2ListSpec.
Local Open Scope N_scope.

Inductive reached : list N -> list N -> Prop :=
| reach_here b : b <> [] -> reached b b
| reach_next b e n s : V2ListSpec.head_says b e n -> reached (skipn n b) s -> reached b s
| reach_inside b s : In (oct b 0) grouped_codes -> fits b -> declared b <= 65531 -> reached (value_of b) s -> reached b s.
(* No element that is read declares more than 65531 octets. *)
Definition all_short (b : list N) : Prop := forall s, reached b s -> declared s <= 65531.
