(* Octets.v - integers as big-endian octets, by arithmetic. Shared by the specifications of what
   goes over the wire. *)
From Verif Require Import Base.
Local Open Scope N_scope.

Definition oct2 (n : N) : list N := [n / 256; n mod 256].
Definition oct3 (n : N) : list N := [n / 65536; (n / 256) mod 256; n mod 256].
Definition oct4 (n : N) : list N := [n / 16777216; (n / 65536) mod 256; (n / 256) mod 256; n mod 256].
(* flag of an optional field; its value or 0 *)
Definition given {A} (o : option A) : N := match o with Some _ => 1 | None => 0 end.
Definition or0 (o : option N) : N := match o with Some v => v | None => 0 end.
