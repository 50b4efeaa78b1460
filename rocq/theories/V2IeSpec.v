(* V2IeSpec.v - what it means for an information element value to be well formed. *)
From Verif Require Import Base V2Base.
Local Open Scope N_scope.

(* An IE the API user may hand to the encoder: the type code is the right one, the instance
   fits its four bits, the length field equals the number of value octets (the encoder
   recomputes it on the wire but the struct keeps the caller's), the value is short enough
   for the 16-bit length arithmetic, and the fields fit the wire format ([ok]). *)
Definition wf_ie {A} (T : N) (value : A -> list N) (ok : A -> Prop) (x : Tliv A) : Prop :=
  ie_t x = T /\ ie_ins x < 16 /\ ie_length x = nlen (value (ie_v x)) /\
  nlen (value (ie_v x)) <= 65531 /\ ok (ie_v x).

(* The length field as it stands in octets 2 and 3 of a buffer. *)
Definition declared (b : list N) : N := be16 (nth 1 b 0) (nth 2 b 0).
