(* Utils.v - the remaining public functions of src/gtpv2/utils.rs. The other ones are in Digits.v, Encode.v, V1Encode.v, V2Encode.v, V1U.v and V2Base.v. *)
From Verif Require Import Base Encode.
Local Open Scope N_scope.

(* u32::from_be_bytes, u64::from_be_bytes of an array *)
Definition from_be (l : list N) : N := fold_left (fun a o => a * 256 + o) l 0.
(* gtpv2/utils.rs 221-227: &i[..4] panics if there are fewer octets *)
Definition from_slice_u32 {E} (i : list N) : res E N := let? dst := upto i 4 in Ok (from_be dst).
(* gtpv2/utils.rs 229-235 *)
Definition from_slice_u64 {E} (i : list N) : res E N := let? dst := upto i 8 in Ok (from_be dst).
