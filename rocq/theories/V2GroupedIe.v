(* src/gtpv2/messages/ies/groupedie.rs: the container of a grouped IE as a value of its own (it is exported).
   [GroupedIe_unmarshal] is in V2Decoder.v; the struct GroupedIe (lines 7-13) is [Tliv (list ie)]. *)
From Verif Require Import Base V2Base V2Decoder.
Local Open Scope N_scope.

(* groupedie.rs 15-24: t = BEARER_CTX *)
Definition GroupedIe_default : Tliv (list ie) := mkIe 93 0 0 [].
(* groupedie.rs 27-35; the instance octet is not masked *)
Definition GroupedIe_marshal (x : Tliv (list ie)) : list N :=
  tliv (ie_t x) (ie_length x) (ie_ins x) (encoder (ie_v x)).
(* groupedie.rs 59-61: the addition is on u16 *)
Definition GroupedIe_len (m : mode) (x : Tliv (list ie)) : res nat := len_u16 m x.
(* groupedie.rs 63-65 *)
Definition GroupedIe_is_empty (x : Tliv (list ie)) : bool := ie_length x =? 0.
