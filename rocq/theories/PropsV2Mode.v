(* PropsV2Mode.v - debug and release builds, GTPv2-C: C63 (its part; see PropsV1CRead.v for the rest).
   [m] ranges over the two overflow-check modes. *)
From Verif Require Import BaseFacts ModeFacts V2Base V2Decoder V2Msg V2MsgTables V2ModeFacts.
Local Open Scope N_scope.

(* ----- C63: whatever the octets, a debug build panics or returns what every build returns -------- *)
Theorem C63_gtpv2_builds_agree : forall m b,
  (decode_one (decoder Debug) Debug b = Panic \/ decode_one (decoder Debug) Debug b = decode_one (decoder m) m b) /\
  (decoder Debug b = Panic \/ decoder Debug b = decoder m b) /\
  (forall d, msg_unmarshal d Debug b = Panic \/ msg_unmarshal d Debug b = msg_unmarshal d m b).
Proof.
  intros m b. split; [apply (decode_one_same (decoder Debug) (decoder m) m b); intros s; apply decoder_same|].
  split; [apply decoder_same|intros d; apply msg_same].
Qed.
Print Assumptions C63_gtpv2_builds_agree.
(* The number of octets an element reports, for every element. *)
Theorem C63_gtpv2_sizes_agree : forall m e, ie_len Debug e = Panic \/ ie_len Debug e = ie_len m e.
Proof. intros m e. apply ie_len_same. Qed.
Print Assumptions C63_gtpv2_sizes_agree.
Example C63_gtpv2_case : forall m, decoder m [73; 0; 1; 0; 5] = Ok [IE_Ebi (mkIe 73 1 0 5)].
Proof. intros []; reflexivity. Qed.
(* Full statement: both builds return the same. False: an element that declares 65535 octets. *)
Theorem C63_gtpv2_same_refuted : exists b l, bytes b /\ decoder Debug b = Panic /\ decoder Release b = Ok l.
Proof. exists [86; 255; 255; 0; 0]. eexists. split; [repeat constructor|]. split; vm_compute; reflexivity. Qed.
Print Assumptions C63_gtpv2_same_refuted.
