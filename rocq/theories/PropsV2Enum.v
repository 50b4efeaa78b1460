(* PropsV2Enum.v - C86: enumerated values and the octets that stand for them (u8::from and From<u8>): every value is found again from
   its octet, every octet that stands for a value gives this octet back, and what an octet becomes that stands for no value. *)
From Verif Require Import Base BaseFacts V2Base V2Enums V2Common.
From Verif Require V1Errors V1CIe.
Local Open Scope N_scope.

(* --- specification --------------------------------------------------------------------------------------------------- *)
(* [codes] are the octets that stand for a value. *)
Definition enumeration {V} (to : V -> N) (of : N -> V) (codes : list N) : Prop :=
  (forall v, of (to v) = v) /\ (forall v, In (to v) codes) /\ (forall x, In x codes -> to (of x) = x).
(* octets that stand for no value are taken for [other] *)
Definition otherwise {V} (of : N -> V) (codes : list N) (other : V) : Prop := forall x, ~ In x codes -> of x = other.
(* the numbers 0, 1, ..., n *)
Definition upto (n : nat) : list N := map N.of_nat (seq 0 (S n)).

(* --- proofs ---------------------------------------------------------------------------------------------------------- *)
Ltac codes := split; [intros []; reflexivity|]; split; [intros []; cbv; tauto|];
  intros x H; cbv [upto map seq N.of_nat Pos.of_succ_nat Pos.succ In] in H; repeat (destruct H as [<-|H]; [reflexivity|]); contradiction.
Ltac others := intros x H; cbv [upto map seq N.of_nat Pos.of_succ_nat Pos.succ In] in H;
  match goal with |- ?f x = _ => unfold f end; repeat (match goal with |- context [x =? ?k] => destruct (N.eqb_spec x k) as [->|?] end; [exfalso; apply H; tauto|]); try reflexivity; repeat (match goal with |- context [x =? ?k] => destruct (x =? k) end; try reflexivity).

(* --- theorems -------------------------------------------------------------------------------------------------------- *)
Theorem C86_values :
  enumeration IndicationValues_to IndicationValues_of (upto 4) /\
  enumeration Restriction_to Restriction_of (upto 4) /\
  enumeration CsgMembership_to CsgMembership_of (upto 1) /\
  enumeration SecurityMode_to SecurityMode_of (upto 6) /\
  enumeration NasCipherValues_to NasCipherValues_of (upto 8) /\
  enumeration NasIntegrityProtectionValues_to NasIntegrityProtectionValues_of (upto 7) /\
  enumeration CipherValues_to CipherValues_of (upto 7) /\
  enumeration GprsIntegrityProtectionValues_to GprsIntegrityProtectionValues_of [0; 4; 5] /\
  enumeration DetachTypeValue_to DetachTypeValue_of (upto 3) /\
  enumeration CauseType_to CauseType_of (upto 5) /\
  enumeration MdtJobType_to MdtJobType_of (upto 6) /\
  enumeration Node_to Node_of (upto 1) /\
  enumeration Pdn_to Pdn_of [1; 2; 3; 4; 5; 6] /\
  enumeration Rat_to Rat_of (upto 23) /\
  enumeration ServiceIndication_to ServiceIndication_of (upto 2) /\
  enumeration SrvccCauseValues_to SrvccCauseValues_of (upto 11) /\
  enumeration AccessMode_to AccessMode_of (upto 2) /\
  enumeration Cmi_to Cmi_of (upto 1) /\
  enumeration UpIpPolicy_to UpIpPolicy_of (upto 3).
Proof. do 18 (split; [codes|]). codes. Qed.
(* Hence two values never share an octet. *)
Lemma apart {V} (to : V -> N) of codes : enumeration to of codes -> forall v w, to v = to w -> v = w.
Proof. intros [H _] v w E. rewrite <- (H v), <- (H w), E. reflexivity. Qed.
(* An octet that stands for no value is taken for the value that is there for it. *)
Theorem C86_spare_partial :
  otherwise SecurityMode_of (upto 6) SecurityMode_Spare /\
  otherwise NasCipherValues_of (upto 8) NasCipherValues_Spare /\
  otherwise DetachTypeValue_of (upto 3) DetachTypeValue_Spare /\
  otherwise CauseType_of (upto 5) CauseType_Spare /\
  otherwise Pdn_of [1; 2; 3; 4; 5; 6] Pdn_Reserved /\
  otherwise Rat_of (upto 23) Rat_Spare /\
  otherwise ServiceIndication_of (upto 2) ServiceIndication_Spare /\
  otherwise SrvccCauseValues_of (upto 11) SrvccCauseValues_Spare /\
  otherwise AccessMode_of (upto 2) AccessMode_Reserved /\
  otherwise UpIpPolicy_of (upto 3) UpIpPolicy_Spare.
Proof. do 9 (split; [others|]). others. Qed.
(* In the others it is taken for a value that means something: an unknown integrity algorithm is "no integrity protection", an unknown
   node is an SGSN. Action indications from 5 to 7 are spare, as 4 is. *)
Theorem C86_taken_refuted :
  otherwise Restriction_of (upto 4) Restriction_NoApnRestriction /\
  otherwise CsgMembership_of (upto 1) CsgMembership_NonCsgMembership /\
  otherwise NasIntegrityProtectionValues_of (upto 7) NasIntegrityProtectionValues_NoIntegrity /\
  otherwise CipherValues_of (upto 7) CipherValues_NoCipher /\
  otherwise GprsIntegrityProtectionValues_of [0; 4; 5] GprsIntegrityProtectionValues_NoIntegrity /\
  otherwise MdtJobType_of (upto 6) MdtJobType_ImmediateMdtonly /\
  otherwise Node_of (upto 1) Node_Sgsn /\
  otherwise Cmi_of (upto 1) Cmi_NonCsgMembership /\
  (forall x, 4 < x -> IndicationValues_of x = if x <=? 7 then IndicationValues_Spare else IndicationValues_NoAction).
Proof.
  do 8 (split; [others|]). intros x H. unfold IndicationValues_of. repeat (match goal with |- context [x =? ?k] => destruct (N.eqb_spec x k) as [->|?]; [lia|] end).
  rewrite (proj2 (N.leb_le 4 x)) by lia. destruct (x <=? 7); reflexivity.
Qed.
(* The access restrictions are sets of flags: what is set is found again, and all eight bits, or the lower five, are kept. *)
Lemma bits8 x : x < 256 -> exists a b c d e f g h : bool,
  x = flag a 1 + flag b 2 + flag c 4 + flag d 8 + flag e 16 + flag f 32 + flag g 64 + flag h 128.
Proof.
  intros H. assert (D : forall y, exists q (b : bool), y = 2 * q + flag b 1) by (intros y; exists (N.div2 y), (N.odd y); rewrite (N.div2_odd y) at 1; destruct (N.odd y); reflexivity).
  destruct (D x) as (q0 & a & ->). destruct (D q0) as (q1 & b & ->). destruct (D q1) as (q2 & c & ->). destruct (D q2) as (q3 & d & ->). destruct (D q3) as (q4 & e & ->).
  destruct (D q4) as (q5 & f & ->). destruct (D q5) as (q6 & g & ->). destruct (D q6) as (q7 & h & ->). exists a, b, c, d, e, f, g, h.
  assert (K : forall (u : bool) k, flag u k = k * flag u 1) by (intros [] k; unfold flag; lia). rewrite (K b 2), (K c 4), (K d 8), (K e 16), (K f 32), (K g 64), (K h 128).
  assert (q7 = 0) by lia. lia.
Qed.
Theorem C86_restrictions :
  (forall v, AccessRestrictionMM_of (AccessRestrictionMM_to v) = v) /\ (forall x, x < 256 -> AccessRestrictionMM_to (AccessRestrictionMM_of x) = x) /\
  (forall v, ExtendedAccessRestrictionMM_of (ExtendedAccessRestrictionMM_to v) = v) /\ (forall x, x < 256 -> ExtendedAccessRestrictionMM_to (ExtendedAccessRestrictionMM_of x) = x mod 32).
Proof.
  split; [intros [[] [] [] [] [] [] [] []]; reflexivity|]. split.
  { intros x H. destruct (bits8 x H) as (a & b & c & d & e & f & g & h & ->). destruct a, b, c, d, e, f, g, h; reflexivity. }
  split; [intros [[] [] [] [] []]; reflexivity|].
  intros x H. destruct (bits8 x H) as (a & b & c & d & e & f & g & h & ->). destruct a, b, c, d, e, f, g, h; reflexivity.
Qed.
(* The two enumerations of GTPv1-C: an octet that stands for no value is refused. *)
Theorem C86_gtpv1 :
  (forall v, V1CIe.Rat_dec (V1CIe.Rat_enc v) = Ok v) /\ (forall x, x < 1 \/ 6 < x <-> V1CIe.Rat_dec x = Err V1Errors.IEIncorrect) /\
  (forall x v, V1CIe.Rat_dec x = Ok v <-> x = V1CIe.Rat_enc v) /\
  (forall v, V1CIe.Restriction_dec (V1CIe.Restriction_enc v) = Ok v) /\ (forall x, 4 < x <-> V1CIe.Restriction_dec x = Err V1Errors.IEIncorrect) /\
  (forall x v, V1CIe.Restriction_dec x = Ok v <-> x = V1CIe.Restriction_enc v).
Proof.
  split; [intros []; reflexivity|]. split.
  { intros x. unfold V1CIe.Rat_dec. repeat (match goal with |- context [x =? ?k] => destruct (N.eqb_spec x k) as [->|?]; [split; [lia|discriminate]|] end). split; [reflexivity|]. intros _. lia. }
  split.
  { intros x v. split; [|intros ->; destruct v; reflexivity]. unfold V1CIe.Rat_dec. repeat (match goal with |- context [x =? ?k] => destruct (N.eqb_spec x k) as [->|?]; [intros H; apply Ok_inj in H; subst v; reflexivity|] end). discriminate. }
  split; [intros []; reflexivity|]. split.
  { intros x. unfold V1CIe.Restriction_dec. repeat (match goal with |- context [x =? ?k] => destruct (N.eqb_spec x k) as [->|?]; [split; [lia|discriminate]|] end). split; [reflexivity|]. intros _. lia. }
  intros x v. split; [|intros ->; destruct v; reflexivity]. unfold V1CIe.Restriction_dec. repeat (match goal with |- context [x =? ?k] => destruct (N.eqb_spec x k) as [->|?]; [intros H; apply Ok_inj in H; subst v; reflexivity|] end). discriminate.
Qed.

(* --- non-vacuity ------------------------------------------------------------------------------------------------------ *)
Example C86_example : Rat_of 10 = Rat_NR /\ Rat_to Rat_NR = 10 /\ ~ In 200 (upto 23) /\ Rat_of 200 = Rat_Spare /\ ~ In 2 [0; 4; 5] /\
  GprsIntegrityProtectionValues_of 2 = GprsIntegrityProtectionValues_NoIntegrity.
Proof. split; [reflexivity|]. split; [reflexivity|]. split; [cbv; intuition discriminate|]. split; [reflexivity|]. split; [cbv; intuition discriminate|reflexivity]. Qed.
Example C86_distinct_example : forall v w, Rat_to v = Rat_to w -> v = w.
Proof. apply (apart Rat_to Rat_of (upto 23)). apply C86_values. Qed.

Print Assumptions C86_values.
Print Assumptions C86_spare_partial.
Print Assumptions C86_taken_refuted.
Print Assumptions C86_restrictions.
Print Assumptions C86_gtpv1.
