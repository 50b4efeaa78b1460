(* V1CErrSpec.v - which error a GTPv1-C message decoder returns for an element it cannot decode. *)
From Coq Require Import String.
From Verif Require Import Base.
From Verif Require Export V1CMsgSpec.
Local Open Scope N_scope.
Notation length := List.length.

(* [reads_to m b p l q]: the elements [l] are at [p], one after the other, and end before [q]. *)
Inductive reads_to (m : mode) (b : list N) : nat -> list (N * ie1) -> nat -> Prop :=
| to_here p : reads_to m b p [] p
| to_more p t k i n l q :
    nth_error b p = Some t -> code_kind t = Some k ->
    ie1_unmarshal k m (skipn p b) = Ok i -> ie1_len m i = Ok n -> (0 < n)%nat ->
    reads_to m b (p + n) l q -> reads_to m b p ((t, i) :: l) q.

(* The report for an element that would fill field [f] of the message with this type code: a mandatory element is
   missing, or an optional one is incorrect. *)
Definition right_report (f : field1) : GTPV1Error :=
  if f_mandatory f then MessageMandatoryIEMissing else MessageOptionalIEIncorrect.
(* The reports that are different. The first GSN address of an update request makes the decoder panic. *)
Definition other_reports : list (N * string * res GTPV1Error) :=
  [ (17, "qos"%string, Ok MessageMandatoryIEMissing); (18, "qos"%string, Ok MessageMandatoryIEMissing); (19, "qos"%string, Ok MessageMandatoryIEMissing);
    (18, "alt_sgsn_ip_control"%string, Ok MessageMandatoryIEMissing); (18, "sgsn_ip_control"%string, Panic);
    (21, "cause"%string, Ok MessageOptionalIEIncorrect);
    (27, "teid_control"%string, Ok MessageOptionalIEIncorrect); (29, "teid_control"%string, Ok MessageOptionalIEIncorrect) ].
Definition listed (code : N) (f : field1) : option (res GTPV1Error) :=
  option_map snd (find (fun e => (fst (fst e) =? code) && String.eqb (snd (fst e)) (f_name f)) other_reports).
Definition report (code : N) (f : field1) : res GTPV1Error :=
  match listed code f with Some r => r | None => Ok (right_report f) end.
