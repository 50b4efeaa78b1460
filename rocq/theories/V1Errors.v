(* V1Errors.v - src/gtpv1/errors.rs: GTPV1Error. *)
Inductive GTPV1Error :=
| HeaderInvalidLength
| HeaderVersionNotSupported
| HeaderFlagError
| HeaderTypeMismatch
| MandatoryHeaderFlagError
| ExtHeaderInvalidLength
| ExtHeaderUnknown
| IETypeMismatch
| IEInvalidLength
| IEIncorrect
| MessageLengthError
| MessageNotSupported
| MessageMandatoryIEMissing
| MessageOptionalIEIncorrect
| MessageInvalidMessageFormat
| MessageIncorrectMessageType.
