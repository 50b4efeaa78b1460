(* ErrText.v - the texts of the errors: src/gtpv1/errors.rs 30-58 and src/gtpv2/errors.rs 26-54 (impl Display). The formatter is modelled
   by the string it is given to write; padding and other options of a format string are not modelled. *)
From Coq Require Import NArith String Ascii.
From Verif Require V1Errors V2Base.
Local Open Scope string_scope.

(* {} of a u8: decimal, without leading zeros *)
Definition digit (d : N) : string := String (ascii_of_N (48 + d)) "".
Fixpoint decimal_of (fuel : nat) (n : N) : string :=
  if (n <? 10)%N then digit n
  else match fuel with O => "" | S f => decimal_of f (n / 10) ++ digit (n mod 10) end.
Definition decimal (n : N) : string := decimal_of (N.size_nat n) n.

(* gtpv1/errors.rs 30-58 *)
Definition text1 (e : V1Errors.GTPV1Error) : string :=
  match e with
  | V1Errors.HeaderInvalidLength => "Invalid Header length"
  | V1Errors.HeaderVersionNotSupported => "GTP Version not supported"
  | V1Errors.HeaderFlagError => "Header flag error"
  | V1Errors.HeaderTypeMismatch => "Header type mismatch"
  | V1Errors.MandatoryHeaderFlagError => "Mandatory header flag is not properly set for the particular GTP message"
  | V1Errors.ExtHeaderInvalidLength => "Invalid Extension Header length"
  | V1Errors.ExtHeaderUnknown => "Incorrect Extension Header"
  | V1Errors.IETypeMismatch => "IE type mismatch"
  | V1Errors.IEInvalidLength => "Invalid IE length"
  | V1Errors.IEIncorrect => "Incorrect IE"
  | V1Errors.MessageLengthError => "Message length error"
  | V1Errors.MessageMandatoryIEMissing => "Mandatory IE missing"
  | V1Errors.MessageNotSupported => "Message not supported"
  | V1Errors.MessageOptionalIEIncorrect => "Optional IE incorrect"
  | V1Errors.MessageInvalidMessageFormat => "Invalid Mesage format"
  | V1Errors.MessageIncorrectMessageType => "Incorrect Message type"
  end.
(* gtpv2/errors.rs 26-54 *)
Definition text2 (e : V2Base.GTPV2Error) : string :=
  match e with
  | V2Base.HeaderInvalidLength => "Invalid Header length"
  | V2Base.HeaderVersionNotSupported => "GTP Version not supported"
  | V2Base.HeaderFlagError => "Header flag error"
  | V2Base.HeaderTypeMismatch => "Header type mismatch"
  | V2Base.MandatoryHeaderFlagError => "Mandatory header flag is not properly set for the particular GTP message"
  | V2Base.IEInvalidLength i => "Invalid IE type " ++ decimal i ++ " length"
  | V2Base.IEIncorrect i => "Incorrect IE type " ++ decimal i
  | V2Base.MessageInvalidLength i => "Message invalid length " ++ decimal i
  | V2Base.MessageMandatoryIEMissing i => "Mandatory IE of type " ++ decimal i ++ " missing"
  | V2Base.MessageNotSupported => "Message not supported"
  | V2Base.MessageOptionalIEIncorrect i => "Optional IE of type " ++ decimal i ++ " incorrect"
  | V2Base.MessageInvalidMessageFormat => "Invalid Mesage format"
  | V2Base.MessageIncorrectMessageType => "Incorrect Message type"
  end.
