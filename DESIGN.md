# Formal model of gtp-rs in Rocq (Coq 8.16.1)

Source modelled: `/repo` (ErvinsK/gtp-rs at the pinned commit). The code is read as
text; nothing is compiled or run here.

## How the code is modelled

* Shallow embedding: every Rust function becomes a total computable Gallina function.
* `u8`/`u16`/`u32`/`u64` values are `N`; well-formedness predicates say "fits the type".
* `usize` lengths and cursors are `nat` (no overflow: buffers are far below 2^64 octets).
* A byte buffer is `list N`.
* `Result<T,E>` and panics are one type `res E T = Ok | Err | Panic | Diverge`;
  `Panic` is an explicit value (index out of range, slice out of range, arithmetic
  overflow in a build with overflow checks). `Diverge` is fuel exhaustion of a loop and
  is either excluded by theorem or exhibited as a finding.
* `mode := Debug | Release` says whether integer overflow panics or wraps. Functions
  that do overflowable arithmetic take the mode; theorems quantify over it.
* `fn marshal(&self, &mut Vec<u8>)` becomes a function returning the new buffer or, where
  the Rust code only appends, the appended octets (append-only is then a theorem about
  the buffer-passing wrapper).

## Layers

1. `Base.v`, `BaseFacts.v`: result monad, byte access, big-endian codecs, bit sweeps. `Digits*.v`: TBCD and
   PLMN digits.
2. GTPv1-U: `V1U.v` (model: header, extension headers, IEs, messages), `V1USpec.v` (specification), `V1UFacts.v`,
   `V1UMsgFacts.v`, `V1USafety*.v` (proofs), `PropsV1U.v` (C01 to C09, C15 in part). `V1UWireSpec.v` describes sent and
   received octets independently (with `Octets.v`), `V1UWireFacts.v`, `V1UReadFacts.v` are the proofs, `PropsV1UWire.v`
   has C54 to C57.
3. `V2Base*.v`: GTPv2 header and the common IE header handling; `PropsV2Base.v` (C10 to C13).
4. GTPv2 information elements: `V2Enums.v`, `V2Common.v`, `V2IeA.v` to `V2IeF.v` (model, in alphabetical order of
   the source files), `V2IeSpec.v`, `V2OkCommon.v`, `V2OkA.v` to `V2OkF.v` (well-formed values), `V2Ie*Facts.v`,
   `V2Cursor.v`, `V2CommonFacts.v` (round trip, reported length, crash-freedom of each).
5. `V2Grouped.v`, `V2Decoder.v`: grouped IEs, the `InformationElement` enum, `encoder`, `decoder`. Specification in
   `V2DecSpec.v` (well-formed IEs), `V2WireSpec.v` (framing, 3GPP type codes, tame octets), `V2OwnSpec.v` (the decoder
   of each kind). Proofs in `V2DecFacts.v`, `V2DeclFacts.v`, `V2HaltFacts.v`, `V2DecMore.v`, `V2DecLoop.v`,
   `V2DecTame.v`, `V2OwnFacts.v`; `PropsV2Ie.v` (C14, C16 to C25).
6. GTPv2 messages. `V2Msg.v` is an interpreter for the common shape of `tovec`, `fromvec`, `marshal` and `unmarshal`;
   `V2MsgTables.v` has one table per message (type code, first IE octet, push order, match arms in source order with
   what each does, checks at the end, initial values), transcribed from the 83 source files, and cites the lines.
   `V2MsgLayouts.v` is the specification side: the fields of each struct, in struct order, with kind, arity, accepted
   instances and the mandatory one. `V2Kind.v` names the kinds of IEs, `V2MsgSpec.v` says what a well-formed message is
   and which IE goes to which field. Proofs in `V2MsgFacts.v`, `V2MsgThms.v`, `V2MsgWire.v`; `PropsV2Msg.v` (C15, C19,
   C20 for messages, C26 to C36). Simplifications: the `mandatory` bookkeeping of the code (a vector of flags, one
   boolean, or `is_empty()` of a vector) is one list of flags set by the arms.
   `V2ValSpec.v` describes the octets of every element, of the header and of a packet independently of the encoders
   (values as big-endian numbers, flags as sums of powers of two); `V2ValFacts.v`, `V2ValMore.v` are the proofs,
   `PropsV2Wire.v` has C58 and C59. Where the code departs from TS 29.274 in a way that only shows against the standard
   (C59) the description in `V2ValSpec.v` follows the code, and the refutation states the octets of the standard.
   `configurationtransfertunnel.rs` is not part of the crate (not in `mod.rs`) and is not modelled.
7. GTPv1-C. `V1CHdr.v` (header, extension headers), `V1CIe.v` (the 49 information elements), `V1CKind.v` (their union),
   `V1CMsg.v` (an interpreter for the 16 messages that share one shape, and the four others), `V1CTables.v` (one table
   per message, with the source lines) are the model. Specification: `V1CSpec.v` (well-formed values), `V1CWireSpec.v`
   (the octets of TS 29.060), `V1CMsgSpec.v` (fields of each message, what a packet carries), `V1CSafeSpec.v` (octets
   that decoding survives). Proofs in `V1CHdrFacts.v`, `V1CIeFacts.v`, `V1CWireFacts.v`, `V1CMsgFacts.v`,
   `V1CMsgRead.v`, `V1CHdrSafety.v`, `V1CIeSafety.v`, `V1CMsgSafety.v`, `V1CFourFacts.v`, `V1CExact.v`; `PropsV1C.v`
   (C15 in part, C37 to C53). The receiving side is described a second time, with arithmetic only, in `V1CReadSpec.v`
   (elements) and `V1CMsgReadSpec.v` (header, messages); `V1CForwardSpec.v` says what can be sent again, `V1CErrSpec.v`
   which error is reported; proofs in `V1CReadFacts.v`, `V1CMsgReadFacts.v`, `V1CForward.v`, `V1CErr.v`, `LabelsLen.v`; exactness in `PropsV1CExact.v`;
   `PropsV1CRead.v` (C60 to C62, C63 in part). Simplification: the `HashMap<u8, u8>` of counts is a function; `Option` and plain struct
   fields are both `option` slots, a plain one starting with its `Default` value.

   The receiving side of GTPv2-C, in the same way: `V2ReadSpec.v` (a grammar for each element), `V2ListSpec.v` (type
   codes, groups, sequences), `V2MsgReadSpec.v` (header, messages); proofs in `V2ReadFacts.v`, `V2ReadFactsB.v` to
   `V2ReadFactsF.v`, `V2ListFacts.v`, `V2MsgReadFacts.v`; `PropsV2Read.v` (C64). `V2ForwardSpec.v` says which received
   elements can be sent on, and what the next receiver has; proofs in `V2Forward.v`, `V2ForwardA.v`, `V2ForwardB.v`, `V2ForwardC.v`; `PropsV2Forward.v`, `PropsV2Exact.v`, `PropsV2ExactGroups.v`, `PropsV2ExactMm.v` (C65).
   `V2ErrSpec.v` says what each error means; proofs in `V2ErrFacts.v` (per decoder), `V2ErrLoop.v`; `PropsV2Err.v` (C66).
   `PropsV2Multi.v` (C67) and `PropsVersions.v` (C68) put several messages and the three protocols together.
   `V2Defaults.v` has the `Default` of the header, of every element and of every message; `PropsV2Default.v` (C69).
   `V1Defaults.v` has those of GTPv1-C and GTP-U; `PropsV1Default.v` (C70).
   `V2CrashSpec.v`: for each of the 28 GTPv2-C element kinds whose decoding can panic, the octets at which it does, and the
   positions the decoder comes to; `V2Crash.v`, `V2CrashMm.v` (MM contexts), `V2CrashDec.v` (the element list) compare it
   with the model; `PropsV2Crash.v` (C71).
   `V1CrashSpec.v`: the GTPv1-C and GTP-U packets whose decoding panics: extension header chains, 18 element types, the
   counts and the 16-bit sums of the messages; `V1Crash.v` (headers), `V1CrashIe.v` (elements), `V1CrashMsg.v` (the message
   loop), `V1CrashPkt.v` and `V1CrashEi.v` (packets) compare it with the model; `PropsV1Crash.v` (C72).
   `V1HangSpec.v`, the packets on which a release build does not come to an end. `V1Hang.v` (extension
   headers), `V1HangIe.v` (elements of size 0), `V1HangPkt.v` (packets); `PropsV1Hang.v` (C73).
   `V2HangSpec.v`, the same for GTPv2-C, and `V2LongSpec.v`, what elements do that declare more than 65531 octets.
   `V2Hang.v`, `V2Long.v` (every kind of element with such a length), `V2CrashAll.v` (the list of elements);
   `PropsV2Hang.v` (C74, and C71 without a condition on the lengths). `PropsV2Order.v` (C75).
   `V2ReachSpec.v`: the trace of elements in terms of the octets alone; `PropsV2Reach.v` (C71 and C74 in these terms).
   `Encode.v`, `V2Encode.v`, `V1Encode.v`: the encoders once more, with the operations that can panic; `PropsV2Encode.v`, `PropsV1Encode.v` (C76).
   `V2Merge.v`: `fromvec` on a message that holds elements, the iterator and `vec_by_ins`; `PropsV2Merge.v` (C77).
   `V2Report.v`: `get_type`, `get_ins`, `is_empty`; `PropsV2Report.v` (C78).
   `V2Within.v` (decoders that stay within the element), `PropsV2Within.v` (C79).
   `V2Amplify.v` (an element takes four octets at least), `V2Volume.v` (what an element holds is bounded by a
   multiple of the octets it was read from, and what a group keeps by its members), `PropsV2Amplify.v` (C80).
   `PropsV1Within.v` (C81, the same for GTPv1-C).
   `ErrText.v` (the texts of the errors), `PropsErrText.v` (C82).
   `PropsV2Unique.v`, `PropsV1Unique.v` (C83).
   `V1Report.v` (is_empty of the GTPv1 elements and headers), `PropsV1Report.v` (C84).
   `PropsV1Shared.v` (C85).
   `PropsV2Enum.v` (C86).
   `PropsV1Spare.v`, `PropsV2Spare.v` (C87).
   `V2Parts.v`, `PropsV2Parts.v` (C88).
   `V1Amplify.v`, `PropsV1Amplify.v` (C89).
   `PropsV2Hops.v` (C90).
   `PropsV1Oversize.v`, `PropsV2Oversize.v` (C91).
   `PropsV1Smuggle.v`, `PropsV2Smuggle.v` (C92).
   `Utils.v`, `PropsUtils.v` (C93).
   `V1UForward.v`, `PropsV1UForward.v` (C94).
   `V1UErrSpec.v`, `V1UErrFacts.v`, `PropsV1UErr.v` (C95).
   `V1CHdrErrSpec.v`, `V1CHdrErrFacts.v`, `V1CTabErrFacts.v`, `PropsV1CHdrErr.v` (C96).
   `PropsV2ErrExact.v` (C97).
   `PropsV1COutcome.v`, `PropsV1UOutcome.v`, `PropsV2Outcome.v` (C98).
   `PropsV2Uli.v` (C99).
   `PropsV2Fill.v`, `PropsV1Fill.v`, `PropsV1UFill.v` (C100).

8. `ModeFacts.v`, `V1ModeFacts.v`, `V2ModeFacts.v`: debug against release builds, decoder by decoder (C63, in
   `PropsV1CRead.v` and `PropsV2Mode.v`).

A theorem named `Cxx_..._refuted` shows that the English property is false of the code in the case described in
its comment; `_partial` marks a proved part of a property that does not hold, or is not proved, in full.

## Plan per property

| id | modelled | proof |
|---|---|---|
| C01-C03 | `Gtpv1Header` marshal/unmarshal/get_header_size, all extension headers | round-trip by induction over the extension header list; the flag rule is expected to be false for three flag combinations, to be refuted with witnesses and proved for the rest |
| C04-C07 | GTP-U messages | round-trip; payload slicing lemma; type check by case analysis |
| C08-C09 | as above, with `mode` | expected false (u8 overflow in `length*4`): refutations with witnesses; the safe part proved under the weakest guard found |
| C10-C11 | `Gtpv2Header` | round-trip and totality by case analysis on the buffer prefix |
| C12-C13 | `tbcd_*`, `mcc_mnc_*` | induction on the digit string; finite sweep over MCC/MNC |
| C14-C17 | every IE | per-IE lemmas, collected in one theorem over the IE enum |
| C18-C19 | `encoder`/`decoder` | induction over the IE list; fuel adequacy |
| C20 | all | panic characterisation by IE type, refutations |
| C21-C23 | `decoder` | case analysis; expected to be false for some type codes |
| C24-C25 | grouped IEs, and the container `GroupedIe` itself (`V2GroupedIe.v`, `PropsV2Container.v`) | round-trip; depth: for each n a packet that needs depth n |
| C26-C32 | message tables extracted from `tovec`/`fromvec` | generic theorems over a table interpreter, instantiated at every message |
| C33-C34 | type codes of all messages | comparison of all pairs and with the codes of TS 29.274 |
| C35-C36 | as C26 | permutation of the fields; invariant of the decoding loop |
| C37-C39 | GTPv1-C header | as C01-C03, all flag combinations; comparison with an arithmetic description of the octets |
| C40-C42 | every GTPv1-C element | per-element lemmas, collected over the union |
| C43-C49 | message tables | generic theorems over the table interpreter; the tables are checked against the layouts by one computation |
| C50-C51 | as above, with `mode` | expected false; refutations, and the safe part under guards on the octets |
| C52-C53 | `set_length`, type codes | computation on the first octets |
| C54 | GTP-U encoders | comparison with an arithmetic description of the octets |
| C55-C56 | GTP-U decoders | an inductive description of received octets; both directions, by induction over the chain of extension headers and over the elements |
| C57 | GTP-U private extension | expected false; witnesses |
| C58 | every GTPv2 element, header, message encoder | comparison with an arithmetic description of the octets, per kind, collected over the union |
| C59 | elements whose values are converted | expected false; the octets sent and those of the standard are compared for all values |
| C60 | every GTPv1-C decoder | equivalence with an arithmetic description of received octets, per element, then by induction over the elements of a packet |
| C61 | GTPv1-C decoders and encoders | from C60: what is said by octets is well-formed up to its length field, then the round trip; expected false outside `resendable`; exactness for elements by the sizes of what is written |
| C62 | GTPv1-C message loop | the loop up to the first bad element, by induction; the arms are checked against the layouts by one computation |
| C63 | all decoders, two modes | a refinement relation between results, structurally over every decoder |
| C64 | every GTPv2-C decoder | equivalence with a grammar of received octets, per element, then a mutual induction over sequences and groups, then the message layouts; text against the encoding of single characters (`PropsV2Text.v`) |
| C65 | decoders and encoders of GTPv2-C together | from C64: what each reader gives meets the well-formedness condition of C16 under the conditions of `V2ForwardSpec.v`, by composition over the readers; members of groups by the same mutual induction; messages by C26 and C36; refutations for the conditions; exactness by comparing what the decoder reads of the octets written alone and with an element behind them, for groups by following the decoder through the members, for MM contexts by adding up how far each field moves the cursor |
| C66 | the errors of the GTPv2-C decoders | per decoder, the errors it can return; then by induction over the octets the error of a sequence is that of the first element C64's grammar does not read; messages through their layouts; refutations for the types misreported |
| C67 | GTPv2-C encoders and decoders, `set_msg_length` | from C26 and C32 by induction over the list of messages; the packet boundaries are a relation on octets only; refutation from the exact effect of encoding into a non-empty buffer |
| C68 | all three headers and all message decoders and encoders | the version error is traced through every step of every decoder; exclusiveness from the version bits |
| C69 | `Default` of the header, of all 147 element kinds and all 83 messages, with the codecs above | the defaults are well formed once their lengths are corrected (per kind), so C16 and C26 apply; the exceptions by evaluation |
| C70 | `Default` of both GTPv1 headers, of all extension headers, elements and messages, with the codecs above | what is read from the elements of a message in the order they are sent is known exactly (C60), so what arrives is too; the defaults are well formed once their lengths are corrected; the exceptions by evaluation |
| C71 | the decoders of all GTPv2-C elements, the element list with its nesting, `unmarshal` of all messages | for every element kind: panic exactly under the condition of `V2CrashSpec.v`, otherwise it returns; induction on the length of the buffer for the list and the groups; each of the 28 conditions is met by some octets |
| C72 | `unmarshal` of both GTPv1 headers with their extension headers, of all 48 GTPv1-C elements and of the 26 GTPv1-C and GTP-U messages, in both build modes | an equivalence for each decoder: the chain by induction on the fuel and on the places where an extension header is read; per element kind; the message loop by induction on the fuel (panic implies the condition) and on the elements read (the converse), with the element counts as invariant; elements of size 0 (release builds) are read forever and never lead to a crash |
| C73 | the same decoders | equivalences again. Forward: a loop that has run more often than there are octets left has met a size 0, by induction on the fuel. Backward: at such a place every fuel runs out. The elements of size 0 per kind; reading one element always ends |
| C74 | the decoders of all GTPv2-C elements, the element list with its nesting, `unmarshal` of all messages | equivalences, by induction on the length of the buffer for the list and the groups. Size 0 is traced to eleven kinds whose size is a 16-bit sum and the length 65532; each of them is read or refused under a condition of its own. With every kind of element treated for lengths above 65531, C71 becomes an equivalence for all octets |
| C75 | `fromvec` of all messages | slots and flags after the loop are functions of the elements of each field, by the invariant of C28; so equal sub-lists give equal results. Permutations by induction |
| C76 | all `marshal` functions with indexing, slicing, `unwrap`, subtraction and shifts as operations that may panic | the checked encoder equals `Ok` of the total encoder, by cases on the element; the lengths of the buffers are lower bounds on what was pushed; for F-Container an equivalence. Not modelled as operations: slices with constant bounds of arrays whose size is in their type, sums of distinct powers of two in one octet (`commons.rs` 1095-1154, `hdrcomprconfig.rs`, `twanid.rs` 70), and the `partial_cmp(..).unwrap()` of `uli.rs` 62 |
| C77 | `fromvec` on a message that already holds elements, `next` of the iterator as the last element of a fresh `tovec`, `vec_by_ins` | the fold over the list keeps, field by field, what the old contents and the list filtered for that field give; the result of the iterator by induction on the number of calls (partial: iterating is refuted; Modify Bearer Command as in C26) |
| C78 | `get_type`, `get_ins` and `is_empty` of every element kind | every successful path through every decoder ends in a struct with the type and instance; by cases on the decoder's text, for all octets (partial: false for some type codes, see the theorems `_refuted`) |
| C79 | the decoders of all element kinds | two runs of a decoder on the same element with different continuations, in lockstep: every access is below the declared end; for the other kinds a table of counterexamples, checked by computation (partial: false for 113 type codes) |
| C80 | `InformationElement::decoder` | strong induction on the octets with a count of elements at all depths; a family of packets of which the decoding is computed for every size, by induction ; a quadratic bound on what is held, from a bound for each kind of element and for each group (partial: the bound of a quarter only for debug builds, linear size refuted) |
| C81 | the decoders of all GTPv1-C element kinds | every access of a decoder is below the end of the element, so that it can be done on the element alone; for smaller lengths a table of counterexamples, checked by computation (partial: false for short elements and private extensions) |
| C82 | `Display` of both error types | texts compared by cases; decimal numbers read back by induction on the digits |
| C83 | all encoders | from the round trips: the decoder gives back what was sent, and the length field where the message ends (partial: false for kinds that share a code) |
| C84 | `is_empty` of all GTPv1 elements, extension headers and the GTPv1-C header | the shapes of the decoders keep the length field; exact conditions for the others (partial: false for IMSI, IMEI and zero values in GTP-U) |
| C85 | the header, echo and notification codecs of both halves of GTPv1 | extension by extension, then the two loops in step, then header and messages; a header of size zero is never passed (partial: false without sequence number) |
| C86 | the enumerations in `V2Enums.v`, the flags in `V2Common.v`, two enumerations of `V1CIe.v` | case analysis over the values and over the comparisons made of an octet (partial: false for nine enumerations) |
| C87 | the headers and the decoders of messages in `V1U.v`, `V1CHdr.v`, `V1CMsg.v`, `V2Base.v`, `V2Msg.v` | the header is the same, and the rest of the packet from its end on is the same (partial: false for GTP-U without S, and for echo messages of GTPv2-C with T) |
| C88 | `marshal`, `unmarshal`, `len`, `is_empty`, `default` of the structures in `V2Common.v`, `V2IeF.v`, `V2Parts.v` | per structure: round trip with any octets after it, sizes, exact panic condition, the list of empty values (partial: false for some structures, which the theorems name) |
| C89 | `msg1_unmarshal`, the GTP-U and other GTPv1-C messages, `ie1_unmarshal`, both extension header loops | loop invariant: header and what fields take beyond 12 octets each stay below twice the cursor, the private extension below twice the packet; per element kind a bound by its own `len`; a family of packets that attains the factor |
| C90 | `decoder`, `encoder`, `msg_unmarshal`, `msg_marshal` iterated | induction on the nodes with C65 as the step; for the refutation, the UTF-8 encoding of octets above 127 consists of octets above 127 |
| C91 | `set_length`, `set_msg_length`, `Gpdu_unmarshal`, `msg1_unmarshal`, `msg_unmarshal` | the length field is the size modulo 65536; the header decoder and the loop over elements of C04, C43 and C26 for any value of it; for GTPv2-C a message with two private extensions of 32768 octets more |
| C92 | `tliv`, `tlv_marshal`, the encoders of the elements with free contents, the decoders of C18, C26 and C91 | the length octets depend on the size modulo 65536 only, so the encodings are equal; the rest is the round trip of the other list or message |
| C93 | `tbcd_encode`, `tbcd_decode`, `mcc_mnc_encode`, `mcc_mnc_decode`, `set_size` and its four uses, `check_tliv_ie_buffer`, `check_tlv_ie_buffer`, `from_slice_u32`, `from_slice_u64` | digit algebra; the exact result of each function by cases on the size of the buffer |
| C94 | GTP-U decoders and encoders | from C55 and C56: what octets say, written again; a reader that is ahead of the writer in a chain of extension headers never meets it again, by induction on the chain |
| C95 | GTP-U decoders | a specification of refused and fatal octets beside that of accepted ones (C55, C56); the three cover all octet strings, by induction on the extension headers and on the elements, and each determines the result |
| C96 | GTPv1-C decoders | a specification of refused octets beside that of accepted (C60) and fatal ones (C72); totality for the header, by induction on the extension headers; for the messages made of elements, induction on the decoding loop gives what was read when it stops, and the lemmas of C62 the error for it |
| C97 | GTPv2-C message decoders | the converse of C66: the decoder is computed for the packets of each sort in the specification of C66, and the sorts of errors are disjoint |
| C98 | all message decoders | the exact conditions for a message, an error and a crash, each proved equivalent to a result of one decoder, and termination |
| C99 | `Uli::marshal`, `Uli::unmarshal` | the order is total and antisymmetric; insertion sort gives a sorted list; the first of each kind in a sorted list is the least, by induction; two ascending lists with the same members are equal; then the round trip of C16 |
| C100 | `marshal` of every element and message | case analysis over the kinds: the octets of the length are overwritten; then induction over the fields |

## Trusted base

* Coq's kernel (8.16.1) and its VM (`vm_compute`).
* `Print Assumptions` of each property theorem (after each theorem in the property files): closed under the
  global context. The check of
  the compiled files lists the seven fields of `Coq.ssr.ssrunder.Under_rel`, a sealed module of the standard library
  that is loaded with it; no theorem here depends on them.
* Not modelled: `Debug` output, `Clone`, performance, memory exhaustion. (The crate has no socket side.)
* The reading of the Rust source: the model is a hand transcription; each definition
  cites file and lines. It has been run against the vectors of the crate's own unit tests: `RepoVectorsV1U.v`,
  `RepoVectorsV1C.v` and `RepoVectorsV2.v` take the octets of 844 of them (all that state octets; the exceptions are
  twelve tests of private structures of `commons.rs`, the two of `configurationtransfertunnel.rs` and two without an
  expected value) and check that the decoder of the model returns what the test expects, a value or an error, and that
  the encoder returns the octets. The expected values are in the notation of the model; they were compared with the
  Rust text of the tests by a script, number by number. These are tests, not proofs, and no claim rests on them.
