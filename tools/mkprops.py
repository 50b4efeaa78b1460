import json
P=[]
def p(title,statement,quantifier,why,anchors):
    P.append(dict(id="C%02d"%(len(P)+1),title=title,statement=statement,quantifier=quantifier,why_tests_cant=why,anchors=anchors))
U="src/gtpv1/gtpu/"
V2="src/gtpv2/"
p("GTP-U header round-trip",
 "For a GTPv1-U header whose optional part is in one of the combinations the format can express (none; sequence number with or without N-PDU number and with or without extension headers), marshalling it in front of any payload and unmarshalling the resulting bytes gives the same header, whatever bytes follow.",
 "all header field values, all lists of well-formed extension headers of any length, all following payloads",
 "the field space and the extension header chain are unbounded",
 [U+"header.rs: Gtpv1Header::marshal, Gtpv1Header::unmarshal, marshal_ext_hdr, unmarshal_ext_hdr"])
p("GTP-U header optional fields follow the S/PN/E flags",
 "After a successful GTP-U header decode, the sequence number is present exactly when the S flag of the first octet is set, the N-PDU number exactly when PN is set, and extension headers exactly when E is set.",
 "all byte buffers",
 "needs every flag combination with every buffer",
 [U+"header.rs: Gtpv1Header::unmarshal"])
p("GTP-U header size agrees with the bytes written",
 "The header size reported by the API equals the number of octets marshal appends for that header, so that payload decoding starts exactly after the header.",
 "all headers, all extension header lists",
 "unbounded extension header lists",
 [U+"header.rs: get_header_size, marshal"])
p("GTP-U G-PDU payload is delivered unchanged",
 "For every user payload whose packet has a length field between 1 and 65527, decoding the octets produced by encoding a G-PDU returns exactly that payload and TEID; octets that follow the packet in the buffer never leak into the payload.",
 "all payloads, all headers in the expressible combinations, all trailing bytes",
 "payload space is unbounded",
 [U+"messages/gpdu.rs: Gpdu::marshal, Gpdu::unmarshal"])
p("GTP-U signalling messages round-trip",
 "Echo Request/Response, Error Indication, End Marker and Supported Extension Headers Notification, with a header length field that is non-zero and matches, decode back to the message that was encoded.",
 "all field values and all optional parts of the five messages",
 "unbounded private extension / extension list contents",
 [U+"messages/*.rs"])
p("GTP-U length field is the number of octets after the mandatory header",
 "After marshal into an empty buffer octets 3-4 equal the number of octets following the first eight, as long as that number fits 16 bits; when it does not fit it is silently reduced modulo 65536.",
 "all messages and payload sizes",
 "needs payloads of every size",
 ["src/gtpv1/utils.rs: set_length", U+"messages/*.rs"])
p("GTP-U decoding rejects a wrong message type",
 "Unmarshalling as message X a packet whose type octet is not X's never succeeds.",
 "all buffers, all message kinds",
 "all buffers",
 [U+"messages/*.rs: unmarshal"])
p("GTP-U decoding is crash-free on arbitrary octets",
 "No byte string received from the network makes GTP-U unmarshal panic, in debug or release builds.",
 "all byte buffers, both overflow-check modes",
 "the input space is all byte strings",
 [U+"header.rs",U+"extensionheaders/*.rs",U+"messages/*.rs"])
p("GTP-U extension header walk terminates",
 "Decoding the extension header chain of any packet terminates, and each decoded extension header consumes at least four octets.",
 "all byte buffers, both overflow-check modes",
 "non-termination cannot be observed by a finite test",
 [U+"header.rs: unmarshal_ext_hdr", U+"extensionheaders/*.rs: len"])
p("GTPv2 header round-trip",
 "A GTPv2-C header with 24-bit sequence number and 4-bit message priority decodes back to itself from the octets it was encoded to, whatever follows.",
 "all header values, all trailing bytes",
 "value space too large to enumerate",
 [V2+"header.rs: Gtpv2Header::marshal, unmarshal, construct_flags"])
p("GTPv2 header decoding is total and validates version and length",
 "Header unmarshal never panics; it succeeds only on buffers of at least 8 (12 with TEID) octets with version 2, and the TEID is present exactly when the T flag is set.",
 "all byte buffers",
 "all byte buffers",
 [V2+"header.rs: Gtpv2Header::unmarshal"])
p("TBCD digits round-trip",
 "Every string of decimal digits of any length encoded as TBCD decodes back to the same digits, for odd and even lengths.",
 "all digit strings",
 "unbounded strings",
 ["src/gtpv1/utils.rs: tbcd_encode, tbcd_decode", V2+"utils.rs: tbcd_encode, tbcd_decode"])
p("PLMN (MCC/MNC) round-trip",
 "Every MCC/MNC pair with three-digit MCC and two- or three-digit MNC decodes back to the values that were encoded.",
 "all MCC 0..999, all MNC 0..999, both MNC widths",
 "combination space; leading zeros",
 [V2+"utils.rs: mcc_mnc_encode, mcc_mnc_decode","src/gtpv1/utils.rs"])
p("GTPv2 IE framing",
 "Each information element is encoded as type octet, 16-bit length, instance octet, value; the length field equals the number of value octets when that number fits 16 bits.",
 "all IE kinds, all field values",
 "unbounded values, 150 IE kinds",
 [V2+"messages/ies/*.rs: marshal", V2+"utils.rs: set_tliv_ie_length"])
p("Message encoding is append-only",
 "Encoding a message into a buffer that already holds octets leaves those octets untouched and appends exactly the octets that encoding into an empty buffer gives.",
 "all messages, all initial buffers",
 "all initial buffer contents",
 [U+"messages/*.rs: marshal", V2+"messages/*.rs: marshal", V2+"utils.rs: set_msg_length"])
p("GTPv2 IE round-trip",
 "Every well-formed IE decodes back to itself from the octets it was encoded to, whatever octets follow it.",
 "all IE kinds, all well-formed field values, all trailing bytes",
 "unbounded values",
 [V2+"messages/ies/*.rs: marshal, unmarshal"])
p("GTPv2 IE length accounting",
 "The size an IE reports equals the number of octets its encoding occupies, so consecutive IEs are delimited correctly.",
 "all IE kinds, all well-formed values",
 "unbounded values",
 [V2+"messages/ies/*.rs: len"])
p("GTPv2 IE list round-trip",
 "Decoding the concatenated encodings of any list of well-formed IEs yields that list, in order.",
 "all lists of well-formed IEs of any length",
 "unbounded lists, every adjacency of IE kinds",
 [V2+"messages/ies/ie.rs: encoder, decoder"])
p("GTPv2 IE list decoding terminates",
 "Decoding any byte string as an IE list terminates; every decoded IE advances the read position.",
 "all byte buffers, both overflow-check modes",
 "non-termination is not observable by tests",
 [V2+"messages/ies/ie.rs: decoder", V2+"messages/ies/*.rs: len"])
p("GTPv2 decoding is crash-free on arbitrary octets",
 "No byte string makes GTPv2 IE or message unmarshal panic, in debug or release builds.",
 "all byte buffers, both overflow-check modes",
 "the input space is all byte strings",
 [V2+"messages/ies/*.rs: unmarshal", V2+"utils.rs: check_tliv_ie_buffer", V2+"messages/*.rs: unmarshal"])
p("GTPv2 IE type dispatch",
 "An IE found on the wire with the type code of kind K is decoded by kind K's decoder.",
 "all type codes, all IE contents",
 "every type code with every content",
 [V2+"messages/ies/ie.rs: InformationElement::decoder"])
p("Unknown GTPv2 IEs are preserved",
 "An IE with an unassigned type code survives decode and re-encode unchanged.",
 "all unassigned type codes, all contents",
 "all contents",
 [V2+"messages/ies/unknown.rs"])
p("Declared IE length is honoured",
 "After decoding an IE, the next IE is read at the position given by the declared length of the IE, even if the IE carries more octets than this release understands.",
 "all IE kinds, all declared lengths",
 "all declared lengths at all positions",
 [V2+"messages/ies/*.rs: len, unmarshal", V2+"messages/ies/ie.rs: decoder"])
p("Grouped IE round-trip",
 "A grouped IE (bearer context, PDN connection, load control, overload control, ...) decodes back to the same members.",
 "all member values and combinations",
 "combination space",
 [V2+"messages/ies/bearercontext.rs", V2+"messages/ies/groupedie.rs"])
p("Grouped IE nesting depth is bounded",
 "The recursion depth of decoding is bounded independently of the input.",
 "all byte buffers",
 "needs adversarial nesting",
 [V2+"messages/ies/ie.rs: decoder", V2+"messages/ies/groupedie.rs: unmarshal"])
p("GTPv2 message round-trip",
 "Every well-formed GTPv2-C message decodes back to itself from its own encoding.",
 "all message kinds, all field values, all optional-IE combinations",
 "2^n optional combinations times unbounded contents",
 [V2+"messages/*.rs: marshal, unmarshal, tovec, fromvec"])
p("GTPv2 mandatory IEs are enforced",
 "A message decode succeeds only if each mandatory IE occurred; otherwise the missing-mandatory-IE error with the code of a missing IE is returned.",
 "all message kinds, all IE lists",
 "all IE sequences",
 [V2+"messages/*.rs: fromvec"])
p("GTPv2 duplicate IEs: first occurrence wins",
 "For a single-valued field, the value kept is that of the first IE of the right kind and instance; later duplicates are ignored. Multi-valued fields keep all in order.",
 "all message kinds, all IE sequences",
 "all sequences",
 [V2+"messages/*.rs: fromvec"])
p("GTPv2 irrelevant IEs do not disturb decoding",
 "Inserting an IE of a kind/instance the message does not define anywhere in the IE list does not change the decoded message.",
 "all message kinds, all IE sequences, all insertion points",
 "all sequences",
 [V2+"messages/*.rs: fromvec"])
p("GTPv2 message type is checked",
 "Unmarshal as message X of a packet with another type octet returns the incorrect-message-type error, never a message.",
 "all buffers, all message kinds",
 "all buffers",
 [V2+"messages/*.rs: unmarshal"])
p("GTPv2 truncated messages are rejected, trailing octets ignored",
 "A buffer shorter than the declared message length is rejected; octets after the declared length have no influence on the result.",
 "all buffers, all trailing bytes",
 "all buffers",
 [V2+"messages/*.rs: unmarshal"])
p("GTPv2 message length field",
 "After marshal into an empty buffer octets 3-4 hold the number of octets after the first four, if it fits 16 bits.",
 "all messages",
 "unbounded contents",
 [V2+"utils.rs: set_msg_length", V2+"messages/*.rs: marshal"])
p("GTPv2 message kinds have distinct type codes",
 "No packet is accepted as two different kinds of GTPv2-C message: the type codes of the message kinds are pairwise distinct.",
 "all pairs of message kinds",
 "tests decode a packet as the kind it was made for",
 [V2+"messages/*.rs: MSG_TYPE constants, unmarshal", V2+"messages/commons.rs"])
p("GTPv2 message type codes are those of the standard",
 "The type octet of an encoded message is the one 3GPP TS 29.274 assigns to its kind.",
 "all message kinds, all messages",
 "round-trip tests pass with any code",
 [V2+"messages/*.rs: MSG_TYPE constants"])
p("GTPv2 encoding loses no IE",
 "Encoding a message writes its header and every IE of every field exactly once, and nothing else.",
 "all message kinds, all field contents",
 "all combinations of optional and repeated fields",
 [V2+"messages/*.rs: tovec, marshal"])
p("GTPv2 decoded messages are well-typed",
 "In every message that decoding returns each field holds only IEs of the kind and instance of the field, a single-valued field at most one, and every mandatory field its IE.",
 "all message kinds, all buffers, both build modes",
 "all buffers",
 [V2+"messages/*.rs: unmarshal, fromvec"])
V1="src/gtpv1/gtpc/"
p("GTPv1-C header round-trip",
 "A GTPv1-C header with any combination of sequence number, N-PDU number and extension headers decodes back to itself from the octets it was encoded to, whatever follows; those octets are the ones TS 29.060 lays out.",
 "all header values, all lists of well-formed extension headers, all following octets",
 "the field space and the extension header chain are unbounded",
 [V1+"header.rs: Gtpv1Header::marshal, Gtpv1Header::unmarshal, marshal_ext_hdr, unmarshal_ext_hdr", V1+"extensionheaders/*.rs"])
p("GTPv1-C header size agrees with the octets",
 "The size a header reports is the number of octets its encoding takes, and the size of a decoded header does not exceed the packet it was decoded from.",
 "all headers, all packets",
 "unbounded extension header lists; all packets",
 [V1+"header.rs: len, marshal, unmarshal"])
p("GTPv1-C header fields follow the flags",
 "A header is accepted only from eight octets or more with version 1 and protocol type GTP; the sequence number, the N-PDU number and the extension headers are present exactly when their own flag is set and are read from their own octets.",
 "all byte buffers",
 "needs every flag combination with every buffer",
 [V1+"header.rs: Gtpv1Header::unmarshal"])
p("GTPv1-C IE round-trip",
 "Every well-formed information element decodes back to itself from the octets it was encoded to, whatever octets follow it.",
 "all 48 element kinds, all values in range, all following octets",
 "unbounded values and contexts",
 [V1+"messages/ies/*.rs: marshal, unmarshal"])
p("GTPv1-C IE octets",
 "The octets of every well-formed information element are those of TS 29.060 7.7: type, two-octet length for types from 128 on, value; and each message decodes an element with the decoder of its type.",
 "all 48 element kinds, all values in range",
 "a round-trip test cannot see an error shared by encoder and decoder; values are unbounded",
 [V1+"messages/ies/*.rs: marshal", V1+"messages/*.rs: unmarshal"])
p("GTPv1-C IE length accounting",
 "The size an element reports is the number of octets its encoding occupies, so that the next element is read at the right place.",
 "all 48 element kinds, all values in range, both build modes",
 "unbounded values",
 [V1+"messages/ies/*.rs: len, marshal"])
p("GTPv1-C message round-trip",
 "Every well-formed GTPv1-C message that fits the length field decodes back to itself from its own encoding, with the length filled in.",
 "all 20 message kinds, all combinations of optional elements, all element values",
 "combinations of some forty optional elements with unbounded values",
 [V1+"messages/*.rs: marshal, unmarshal"])
p("GTPv1-C message type is checked",
 "Decoding as message X a packet with another type octet returns the incorrect-message-type error.",
 "all buffers, all message kinds",
 "all buffers",
 [V1+"messages/*.rs: unmarshal"])
p("GTPv1-C truncated messages are rejected, trailing octets ignored",
 "A packet shorter than its declared length is rejected with the length error; octets after the declared length have no influence on the result.",
 "all buffers, all message kinds, both build modes",
 "all buffers",
 [V1+"messages/*.rs: unmarshal"])
p("GTPv1-C mandatory IEs are enforced",
 "A packet is accepted only if it carries an element for every mandatory field; one that lacks one, and is in order otherwise, is answered with the missing-mandatory-IE error.",
 "all buffers, all message kinds",
 "all buffers",
 [V1+"messages/*.rs: unmarshal"])
p("GTPv1-C elements come in ascending order and are known",
 "In every accepted packet the element types never decrease and each is one the message defines.",
 "all buffers, all message kinds",
 "all sequences of elements",
 [V1+"messages/*.rs: unmarshal"])
p("GTPv1-C repeated elements",
 "The n-th field of a type holds the n-th element of that type in the packet; further ones are dropped.",
 "all buffers, all message kinds, any number of repetitions, both build modes",
 "any number of repetitions",
 [V1+"messages/*.rs: unmarshal"])
p("GTPv1-C acceptance is characterised",
 "A packet is accepted as message X exactly when its header is, the type and the length fit, the octets after the header read as elements one after the other, in ascending order, known to X and with every mandatory one among them.",
 "all buffers, all message kinds",
 "all buffers",
 [V1+"messages/*.rs: unmarshal"])
p("GTPv1-C decoding is crash-free on arbitrary octets",
 "No byte string received from the network makes GTPv1-C unmarshal panic, in debug or release builds.",
 "all byte buffers, all message kinds, both build modes",
 "the input space is all byte strings",
 [V1+"header.rs", V1+"messages/ies/*.rs: unmarshal, len", V1+"messages/*.rs: unmarshal"])
p("GTPv1-C decoding terminates",
 "Decoding any byte string as any GTPv1-C message terminates.",
 "all byte buffers, all message kinds, both build modes",
 "non-termination cannot be observed by a finite test",
 [V1+"header.rs: unmarshal_ext_hdr", V1+"messages/*.rs: unmarshal"])
p("GTPv1-C message length field",
 "After encoding into an empty buffer octets 3-4 hold the number of octets after the first eight, if it fits 16 bits.",
 "all messages",
 "unbounded contents",
 ["src/gtpv1/utils.rs: set_length", V1+"messages/*.rs: marshal"])
p("GTPv1-C message types",
 "Each decoder accepts only packets with the type code TS 29.060 gives its message, so that no packet is accepted as two messages of different type.",
 "all buffers, all pairs of message kinds",
 "tests decode a packet as the kind it was made for",
 [V1+"messages/*.rs: message type constants, unmarshal"])
p("GTP-U octets on the wire",
 "Every GTP-U header and message is sent as the octets TS 29.281 prescribes: flags, type, length of everything after the eighth octet, TEID, optional fields with zero for absent ones, extension headers closed by a zero, then the elements in order with type, length and big-endian numbers.",
 "all headers and messages with values in range that fit the length field",
 "round-trip tests cannot see an encoder and decoder that agree on a wrong format",
 [U+"header.rs: marshal", U+"extension_headers/*.rs: marshal", U+"messages/*.rs: marshal", U+"messages/ies/*.rs: marshal"])
p("GTP-U header meaning",
 "Octets are accepted as a GTP-U header exactly when they are version 1, protocol type GTP, of non-zero length and, where extension headers are read, carry a chain of them closed by a zero; every field of the result is the number in its octets, and the payload starts where the header ends.",
 "all byte buffers",
 "all buffers, unbounded chains",
 [U+"header.rs: unmarshal, unmarshal_ext_hdr, get_header_size", U+"extension_headers/*.rs: unmarshal"])
p("GTP-U message acceptance",
 "A packet is accepted as a GTP-U message exactly when its header is, the type and length fit, and the octets after the header are the elements the message requires in ascending order; the result holds the values in those octets, and the first of repeated elements.",
 "all byte buffers, all six messages",
 "all buffers, any number of repetitions",
 [U+"messages/*.rs: unmarshal", U+"messages/ies/*.rs: unmarshal"])
p("GTP-U elements are recognised by their type",
 "What a decoded GTP-U message reports as an element was received under the type octet of that element, with the value its length field delimits.",
 "all byte buffers",
 "all buffers",
 [U+"messages/echoreq.rs: unmarshal", U+"messages/errorindication.rs: unmarshal", U+"messages/ies/privateextension.rs: unmarshal"])
p("GTPv2-C octets",
 "Every GTPv2-C element, header and message whose values fit their fields is sent as exactly the octets TS 29.274 gives for those values: type, length, instance, then each field at its place; a message is its header followed by its elements.",
 "all elements of all kinds, all headers, all messages whose values fit the fields",
 "all field values, nested groups, any number of elements",
 [V2+"messages/ies/*.rs: marshal", V2+"header.rs: marshal", V2+"messages/*.rs: marshal"])
p("Encodings agree with the standard where values are converted",
 "The P-TMSI signature, transaction identifier, UE time zone, APN relative capacity, home eNB identifier, F-TEID without an address and EPC timer are sent as the 3GPP standard encodes the value the user gave.",
 "all values of those elements",
 "all values; the round trip hides a wrong encoding because the decoder makes the same mistake",
 [V2+"messages/ies/ptmsisignature.rs: marshal", V2+"messages/ies/transactionid.rs: marshal", V2+"messages/ies/uetimezone.rs: marshal", V2+"messages/ies/apnrelativecapacity.rs: marshal", V2+"messages/ies/fteid.rs: marshal", V2+"messages/ies/epctimer.rs: marshal", V1+"messages/ies/mstimezone.rs: marshal"])
p("GTPv1-C octets mean what TS 29.060 says",
 "Received octets are read as a GTPv1-C header, element or message exactly when they say it: each field of the result is the number, digits, name, flags or address in its octets, elements follow each other where the previous one ends, and nothing else is accepted.",
 "all byte buffers; all 49 element kinds, all twenty messages",
 "all buffers, any number of elements; the round trip hides a decoder that misreads octets no encoder of this library writes",
 [V1+"header.rs: unmarshal", V1+"messages/ies/*.rs: unmarshal", V1+"messages/*.rs: unmarshal"])
p("GTPv1-C forwarding",
 "A gateway that decodes a GTPv1-C packet and sends what it decoded sends a packet that is read as the same values, whatever spare bits, wrong lengths or trailing octets the received packet had.",
 "all byte buffers that are accepted",
 "received octets are not limited to those an encoder of this library writes",
 [V1+"messages/*.rs: unmarshal, marshal", V1+"messages/ies/*.rs: unmarshal, marshal", V1+"header.rs: unmarshal, marshal"])
p("GTPv1-C errors name the cause",
 "A packet in which an element cannot be decoded is reported as lacking a mandatory element if the element is mandatory in this message, and as having an incorrect optional one if it is optional; an unknown or misplaced element is an invalid format. The decoder does not panic.",
 "all byte buffers with one such element after any number of correct ones; all sixteen messages made of elements",
 "any prefix of correct elements, any malformed element",
 [V1+"messages/*.rs: unmarshal"])
p("Debug and release builds agree",
 "For any octets the decoders of a build with overflow checks and of one without return the same result, or the former panics.",
 "all byte buffers, all decoders of the three protocols",
 "all buffers, both builds",
 [U+"header.rs: unmarshal", U+"messages/*.rs: unmarshal", V1+"messages/*.rs: unmarshal", V2+"messages/*.rs: unmarshal", V2+"messages/ies/*.rs: unmarshal"])
p("GTPv2-C octets mean what TS 29.274 says",
 "Received octets are read as a GTPv2-C header, element, sequence of elements or message exactly when they say it: each field of the result is the number, digits, name, flags or address in its octets, the members of a group make its fields, each element begins where the previous one ends, each field of a message holds the elements of its kind and instance, and nothing else is accepted. No octets mean two things.",
 "all byte buffers; all element kinds, groups nested to any depth, all 83 messages",
 "all buffers, any number and nesting of elements; the round trip hides a decoder that misreads octets no encoder of this library writes",
 [V2+"header.rs: unmarshal", V2+"messages/ies/*.rs: unmarshal", V2+"messages/ies/ie.rs: decoder", V2+"messages/*.rs: unmarshal, fromvec"])
p("GTPv2-C forwarding",
 "A node that decodes GTPv2-C elements or a message and sends what it decoded sends octets that are read as the same values, with lengths that are those of the octets sent, whatever spare bits, wrong lengths, repeated or unexpected members or trailing octets were received; sending them on once more changes nothing.",
 "all byte buffers that are accepted; all element kinds, groups of groups, all 83 messages",
 "received octets are not limited to those an encoder of this library writes",
 [V2+"messages/ies/*.rs: unmarshal, marshal", V2+"messages/ies/ie.rs: decoder, encoder", V2+"messages/*.rs: unmarshal, marshal"])
p("GTPv2-C errors name the cause",
 "An error returned for received octets says what is wrong with them: a header error says which rule of the header is broken; an error that names an element type is returned only if the first element that cannot be read has this type; a missing mandatory element is reported as missing, with its type, and only if no element of its kind and instance was received. Nothing else makes a decoder refuse.",
 "all byte buffers that are refused; all element kinds, groups nested to any depth, all 83 messages",
 "all buffers, any number and nesting of correct elements before the wrong one",
 [V2+"header.rs: unmarshal", V2+"messages/ies/*.rs: unmarshal", V2+"messages/ies/ie.rs: decoder", V2+"messages/*.rs: unmarshal, fromvec", V2+"errors.rs"])
p("Several GTPv2-C messages in one packet",
 "Messages that are encoded and put into one packet one after the other are found again by their length fields, in only one way, and each decodes to itself from where the previous one ends; this holds however they are encoded into the packet.",
 "all lists of well-formed messages of all kinds, all octets after them",
 "any number of messages with any contents",
 [V2+"messages/*.rs: marshal, unmarshal", V2+"utils.rs: set_msg_length", V2+"header.rs: length"])
p("Protocol version",
 "A packet of another protocol version is refused with the version-not-supported error, for this reason only, by every message decoder; no packet is accepted both as GTPv1 (GTP-U or GTPv1-C) and as GTPv2-C; what an encoder writes carries its own version.",
 "all byte buffers, all 109 message decoders, all messages, both builds",
 "all buffers and all pairs of decoders",
 [U+"header.rs: unmarshal", V1+"header.rs: unmarshal", V2+"header.rs: unmarshal", V2+"messages/*.rs: unmarshal, marshal", V1+"messages/*.rs: unmarshal, marshal"])
p("GTPv2-C fields left at their default",
 "A message or element built with the struct update syntax (some fields given, ..X::default() for the rest) arrives with the fields that were given and the defaults of the others; the length fields need not be right. The default of an element carries its own type code and instance 0, the default of a message its own type and a TEID exactly if its kind has one. An element or a message that is not given anything arrives as well.",
 "all values of the given fields, all 147 element kinds, all 83 messages, all TEIDs, sequence numbers and priorities, whatever follows in the buffer",
 "all values of all subsets of the fields; what the receiver makes of a default is not visible in the sender",
 [V2+"header.rs: Default", V2+"messages/ies/*.rs: Default, marshal, unmarshal", V2+"messages/*.rs: Default, marshal, unmarshal"])
p("GTPv1 fields left at their default",
 "A GTPv1-C or GTP-U message built with the struct update syntax (some fields given, ..X::default() for the rest) arrives with the fields that were given and the defaults of the others; the length fields need not be right. The default of an element carries its own type code and the default of a message its own type. An element or a message that is not given anything arrives as well.",
 "all values of the given fields, all 48 GTPv1-C element kinds, all 26 messages, all extension headers; every GTPv1-C message struct however its fields are filled with well-formed elements",
 "all values of all subsets of the fields; what the receiver makes of a default is not visible in the sender",
 [V1+"header.rs: Default", V1+"messages/ies/*.rs: Default, marshal, unmarshal", V1+"messages/*.rs: Default, marshal, unmarshal", U+"header.rs, extension_headers/*.rs: Default", U+"messages/*.rs: Default, marshal, unmarshal", "examples/sending_msg.rs"])
p("Which GTPv2-C packets crash the receiver",
 "Unmarshalling a GTPv2-C packet panics exactly if its header can be read, has the type of the message and declares no more octets than there are, and either the declared length does not cover the header the message should have, or decoding comes to an information element - at the top level or inside a group - of one of 28 kinds whose flags, counts and lengths lead past the end of the buffer, in the way written down for each kind. Elements of all other kinds never crash, each of the 28 does for some octets. That is the case for elements that declare up to 65531 octets; with more, the 16-bit sum of the length and 4 overflows, and which elements then crash is written down for each kind and build mode. Every other packet gives a message or an error, or is not returned from (C74).",
 "all packets, all 83 messages, all element kinds at all nesting depths, all lengths, debug and release builds",
 "whether reading stays inside the buffer depends on every flag, count and length in the packet; fuzzing finds crashes but cannot show that the list is complete",
 [V2+"messages/*.rs: unmarshal", V2+"messages/ies/*.rs: unmarshal", V2+"messages/ies/ie.rs: InformationElement::decoder"])
p("Which GTPv1 packets crash the receiver",
 "Unmarshalling a GTPv1-C or GTP-U packet panics exactly if one of the following holds. Its chain of extension headers leads past the end of the packet or overflows the 8-bit length. Its header is read and names the message, and the 16-bit sum of the length field and 8 overflows (debug builds), or the end of a G-PDU given by the length field (the sum taken modulo 65536 in release builds) lies within its header. Or decoding comes, through elements it can read and whose types ascend, to an element of one of 18 types with a length or contents written down for that type, to the 256th element of a type (debug builds), or, in an Update PDP Context Request, to a first GSN address that is refused. Every other packet gives a message or an error, or is not returned from (C51).",
 "all packets, all 26 message decoders, all 48 GTPv1-C element kinds, all chains of extension headers, debug and release builds",
 "whether reading stays inside the buffer depends on every flag, count and length in the packet; fuzzing finds crashes but cannot show that the list is complete",
 [V1+"header.rs: unmarshal", V1+"messages/*.rs: unmarshal", V1+"messages/ies/*.rs: unmarshal, len", U+"header.rs: unmarshal", U+"extension_headers/*.rs: unmarshal", U+"messages/*.rs: unmarshal"])
p("Which GTPv1 packets hang the receiver",
 "A debug build of the crate comes to an end on every GTPv1-C and GTP-U packet. In a release build, unmarshalling does not come to an end exactly if one of the following holds. Its chain of extension headers comes, through headers that fit, to one of a type with fixed contents whose length octet is 64, 128 or 192 and whose contents are there. Or, in one of the 16 GTPv1-C messages read by a loop or in a GTP-U Error Indication, decoding comes, through elements it can read and whose types ascend and belong to the message, to an element of one of ten types with the length field 65533 and as many octets as the type reads. Together with the packets that crash (C72) these are all the packets that get no answer.",
 "all packets, all 26 message decoders, all 48 GTPv1-C element kinds, all chains of extension headers, debug and release builds, any number of iterations",
 "non-termination cannot be observed by a test, and which packets cause it depends on every length in the packet modulo 256 and 65536",
 [V1+"header.rs: unmarshal", V1+"messages/*.rs: unmarshal", V1+"messages/ies/*.rs: unmarshal, len", U+"header.rs: unmarshal", U+"extension_headers/*.rs: unmarshal, len", U+"messages/*.rs: unmarshal"])
p("Which GTPv2-C packets hang the receiver",
 "A debug build of the crate comes to an end on every GTPv2-C packet. In a release build, unmarshalling does not come to an end exactly if the header can be read and has the type of the message, the message has the octets it declares, and decoding its elements comes - at the top level or inside a group - to an F-TEID, Complete Request Message, F-Container, FQ-CSID, Remote UE IP Information or Extended Trace Information element with the length field 65532 that is otherwise readable. Such an element has the size 0 and is read again in every round. Together with the packets that crash (C71) these are all the packets that get no answer.",
 "all packets, all 83 messages, all element kinds at all nesting depths, all lengths, debug and release builds, any number of rounds",
 "non-termination cannot be observed by a test, and which packets cause it depends on every length in the packet modulo 65536",
 [V2+"messages/*.rs: unmarshal", V2+"messages/ies/*.rs: unmarshal, len", V2+"messages/ies/ie.rs: InformationElement::decoder"])
p("GTPv2-C element order",
 "What a receiver gets from a GTPv2-C packet depends, for every field of the message, only on the elements that belong to that field and their order among themselves: two packets that agree in this give the same fields or the same error. So elements of different kinds may be exchanged, any order will do if no field gets two elements, and a message arrives whatever the order in which its sender writes the elements and whatever elements of no field stand between them.",
 "all packets, all 83 messages, all lists of elements and all their permutations, debug and release builds",
 "the number of orders grows with the factorial of the number of elements; tests try the order in which the crate itself writes them",
 [V2+"messages/*.rs: unmarshal, fromvec", V2+"messages/ies/ie.rs: InformationElement::decoder"])
p("Which messages crash the sender",
 "Marshalling a header, an information element or a message does not panic, whatever its fields hold, in a debug or a release build, and whatever the buffer already holds - with one exception: a GTPv2-C F-Container whose container is of an unknown type and has no octets panics, and so does every message that holds one in a field that is encoded. A message that was received can always be sent on without a panic.",
 "all values of all fields of all GTPv1-C, GTP-U and GTPv2-C headers, elements and messages, all buffers, debug and release builds",
 "an encoder that indexes or subtracts can fail for one combination of empty fields that no test tries",
 [V2+"utils.rs: set_msg_length, set_tliv_ie_length, mcc_mnc_encode", V2+"messages/ies/*.rs: marshal", V2+"messages/*.rs: marshal", V2+"messages/ies/fcontainer.rs: marshal", "src/gtpv1/utils.rs: set_length, set_tlv_ie_length, mcc_mnc_encode", U+"header.rs: marshal", V1+"messages/ies/*.rs: marshal", V1+"messages/*.rs: marshal", U+"messages/*.rs: marshal"])
p("GTPv2-C messages and lists of elements",
 "A GTPv2-C message can be taken apart into a list of elements and filled from one. The list holds every element of the message once, and a new message filled from it is the message again (a Modify Bearer Command must hold at most one bearer context for this). Filling a message that already holds elements keeps them and adds to them, field by field: a field that is a Vec grows at its end, another field takes the last element for it or keeps the first, as it does on reception; elements that belong to no field are ignored. Whether it fails depends on the list alone, as if the message had been new - except in Update Bearer Request and Delete Bearer Failure Indication, where bearer contexts already held count. A message is changed even if filling it fails, and filling it from its own list doubles its Vec fields. Iterating over the elements of a message visits each once and ends. Selecting by instance returns the elements of that instance, all and in order.",
 "all 83 messages, all values of their fields, all lists of elements, any number of calls of the iterator",
 "the effect depends on what the message already holds, on the order of the list and on how often the iterator is called",
 [V2+"messages/commons.rs: Messages, Iterator for dyn Messages, vec_by_ins", V2+"messages/*.rs: tovec, fromvec"])
p("What a GTPv2-C element tells about itself",
 "The type of a received element is its type octet, its instance the low four bits of the instance octet, and it is empty exactly if its length field is zero (or, for an element with extended type, the type extension). False in part: a Trace Reference reports type 83, a TWAN Identifier 168 and an element of unknown type 0; 18 kinds of elements and those of unknown type report the whole instance octet, spare bits included; and that an element is empty does not mean that it has no contents, since the contents are not looked at: an element whose length field was left at zero is empty and sent with its contents.",
 "all octets, all element kinds, all contents, debug and release builds",
 "the answer must hold for every type code, every instance octet and every length, of all 146 kinds",
 [V2+"messages/ies/commons.rs: IEs", V2+"messages/ies/*.rs: get_type, get_ins, is_empty"])
p("GTPv2-C elements stay within their octets",
 "What a receiver reads from an element comes from the octets of the element, those its length field covers, and not from what follows in the packet. True for 37 of the 150 type codes the library knows, for all groups among them, and for elements of unknown type. False for each of the 113 others: there are octets of an element and two ways in which the packet can go on such that both packets are accepted and the contents of the element are different, because the decoder reads as many octets as the contents need and not as many as the element declares.",
 "all type codes, all octets of an element with a length of up to 65531, all continuations of the packet, debug and release builds",
 "tests try elements with correct lengths; what a wrong length leads to depends on everything that follows",
 [V2+"messages/ies/*.rs: unmarshal", V2+"utils.rs: check_tliv_ie_buffer", V2+"messages/ies/ie.rs: InformationElement::decoder"])
p("GTPv2-C work and memory follow the octets received",
 "A receiver decodes at most one element, counting those inside groups, for every four octets it received; and what it holds afterwards is proportional to what it received. The first is true in a debug build. The second is false, in both kinds of build: k copies of a Presence Reporting Area Information of twelve octets are decoded into k elements that hold 6k(k+1) octets together, because the areas of each are read up to the end of the buffer although the element is stepped over as twelve octets. So a packet of 65520 octets makes a receiver hold 178 million octets worth of elements.",
 "all octets, debug and release builds",
 "a ratio between input and memory must hold for every size of the input; tests use short messages, for which a quadratic growth does not show",
 [V2+"messages/ies/ie.rs: InformationElement::decoder", V2+"messages/ies/prai.rs: PresenceReportingAreaInformation::unmarshal, len", V2+"messages/ies/groupedie.rs: GroupedIe::unmarshal"])
p("GTPv1 elements stay within their octets",
 "What a receiver reads from a GTPv1 element (GTPv1-C or GTP-U) comes from the octets of the element (its fixed size for types below 128, else those its length field covers), and what follows in the packet decides neither whether it is accepted nor what it holds. True for types below 128, and for every other kind but the private extension if the element declares at least the octets that its kind has. False if it declares fewer: for every kind with a value of a fixed size and every smaller length there is an element that is completed from the octets that follow. False for the private extension and the list of extension header types, which hold everything up to the end of the packet.",
 "all kinds of element, all octets of an element with a length of up to 65532, all continuations of the packet, debug and release builds",
 "tests try elements with correct lengths; what a wrong length leads to depends on everything that follows",
 ["src/gtpv1/gtpc/messages/ies/*.rs: unmarshal", "src/gtpv1/utils.rs: check_tlv_ie_buffer"])
p("Errors are told apart by their text",
 "The text of an error (Display) tells which error it is: different errors have different texts, and the text of an error that names an element or message by its type code shows the code as a decimal number that can be read back from it.",
 "all GTPv1 and GTPv2-C errors with all type codes",
 "tests compare the texts of some errors with themselves; that no two coincide is a statement about all pairs and all codes",
 ["src/gtpv1/errors.rs: Display for GTPV1Error", V2+"errors.rs: Display for GTPV2Error"])
p("Octets determine the message that was sent",
 "Two different messages of a protocol are never sent as the same octets, and no GTPv2-C message is sent as octets that begin with those of another, so that any number of messages in one packet are determined by the octets. Messages that differ only in the length in the header, which the encoder fills in, count as the same. False for the two pairs of GTPv2-C kinds that share a type code: a Resume Notification and a Stop Paging Indication can be the same octets.",
 "all pairs of messages that can be sent (those of C04, C05, C26 and C43), all sequences of GTPv2-C messages",
 "a statement about all pairs of messages; tests encode a few",
 [V2+"messages/*.rs: marshal", "src/gtpv1/gtpc/messages/*.rs: marshal", "src/gtpv1/gtpu/messages/*.rs: marshal"])
p("What a GTPv1 element tells about itself",
 "A GTPv1 element, extension header or header that was received says that it is empty (is_empty) exactly if it has no octets of value: a header with nothing but its default, an extension header that is the end mark, an element of variable size whose length is zero. False for the IMSI (empty if its only digit is 0), the IMEI (never), and in GTP-U for values of zero, which count as no value.",
 "all octets, all element kinds and extension headers, both builds",
 "tests do not call is_empty; for which octets it holds is a statement about all of them",
 ["src/gtpv1/gtpc/messages/ies/*.rs: is_empty", "src/gtpv1/gtpu/messages/ies/*.rs: is_empty", "src/gtpv1/gtpu/extensionheaders/*.rs: is_empty", "src/gtpv1/gtpc/header.rs: is_empty"])
p("GTP-U and GTPv1-C agree on the messages they share",
 "Echo request, echo response and supported extension headers notification exist in both halves of the GTPv1 library. A packet that both accept is understood alike: same type, length, TEID, sequence number, N-PDU number, extension headers (as far as their contents are kept) and elements; each accepts what the other accepts; corresponding messages are sent as the same octets. False for a packet without sequence number that has another optional field, and GTPv1-C accepts packets that GTP-U refuses.",
 "all octets, all three messages, both builds",
 "tests decode a packet with one of the two halves only; agreement is a statement about all packets",
 ["src/gtpv1/gtpu/header.rs", "src/gtpv1/gtpc/header.rs", "src/gtpv1/gtpu/messages/{echoreq,echoresp,supportedexthdrnotification}.rs", "src/gtpv1/gtpc/messages/{echoreq,echoresp,supportedexthdrnotification}.rs"])
p("Enumerated values and their octets",
 "The enumerations of the library are converted to octets and back (u8::from and From<u8>). Every value is found again from its octet, so that no two share one; every octet that stands for a value gives the same octet back; an octet that stands for no value becomes the spare or reserved value, or, in GTPv1-C, an error. False for eight enumerations, where it becomes a value with a meaning, such as no integrity protection.",
 "all values and all octets of 19 enumerations of GTPv2-C, two of GTPv1-C, and two sets of flags",
 "tests convert one or two values of some enumerations; the claim is about all values and octets",
 ["src/gtpv2/messages/ies/*.rs: From<u8>, u8::from", "src/gtpv2/messages/ies/commons.rs: AccessRestrictionMM, ExtendedAccessRestrictionMM", "src/gtpv1/gtpc/messages/ies/{rattype,apnrestriction}.rs: value_to_enum, enum_to_value"])
p("Header bits and octets that carry nothing are ignored",
 "Two packets that differ only in spare bits and octets of the header, or in header fields whose flag is not set, are read alike: the same message, or the same error. The piggybacking flag of GTPv2-C changes nothing but the flag of the message that is read. False for GTP-U packets with E or PN set and S not set, where unflagged octets are evaluated and can even stop the program; false for GTPv2-C echo messages with T set; and the piggybacking flag is not compared with what the packet contains.",
 "all pairs of packets that differ in such places only, all message decoders, both builds",
 "tests use zero in spare places; the claim is about all contents of them and all packets around them",
 ["src/gtpv1/gtpu/header.rs: unmarshal", "src/gtpv1/gtpc/header.rs: unmarshal", "src/gtpv2/header.rs: unmarshal", "src/gtpv2/messages/echoreq.rs: unmarshal", "src/gtpv1/gtpu/messages/*.rs: unmarshal"])
p("Structures inside GTPv2-C elements on their own",
 "The public structures that GTPv2-C elements are made of (identities of cells, areas, nodes and networks, authentication vectors, rate control status, security context, target and source type) can be used on their own. unmarshal() of what marshal() wrote gives the value back, whatever octets follow; len() is the number of octets written; unmarshal() never panics; is_empty() is true of the default value and of no other. Each of the four is false for some structures, and exactly for which values and octets is stated: an RNC id takes following octets for its extension, an EN-gNB without both area codes is not read, target and source types do not write the octet that they read first, len() of a RAI is 6 for 7 octets, authentication vectors that end at a length octet panic, and a different digit count of the network code is empty too.",
 "all 25 structures, all values that their octets have room for, all octets that may follow, all buffers",
 "tests marshal one value of a few structures inside an element and nothing after it; the claim is about all values, and where it fails there are single octets for which it does",
 ["src/gtpv2/messages/ies/commons.rs: marshal, unmarshal, len, is_empty", "src/gtpv2/messages/ies/targetid.rs: TargetType, RncIdentifier, EnGNbIdentifier", "src/gtpv2/messages/ies/sourceid.rs: SourceType, SourceRncIdentifier"])
p("GTPv1 memory and work follow the packet",
 "What a GTPv1 message holds after unmarshal() is at most twice the packet: marshal() of it takes no more than 2 octets for each octet received and a constant, which is 12 for each of the at most 39 fields of a GTPv1-C message of elements and 2 for its header, 2 (and no factor) for the other GTPv1-C messages, 24 for a GTP-U error indication and nothing for the other GTP-U messages. The elements decoded on the way are at most as many as the octets received, half as many in a debug build. The factor 2 is attained, by GTP-U packets with Long PDCP PDU Number extension headers of four octets.",
 "all messages of GTPv1-C and GTP-U, all octet strings received, debug builds and release builds (there, for GTPv1-C messages of elements, packets shorter than 65536 octets)",
 "tests decode well-formed packets; the bound is about the packet that a sender chooses to make the receiver hold and do as much as possible",
 ["src/gtpv1/gtpc/messages: unmarshal, marshal", "src/gtpv1/gtpu/messages: unmarshal, marshal", "src/gtpv1/gtpu/extensionheaders/longpdcppdunumber.rs: LongPDCPPDUNumber", "src/gtpv1/gtpc/messages/ies/apn.rs: Apn"])
p("Elements forwarded by many nodes stay as they are",
 "A chain of nodes, each of which decodes the GTPv2-C elements (or the message) it receives and sends what it has decoded, does not change them any more after the first node: whatever the number of nodes and their builds, the last one sends the octets that the first one sent. It holds for elements that can be sent on (C65), and for messages of such elements whose header has a TEID if and only if their kind has one. It fails for others: text with octets above 127 is encoded as UTF-8 of the characters with those numbers, so it is twice as long after each node, and a name of one octet is lost at the seventeenth.",
 "all octet strings, all sequences of nodes of debug and release builds",
 "tests decode and encode once; how a value behaves under repetition needs an induction on the number of nodes",
 ["src/gtpv2/messages/ies/ie.rs: decoder, encoder", "src/gtpv2/messages: unmarshal, marshal", "src/gtpv2/messages/ies/ldn.rs: Ldn", "src/gtpv2/utils.rs: set_tliv_ie_length, set_msg_length"])
p("A message that is too long is not taken for another",
 "A message that is longer than its 16-bit length field can say either arrives whole or is refused; the receiver never accepts a different message. True of the GTPv1-C messages and of the GTP-U messages other than G-PDU, which are read to the end of the packet whatever the length field says (with the exceptions of C43; a debug build panics on some if the field says more than 65527). False of G-PDUs: marshal() writes the length modulo 65536 and the receiver takes that many octets, so a payload that is 65536 octets longer than p is received as p. False of GTPv2-C: of every message with a list of private extensions there is a longer one, well formed, that is received as the shorter one.",
 "all messages of any size; G-PDU: all payloads; GTPv2-C: all well-formed messages of the 80 kinds with private extensions; debug and release builds",
 "tests do not build packets of more than 65535 octets; the claim is about all of them",
 ["src/gtpv1/utils.rs: set_length", "src/gtpv2/utils.rs: set_msg_length", "src/gtpv1/gtpu/messages/gpdu.rs: Gpdu", "src/gtpv1/gtpc/messages: unmarshal", "src/gtpv2/messages: unmarshal"])
p("The contents of an element are not taken for other elements",
 "Whatever octets an application puts into an element, the receiver finds them in that element; they are never received as elements of their own, and never change the other elements of the message. True as long as the contents fit the 16-bit length field of the element. False beyond: marshal() writes the length of the contents modulo 65536, so for every sequence of elements whose octets are a multiple of 65536 there is an element (of 14 kinds of GTPv2-C and 6 of GTPv1-C) that is sent as a shorter one followed by that sequence. A GTPv2-C message with such an element is received with other elements in the place of those that follow it; a GTPv1-C message with elements it does not have.",
 "all elements with freely chosen contents, all sequences of elements to be hidden in them, all lists of elements and messages around them; debug and release builds",
 "tests do not use contents of more than 65535 octets; the claim is about every way to choose them",
 ["src/gtpv1/utils.rs: set_tlv_ie_length", "src/gtpv2/utils.rs: set_tliv_ie_length", "src/gtpv2/messages/ies: marshal", "src/gtpv1/gtpc/messages/ies: marshal"])
p("The public helper functions on any arguments",
 "The helper functions of gtpv1::utils and gtpv2::utils can be called on any arguments. tbcd_decode() gives the decimal digits among the half octets, and tbcd_encode() gives the octets back exactly if they are the octets of a number. mcc_mnc_decode() panics on fewer than three octets; its result is encoded as the same octets exactly if they are a PLMN identity. Of an MCC or MNC of four or five digits mcc_mnc_encode() sends the first three. set_msg_length() and set_tlv_ie_length() write the number of octets that follow the fixed part and change nothing else, or panic on buffers without a length field; set_tliv_ie_length() and set_length() write a wrong length into too short buffers in release builds. check_tliv_ie_buffer() and check_tlv_ie_buffer() say whether the value is there, except for lengths above 65531 and 65532, where debug builds panic and release builds say yes to nearly any buffer. from_slice() reads a big-endian number or panics.",
 "all octets, all pairs of u16 numbers, all buffers and all u16 lengths; debug and release builds",
 "tests call the helpers with well-formed arguments; the claim is about all arguments the types allow",
 ["src/gtpv1/utils.rs: tbcd_encode, tbcd_decode, mcc_mnc_encode, mcc_mnc_decode, set_length, set_tlv_ie_length, check_tlv_ie_buffer", "src/gtpv2/utils.rs: tbcd_encode, tbcd_decode, mcc_mnc_encode, mcc_mnc_decode, set_msg_length, set_tliv_ie_length, check_tliv_ie_buffer, FromSlice"])
p("GTP-U forwarding",
 "A node that decodes a GTP-U packet and sends what it decoded sends a packet that is read as the same values exactly in these cases. A G-PDU: if its extension headers with a number in them (PDCP PDU number, UDP port, service class indicator: one unit of four octets; long PDCP PDU number: two units) have the length of their kind; trailing octets, spare octets, flags and other extension headers do not matter. The signalling messages: if in addition the length field counts the octets that are sent, modulo 65536, and so do the length of a private extension and of a list of extension header types. For an Echo Request or End Marker without private extension there is one more case, a last extension header with a long PDCP PDU number in one unit.",
 "all octet strings that a debug build decodes as a GTP-U message of the type, of any size; sent on to debug and release builds",
 "tests encode values and decode them again; a forwarder starts from octets a peer chose, with lengths and flags that no encoder of this library writes",
 ["src/gtpv1/gtpu/header.rs: Gtpv1Header", "src/gtpv1/gtpu/extensionheaders: marshal, unmarshal, len", "src/gtpv1/gtpu/messages: Gpdu, EchoRequest, EchoResponse, EndMarker, ErrorIndication, SupportedExtensionHeadersNotification"])
p("GTP-U errors name the cause",
 "A GTP-U packet that is not accepted is refused with the error for what is wrong with it, and each error is returned in exactly these cases. Header: fewer than 8 octets, a zero length, or flags set and fewer than 12 octets (HeaderInvalidLength); another version or protocol type (HeaderVersionNotSupported); an extension header of length 0 or cut short, after good ones (ExtHeaderInvalidLength). Message: another type (MessageIncorrectMessageType); shorter than its length says (MessageLengthError); and for each message what follows the header: a missing or damaged mandatory element, elements out of order or of unknown type, a damaged private extension. The packets that stop the program instead are listed in the same way, and there is no other outcome.",
 "all octet strings of any length; all GTP-U headers and messages; builds with overflow checks (the header errors: all builds)",
 "tests show one packet per error; that no other packet gets the error, and that every other packet gets another one, is about all packets",
 ["src/gtpv1/gtpu/header.rs: Gtpv1Header::unmarshal", "src/gtpv1/gtpu/extensionheaders: unmarshal", "src/gtpv1/gtpu/messages: Gpdu, EchoRequest, EchoResponse, EndMarker, ErrorIndication, SupportedExtensionHeadersNotification", "src/gtpv1/errors.rs: GTPV1Error"])
p("Which GTPv1-C packets get which error",
 "A GTPv1-C packet is refused with a given error in exactly the cases this error is for. Header: fewer than 8 octets, or fewer than the fields announced by the flags need (HeaderInvalidLength); another version or protocol type (HeaderVersionNotSupported); an extension header of length 0 or cut short, after good ones (ExtHeaderInvalidLength). Message: another type (MessageIncorrectMessageType); shorter than its length says (MessageLengthError); for echo messages, Version Not Supported and Supported Extension Headers what is missing or damaged after the header; for the sixteen other messages, after elements that are known and in order: an element out of order or of a type not in the message (MessageInvalidMessageFormat), an element that cannot be decoded (the report of the field it is for), or the end of the packet without a mandatory element (MessageMandatoryIEMissing).",
 "all octet strings of any length; the GTPv1-C header and all twenty messages; builds with overflow checks for 'exactly', all builds for 'these packets get this error'",
 "tests show one packet per error; that no other packet gets the error is about all packets",
 ["src/gtpv1/gtpc/header.rs: Gtpv1Header::unmarshal", "src/gtpv1/gtpc/extensionheaders: unmarshal", "src/gtpv1/gtpc/messages: unmarshal of every message", "src/gtpv1/errors.rs: GTPV1Error"])
p("Which GTPv2-C packets get which error",
 "A GTPv2-C packet is refused with a given error in exactly the cases this error is for. A header that cannot be read: MessageInvalidLength, HeaderVersionNotSupported or HeaderInvalidLength, as its octets have it. A readable header of another message: MessageIncorrectMessageType. A packet that ends before the length in its header: MessageInvalidMessageFormat. An element that cannot be read, in a packet that does not crash or hang the receiver: an error for an element (IEInvalidLength, IEIncorrect). Elements that can all be read, and one missing that the message must have: MessageMandatoryIEMissing. No other errors are returned.",
 "all octet strings of any length; all GTPv2-C messages; builds with overflow checks for 'exactly', all builds for 'these packets get this error'",
 "tests show one packet per error; that no other packet gets the error is about all packets",
 ["src/gtpv2/header.rs: Gtpv2Header::unmarshal", "src/gtpv2/messages: unmarshal of every message", "src/gtpv2/messages/ies/ie.rs: InformationElement::decoder", "src/gtpv2/errors.rs: GTPV2Error"])
p("Every packet has one outcome that its octets settle",
 "Whatever octets arrive and whichever message they are decoded as, they settle what happens: they are exactly one message, or they have a fault and are refused, or they crash the receiver. No octet string is a message in two ways, or both a message and faulty, or none of the three. For GTP-U and GTPv1-C the error is determined as well and a fatal packet has no other fault; for GTPv2-C a packet may have a fault and be fatal, and then it crashes the receiver.",
 "all octet strings of any length; all messages of GTP-U, GTPv1-C and GTPv2-C; builds with overflow checks",
 "that three descriptions of packets cover all packets without overlap is about all octet strings; tests sample them",
 ["src/gtpv1/gtpu/messages: unmarshal of every message", "src/gtpv1/gtpc/messages: unmarshal of every message", "src/gtpv2/messages: unmarshal of every message"])
p("A user location is sent with one location of each kind, whatever the order",
 "The octets of a GTPv2-C user location depend only on which locations it was given, not on their order or on repetitions. It is sent with the least location of each kind (compared number by number, country and network first) in the order of the kinds, and this is what the receiver has, whatever follows the element. A second, greater location of a kind is not sent.",
 "all lists of locations of any length and order; all octets after the element; both builds",
 "a test gives one list; the property is about all lists and all their orders, including those with repetitions",
 ["src/gtpv2/messages/ies/uli.rs: Uli::marshal, Uli::unmarshal", "src/gtpv2/messages/ies/commons.rs: derived order of Cgi, Sai, Rai, Tai, Ecgi, Lai, MacroEnbId, ExtMacroEnbId"])
p("Lengths that a program puts into elements and headers do not change what is sent",
 "A message sent into an empty buffer has the same octets whatever numbers stand in the length fields of its elements (also inside grouped ones) and in the length of its header, in GTPv1-U, GTPv1-C and GTPv2-C. In GTPv2-C the type field of an element does not matter either, except for a user location and an element of unknown type, which are sent with the type given. In GTPv1-C every element is sent with the type given, except the restart counter, always sent with type 14. The length of a GTPv1-U extension header is sent as given.",
 "all elements and messages of GTPv1-U, GTPv1-C and GTPv2-C, all numbers in their length and type fields",
 "a program may leave any number in these public fields; tests set the right ones",
 ["src/gtpv2/messages/ies: IEs::marshal of every element", "src/gtpv2/messages/ies/uli.rs: Uli::marshal", "src/gtpv2/messages/ies/unknown.rs: Unknown::marshal", "src/gtpv2/utils.rs: set_tliv_ie_length, set_msg_length", "src/gtpv1/gtpc/messages/ies: marshal of every element", "src/gtpv1/gtpc/messages/ies/recovery.rs: Recovery::marshal", "src/gtpv1/gtpu/messages: marshal of every message", "src/gtpv1/gtpu/header.rs: ExtensionHeader::marshal", "src/gtpv1/utils.rs: set_length, set_tlv_ie_length"])
open('/verif/properties.jsonl','w').write(''.join(json.dumps(x)+'\n' for x in P))
print(len(P))
