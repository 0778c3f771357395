{"id": "C01", "title": "GTPv2 message parsing is total", "statement": "gtpv2/message.Parse on any byte string whatsoever returns either a message or an error: it never panics (index or slice out of range, nil dereference) and always terminates.", "quantifier": "every byte string of every length, and every grouped-IE classification function installed with SetIsGroupedFun/AddGroupedIEType", "why_tests_cant": "The input space is unbounded; a test samples a few byte strings, and the failing ones are those nobody thought of.", "anchors": ["gtpv2/message/message.go:Parse", "gtpv2/message/header.go:Header.UnmarshalBinary", "gtpv2/ie/ie.go:IE.UnmarshalBinary", "gtpv2/ie/ie.go:ParseMultiIEs"]}
{"id": "C02", "title": "GTPv1 message parsing is total on datagrams", "statement": "gtpv1/message.Parse on any byte string shorter than 65536 bytes (every UDP datagram) returns a message or an error, never a panic. For longer inputs this fails: the 16-bit arithmetic on the Length field wraps and a slice expression panics.", "quantifier": "every byte string; the bound 65536 is shown to be needed by a witness", "why_tests_cant": "The input space is unbounded; a test samples a few byte strings, and the failing ones are those nobody thought of.", "anchors": ["gtpv1/message/message.go:Parse", "gtpv1/message/header.go:Header.UnmarshalBinary", "gtpv1/message/extension-header.go", "gtpv1/ie/ie.go:ParseMultiIEs"]}
{"id": "C03", "title": "GTPv0 message parsing is total on datagrams", "statement": "gtpv0/message.Parse on any byte string shorter than 65536 bytes returns a message or an error, never a panic, and always terminates.", "quantifier": "every byte string", "why_tests_cant": "The input space is unbounded; a test samples a few byte strings, and the failing ones are those nobody thought of.", "anchors": ["gtpv0/message/message.go:Parse", "gtpv0/message/header.go:Header.UnmarshalBinary", "gtpv0/ie/ie.go:ParseMultiIEs"]}
{"id": "C04", "title": "Top-level Parse selects the protocol version", "statement": "gtp.Parse never panics on datagrams; it rejects inputs shorter than 8 bytes, returns a GTPv0/v1/v2 message exactly when the top three bits of the first byte are 0/1/2 and that version's parser accepts, and rejects every other version value.", "quantifier": "every byte string shorter than 65536 bytes", "why_tests_cant": "The input space is unbounded; a test samples a few byte strings, and the failing ones are those nobody thought of.", "anchors": ["gtp.go:Parse"]}
{"id": "C05", "title": "IE list parsing is total and consumes the whole input", "statement": "ParseMultiIEs (v0, v1, v2) on any byte string terminates without panic; when it succeeds the returned IEs account for every input byte in order, none skipped and none read twice.", "quantifier": "every byte string", "why_tests_cant": "The input space is unbounded; a test samples a few byte strings, and the failing ones are those nobody thought of.", "anchors": ["gtpv2/ie/ie.go:ParseMultiIEs", "gtpv1/ie/ie.go:ParseMultiIEs", "gtpv0/ie/ie.go:ParseMultiIEs"]}
{"id": "C06", "title": "GTPv2 IE marshal/parse round trip", "statement": "For every well-formed GTPv2 IE (any type, instance below 16, payload below 65536 bytes; grouped IEs with arbitrarily nested children) Marshal succeeds with exactly MarshalLen bytes and Parse of the result is the same IE, including the tree of children.", "quantifier": "all IEs, all nesting depths, all payloads", "why_tests_cant": "Trees of unbounded depth and width.", "anchors": ["gtpv2/ie/ie.go:IE.Marshal", "gtpv2/ie/ie.go:Parse", "gtpv2/ie/ie_grouped.go"]}
{"id": "C07", "title": "GTPv2 IE parse/marshal is byte-exact", "statement": "If parsing a GTPv2 IE succeeds, marshalling the result reproduces exactly the bytes that the IE occupied on the wire (4 + Length of them), so relaying an IE never alters it.", "quantifier": "every byte string accepted by the parser", "why_tests_cant": "The input space is unbounded; a test samples a few byte strings, and the failing ones are those nobody thought of.", "anchors": ["gtpv2/ie/ie.go:IE.UnmarshalBinary", "gtpv2/ie/ie.go:IE.MarshalTo"]}
{"id": "C08", "title": "GTPv1 IE round trip", "statement": "For every GTPv1 IE whose payload size matches its format (fixed size for known TV types, any size below 65536 for TLV types, below 256 for the one-byte-length type 141) Parse(Marshal(ie)) is ie; the exceptions (single trailing zero-length TV, unknown TV types) are exhibited.", "quantifier": "all IE types and payloads", "why_tests_cant": "The input space is unbounded; a test samples a few byte strings, and the failing ones are those nobody thought of.", "anchors": ["gtpv1/ie/ie.go"]}
{"id": "C09", "title": "GTPv0 IE round trip", "statement": "For every GTPv0 IE whose payload size matches its format Parse(Marshal(ie)) is ie.", "quantifier": "all IE types and payloads", "why_tests_cant": "The input space is unbounded; a test samples a few byte strings, and the failing ones are those nobody thought of.", "anchors": ["gtpv0/ie/ie.go"]}
{"id": "C10", "title": "GTPv2 header round trip", "statement": "For every GTPv2 header with consistent Length (as SetLength computes it) Marshal then ParseHeader returns the same header: flags, type, TEID when the T flag is set, the 24-bit sequence number, the spare/priority octet and the payload; payload sizes that fit the 16-bit length are all covered.", "quantifier": "all flags, types, TEIDs, sequence numbers below 2^24 and payloads", "why_tests_cant": "The input space is unbounded; a test samples a few byte strings, and the failing ones are those nobody thought of.", "anchors": ["gtpv2/message/header.go"]}
{"id": "C11", "title": "GTPv1 header round trip", "statement": "For every GTPv1 header built by the constructor, with any combination of E/S/PN flags and any well-formed chain of extension headers, Marshal then ParseHeader returns the same header and payload.", "quantifier": "all flags, types, TEIDs, sequence numbers, N-PDU numbers, extension header chains of any length, payloads", "why_tests_cant": "The input space is unbounded; a test samples a few byte strings, and the failing ones are those nobody thought of.", "anchors": ["gtpv1/message/header.go", "gtpv1/message/extension-header.go"]}
{"id": "C12", "title": "GTPv0 header round trip", "statement": "Marshal then ParseHeader of a GTPv0 header preserves flags, type, length, sequence number, flow label, TID and payload. The SNDCP number is not preserved: it is written to one octet and read from the next (refuted).", "quantifier": "all header values", "why_tests_cant": "The input space is unbounded; a test samples a few byte strings, and the failing ones are those nobody thought of.", "anchors": ["gtpv0/message/header.go"]}
{"id": "C13", "title": "GTPv1 extension header chains round trip", "statement": "Encoding a chain of extension headers and parsing it gives back the same chain; the parser stops exactly at the header whose next type is 0, for every content size the one-byte length can express.", "quantifier": "chains of any length and any content sizes", "why_tests_cant": "Unbounded chains.", "anchors": ["gtpv1/message/extension-header.go"]}
{"id": "C14", "title": "Marshalled GTPv2 messages have the announced size", "statement": "For every GTPv2 message type and every value of its fields, Marshal yields exactly MarshalLen bytes: the header followed by the encodings of all IEs present, in order, and the header's Length field counts the bytes that follow the fixed part.", "quantifier": "all message types, all field values (any number of list elements)", "why_tests_cant": "The cross product of optional fields is exponential and lists are unbounded.", "anchors": ["gtpv2/message/*.go:MarshalTo", "gtpv2/message/*.go:MarshalLen"]}
{"id": "C15", "title": "GTPv2 message construct/marshal/parse round trip", "statement": "For every GTPv2 message type and every list of IEs handed to its constructor, parsing the marshalled message yields a message with the same type, TEID, sequence number and the same IE in every field. Message types whose constructor and parser disagree are listed and refuted.", "quantifier": "all message types, all IE lists (any order, duplicates, nil entries)", "why_tests_cant": "Exponentially many field combinations; order and duplicates matter.", "anchors": ["gtpv2/message/*.go:New*", "gtpv2/message/*.go:UnmarshalBinary", "gtpv2/message/*.go:MarshalTo"]}
{"id": "C16", "title": "Parsed GTPv2 messages can be re-marshalled", "statement": "Marshalling a message obtained from Parse succeeds and parsing the result again gives the same message, for every byte string accepted by Parse.", "quantifier": "every byte string accepted by Parse", "why_tests_cant": "The input space is unbounded; a test samples a few byte strings, and the failing ones are those nobody thought of.", "anchors": ["gtpv2/message/*.go"]}
{"id": "C17", "title": "GTPv1 message size, round trip and re-marshalling", "statement": "The same three guarantees (announced size, construct/marshal/parse round trip, re-marshalling after parse) for GTPv1 messages. Several v1 messages do not reset the header payload and cannot be re-marshalled after a parse: refuted for each.", "quantifier": "all v1 message types, all IE lists", "why_tests_cant": "Exponentially many field combinations; the failure needs a second Marshal.", "anchors": ["gtpv1/message/*.go"]}
{"id": "C18", "title": "GTPv0 message size, round trip and re-marshalling", "statement": "The same three guarantees for GTPv0 messages.", "quantifier": "all v0 message types, all IE lists", "why_tests_cant": "Exponentially many field combinations.", "anchors": ["gtpv0/message/*.go"]}
{"id": "C19", "title": "Message type dispatch is faithful", "statement": "Parse picks the message structure registered for the type octet and never another; every unassigned type octet gives a generic message, and the message reports the type octet that was on the wire.", "quantifier": "all 256 type octets, all byte strings", "why_tests_cant": "Needs all types times all payloads.", "anchors": ["gtpv2/message/message.go:Parse", "gtpv1/message/message.go:Parse", "gtpv0/message/message.go:Parse"]}
{"id": "C20", "title": "No IE of a message is silently lost", "statement": "An IE handed to a constructor or found by the parser ends in the field of its type and instance or in the additional IEs; it disappears only when a later IE claims the same single-valued field. Message types that drop unknown IEs or unexpected instances are listed and refuted.", "quantifier": "all message types, all IE lists", "why_tests_cant": "Exponentially many combinations of types, instances and repetitions.", "anchors": ["gtpv2/message/*.go", "gtpv1/message/*.go", "gtpv0/message/*.go"]}
{"id": "C21", "title": "MarshalTo writes only its own bytes", "statement": "MarshalTo into any buffer at least MarshalLen long writes exactly the bytes Marshal would return to its start and leaves the remainder unchanged, whatever the buffer held before.", "quantifier": "all IEs, headers and messages and all buffers", "why_tests_cant": "The input space is unbounded; a test samples a few byte strings, and the failing ones are those nobody thought of.", "anchors": ["gtpv2/ie/ie.go:IE.MarshalTo", "gtpv1/ie/ie.go:IE.MarshalTo", "gtpv0/ie/ie.go:IE.MarshalTo", "gtpv2/message/header.go:Header.MarshalTo"]}
{"id": "C22", "title": "Grouped IE editing keeps the IE consistent", "statement": "After any sequence of Add and Remove on a grouped IE, its Payload is the concatenation of the encodings of its children, its Length equals the payload size, its children are those a plain list would hold, and FindByType returns the first child with that type and instance.", "quantifier": "every sequence of edits", "why_tests_cant": "Histories are unbounded.", "anchors": ["gtpv2/ie/ie_grouped.go:NewGroupedIE", "gtpv2/ie/ie_grouped.go:IE.Add", "gtpv2/ie/ie_grouped.go:IE.Remove", "gtpv2/ie/ie_grouped.go:IE.FindByType"]}
{"id": "C23", "title": "PLMN encoding is invertible", "statement": "DecodePLMN(EncodePLMN(mcc, mnc)) = (mcc, mnc) for every 3-digit MCC and every 2- or 3-digit MNC; the encoding is 3 bytes long and injective.", "quantifier": "all digit strings", "why_tests_cant": "A million combinations; tests use a handful.", "anchors": ["utils/utils.go:EncodePLMN", "utils/utils.go:DecodePLMN"]}
{"id": "C24", "title": "BCD digit strings are invertible", "statement": "SwappedBytesToStr(StrToSwappedBytes(s, f), cut) = s for every hexadecimal lower-case string s, with cut true exactly when the length is odd; non-hexadecimal strings are rejected.", "quantifier": "all strings of any length", "why_tests_cant": "Unbounded strings.", "anchors": ["utils/utils.go:StrToSwappedBytes", "utils/utils.go:SwappedBytesToStr"]}
{"id": "C25", "title": "FQDN/APN label encoding is invertible", "statement": "DecodeFQDN(EncodeFQDN(s)) = s for every string whose dot-separated labels are at most 255 bytes; DecodeFQDN is total on every byte string; with a label of 256 bytes or more the round trip fails (refuted).", "quantifier": "all strings and byte strings", "why_tests_cant": "Unbounded strings.", "anchors": ["utils/utils.go:EncodeFQDN", "utils/utils.go:DecodeFQDN", "gtpv2/ie/apn.go", "gtpv1/ie/apn.go", "gtpv0/ie/apn.go"]}
{"id": "C26", "title": "24-bit and 40-bit integers are invertible", "statement": "Uint24To32(Uint32To24(n)) = n mod 2^24 and Uint40To64(Uint64To40(n)) = n mod 2^40 for every n, and the opposite composition is the identity on 3- and 5-byte strings.", "quantifier": "all integers", "why_tests_cant": "2^32/2^64 values.", "anchors": ["utils/utils.go:Uint24To32", "utils/utils.go:Uint32To24", "utils/utils.go:Uint40To64", "utils/utils.go:Uint64To40", "utils/utils.go:ParseECI"]}
{"id": "C27", "title": "F-TEID codec", "statement": "An F-TEID IE built from interface type (below 64), TEID and optional v4/v6 addresses decodes to the same values through every accessor; decoding never panics and never reads a field its flags do not announce.", "quantifier": "all interface types, TEIDs, addresses; all payloads for decoding", "why_tests_cant": "The input space is unbounded; a test samples a few byte strings, and the failing ones are those nobody thought of.", "anchors": ["gtpv2/ie/f-teid.go"]}
{"id": "C28", "title": "PDN address allocation codec", "statement": "A PAA IE built from an IPv4, IPv6 or dual address decodes to the same addresses and type; decoding never panics.", "quantifier": "all addresses; all payloads", "why_tests_cant": "The input space is unbounded; a test samples a few byte strings, and the failing ones are those nobody thought of.", "anchors": ["gtpv2/ie/paa.go"]}
{"id": "C29", "title": "QoS codecs", "statement": "Bearer QoS, Flow QoS and AMBR IEs decode to the ARP, QCI and 40-bit/32-bit bit rates they were built from (40-bit values up to 2^40-1) and decoding never panics; MBRForUplink on a Flow QoS IE always returns 0 (refuted).", "quantifier": "all parameter values", "why_tests_cant": "2^160 values.", "anchors": ["gtpv2/ie/bearer-qos.go", "gtpv2/ie/flow-qos.go", "gtpv2/ie/ambr.go"]}
{"id": "C30", "title": "User location information codec", "statement": "Encoding any subset of the eight location components (CGI, SAI, RAI, TAI, ECGI, LAI, MeNBI, EMeNBI) and decoding gives the same subset with the same values; truncated payloads are rejected, never a panic.", "quantifier": "all 256 subsets and all values; all payloads", "why_tests_cant": "Unbounded combination.", "anchors": ["gtpv2/ie/uli.go"]}
{"id": "C31", "title": "Traffic flow template codec", "statement": "Encoding a TFT (operation, packet filters or filter identifiers, parameters) and decoding gives the same TFT for up to 15 filters and an odd number of parameters; with an even non-zero number of parameters the E bit is computed wrongly and the parameters are lost (refuted); decoding never panics.", "quantifier": "all TFTs; all payloads", "why_tests_cant": "Unbounded lists.", "anchors": ["gtpv2/ie/tft.go"]}
{"id": "C32", "title": "Protocol configuration options codec", "statement": "Encoding a PCO with any list of containers and decoding gives the same list; decoding of PCO payloads never panics. Decoding of the PPP/IPCP/PAP containers panics on crafted lengths (refuted).", "quantifier": "all container lists; all payloads", "why_tests_cant": "Unbounded lists.", "anchors": ["gtpv2/ie/pco.go", "gtpv2/ie/pco-ppp.go"]}
{"id": "C33", "title": "Indication flags", "statement": "NewIndication followed by the 72 Has-accessors returns each flag exactly as given, no two flags collide; accessors never panic on shorter indications.", "quantifier": "all 2^72 flag combinations; all payloads", "why_tests_cant": "2^72 combinations.", "anchors": ["gtpv2/ie/indication.go"]}
{"id": "C34", "title": "Cause flags", "statement": "A Cause IE decodes to the cause value and the PCE, BCE and CS flags it was built with. The BCE and CS accessors are swapped (refuted), the remaining claims hold.", "quantifier": "all values", "why_tests_cant": "Flags interact.", "anchors": ["gtpv2/ie/cause.go"]}
{"id": "C35", "title": "Timer codecs", "statement": "EPC timer, throttling, delay value, UE time zone and ULI timestamp IEs decode to the duration/time they were built from on their representable values; values rounded or corrupted are characterised (units above 31 lose bits, refuted).", "quantifier": "all representable values", "why_tests_cant": "Boundary between units.", "anchors": ["gtpv2/ie/epc-timer.go", "gtpv2/ie/throttling.go", "gtpv2/ie/delay-value.go", "gtpv2/ie/ue-timezone.go", "gtpv2/ie/uli-timestamp.go"]}
{"id": "C36", "title": "Identity codecs (v2)", "statement": "IMSI, MSISDN, MEI, EBI, serving network, GUTI, FQ-CSID, trace reference, global CN-ID and user CSG information IEs decode to the values they were built from; the exceptions (even-length IMSI, GUTI) are refuted with witnesses.", "quantifier": "all values", "why_tests_cant": "Unbounded strings.", "anchors": ["gtpv2/ie/imsi.go", "gtpv2/ie/guti.go", "gtpv2/ie/fq-csid.go", "gtpv2/ie/serving-nw.go", "gtpv2/ie/global-cn-id.go", "gtpv2/ie/uci.go"]}
{"id": "C37", "title": "IE accessors never panic (v2)", "statement": "Every typed accessor of a GTPv2 IE, applied to any IE with any payload, returns a value or an error; accessors that panic on crafted payloads received from the network are refuted with witnesses.", "quantifier": "all IE types, all payloads", "why_tests_cant": "The input space is unbounded; a test samples a few byte strings, and the failing ones are those nobody thought of.", "anchors": ["gtpv2/ie/*.go"]}
{"id": "C38", "title": "GTPv1 IE codecs and accessors", "statement": "GTPv1 IE constructors and accessors are mutually inverse (RAI, ULI, IMSI, MSISDN, end user address, GSN address, APN, flags) and accessors never panic; exceptions (authentication quintuplet, 3-digit MNC in RAI, odd-length MSISDN) are refuted. Each accessor answers exactly for the types and payload lengths it documents and returns an error for all others.", "quantifier": "all values and payloads", "why_tests_cant": "The input space is unbounded; a test samples a few byte strings, and the failing ones are those nobody thought of.", "anchors": ["gtpv1/ie/*.go"]}
{"id": "C39", "title": "GTPv0 IE codecs and accessors", "statement": "GTPv0 IE constructors and accessors are mutually inverse; APN, RAI and QoS accessors are refuted. Each accessor answers exactly for its types and payload lengths and returns an error for all others.", "quantifier": "all values and payloads", "why_tests_cant": "The input space is unbounded; a test samples a few byte strings, and the failing ones are those nobody thought of.", "anchors": ["gtpv0/ie/*.go"]}
{"id": "C40", "title": "User-plane TEIDs are unique and non-zero", "statement": "Every TEID handed out by UPlaneConn.NewFTEID on one connection is non-zero and differs from every TEID handed out or added to a relay before and not yet released, whatever the random source returns and however calls interleave.", "quantifier": "all random sequences, all interleavings of allocation and release", "why_tests_cant": "Needs adversarial randomness and schedules.", "anchors": ["gtpv1/u-conn.go:UPlaneConn.NewFTEID", "gtpv1/relay.go"]}
{"id": "C41", "title": "User-plane relaying is exact", "statement": "With a relay installed for a TEID, an incoming T-PDU for that TEID is sent once, through the configured connection to the configured peer, with the TEID field replaced and every other byte unchanged; T-PDUs for other TEIDs are not relayed; after CloseRelay for that TEID nothing is relayed.", "quantifier": "all datagrams and all histories of AddRelay/CloseRelay", "why_tests_cant": "Histories and datagrams are unbounded.", "anchors": ["gtpv1/u-conn.go:UPlaneConn.serve", "gtpv1/u-conn.go:UPlaneConn.RelayTo", "gtpv1/u-conn.go:UPlaneConn.CloseRelay"]}
{"id": "C42", "title": "User-plane reception survives any datagram", "statement": "The receive loop of UPlaneConn handles any datagram from any sender without terminating the process. Refuted: with a relay installed a datagram of 0 or 1 bytes panics.", "quantifier": "all datagrams, all relay tables", "why_tests_cant": "The input space is unbounded; a test samples a few byte strings, and the failing ones are those nobody thought of.", "anchors": ["gtpv1/u-conn.go:UPlaneConn.serve"]}
{"id": "C43", "title": "T-PDU delivery", "statement": "A T-PDU encapsulated with WriteToGTP and received by a peer without error indication or relay is delivered to the reader with the same TEID and payload, once and in order of arrival, up to the channel bound.", "quantifier": "all payloads, all sequences of datagrams", "why_tests_cant": "Unbounded histories.", "anchors": ["gtpv1/u-conn.go:UPlaneConn.ReadFromGTP", "gtpv1/u-conn.go:UPlaneConn.WriteToGTP", "gtpv1/handlers.go:handleTPDU"]}
{"id": "C44", "title": "Error indication and echo responses", "statement": "The user plane answers an Echo Request with an Echo Response with the same sequence number, and a T-PDU for an unknown tunnel with an Error Indication naming that TEID, when enabled; never otherwise.", "quantifier": "all messages and configurations", "why_tests_cant": "The input space is unbounded; a test samples a few byte strings, and the failing ones are those nobody thought of.", "anchors": ["gtpv1/handlers.go"]}
{"id": "C45", "title": "Handler table", "statement": "The handler invoked for a message type is the last one registered for it; for a type with no handler an error is reported and nothing is invoked; registrations of other types never interfere.", "quantifier": "all registration histories", "why_tests_cant": "Unbounded histories.", "anchors": ["gtpv2/handlers.go", "gtpv1/handlers.go", "gtpv2/conn.go:Conn.AddHandler"]}
{"id": "C46", "title": "GTPv2 session lookup", "statement": "After any history of RegisterSession/RemoveSession operations, GetSessionByTEID and GetSessionByIMSI return the most recently registered live session for that key, as two plain maps would; RemoveSession removes the session under both keys. Where the implementation departs from the two-map view it is refuted.", "quantifier": "all histories", "why_tests_cant": "Unbounded histories.", "anchors": ["gtpv2/conn.go:Conn.RegisterSession", "gtpv2/conn.go:Conn.RemoveSession", "gtpv2/conn.go:Conn.GetSessionByTEID", "gtpv2/conn.go:Conn.GetSessionByIMSI"]}
{"id": "C47", "title": "GTPv2 sequence numbers", "statement": "Sequence numbers of successive requests on a connection stay within 24 bits and are pairwise distinct in every window shorter than the wrap; responses carry the sequence number of the request. With a failing send interleaved with another sender two requests in flight can share a number (refuted).", "quantifier": "all histories and interleavings", "why_tests_cant": "Concurrency and 2^23 steps.", "anchors": ["gtpv2/conn.go:Conn.IncSequence", "gtpv2/conn.go:Conn.DecSequence", "gtpv2/conn.go:Conn.SendMessageTo", "gtpv2/conn.go:Conn.RespondTo"]}
{"id": "C48", "title": "Session message queue", "statement": "PassMessageTo and WaitMessage behave like a FIFO bounded by 1000: nothing is lost, duplicated or reordered; WaitMessage returns the head only if its sequence number matches. A head with another sequence number is consumed and lost (refuted).", "quantifier": "all histories", "why_tests_cant": "Unbounded histories.", "anchors": ["gtpv2/session.go:PassMessageTo", "gtpv2/session.go:Session.WaitMessage"]}
{"id": "C49", "title": "Session bearers and TEIDs", "statement": "The bearer table behaves as a finite map from name to bearer and the TEID table as a map from interface type to TEID; lookups by EBI or TEID return a stored bearer with that EBI/TEID, and fail exactly if none exists.", "quantifier": "all histories of bearer operations", "why_tests_cant": "Unbounded histories; map iteration order is arbitrary.", "anchors": ["gtpv2/session.go", "gtpv2/bearer.go"]}
{"id": "C50", "title": "GTPv2 receive validation", "statement": "With validation enabled a message reaches its handler only if it is GTPv2 and its TEID is zero or that of a registered session whose peer is the sender; every other message is dropped with an error.", "quantifier": "all messages, senders and session tables", "why_tests_cant": "The input space is unbounded; a test samples a few byte strings, and the failing ones are those nobody thought of.", "anchors": ["gtpv2/conn.go:Conn.validate", "gtpv2/conn.go:Conn.handleMessage"]}
{"id": "C51", "title": "GTPv2 TEID allocation", "statement": "NewSenderFTEID returns TEIDs that are non-zero, not in use by another session and not returned before, whatever the random source returns; a message addressed to a TEID reserved but not yet registered must not crash the connection (refuted: nil dereference).", "quantifier": "all random sequences and histories", "why_tests_cant": "Adversarial randomness.", "anchors": ["gtpv2/conn.go:Conn.NewSenderFTEID", "gtpv2/conn.go:Conn.NewFTEID"]}
{"id": "C52", "title": "Named message fields hold the IEs they are for", "statement": "After New or Parse, every named field of a message holds exactly the IEs of the type (and, for fields of one GTPv2 message sharing a type, the instance) its name stands for: a list field all of them in order, a single field the last one (GTPv2), or the j-th one when it is the j-th field for that type (GTPv1/v0); AdditionalIEs holds exactly those no other field is for. Refuted for 24 (message, field) pairs of GTPv2, which are listed.", "quantifier": "all messages, all IE lists, all fields", "why_tests_cant": "A field filled consistently by New and Parse from the wrong IE type survives every round-trip test; 577 fields times all type/instance combinations.", "anchors": ["gtpv2/message/create-session-req.go:NewCreateSessionRequest", "gtpv2/message/modify-bearer-res.go:ModifyBearerResponse.UnmarshalBinary", "gtpv1/message/create-pdp-context-req.go:NewCreatePDPContextRequest"]}
{"id": "C53", "title": "Marshalling is repeatable", "statement": "Marshalling the same message value twice gives the same bytes: the first Marshal changes nothing in the message that the second one depends on.", "quantifier": "all v2, v1 and v0 messages", "why_tests_cant": "Marshal updates the length and payload of the message it is called on; whether a second call sees the first one's side effects depends on the field values.", "anchors": ["gtpv2/message/*.go", "gtpv1/message/*.go", "gtpv0/message/*.go"]}
{"id": "C54", "title": "Parsed IEs do not share memory harmfully", "statement": "Editing a parsed grouped IE (Add, Remove) changes only that IE: the other IEs of the message, which were parsed from the same buffer, keep their values. (Refuted: Add appends in place into the receive buffer.)", "quantifier": "all received messages and edits", "why_tests_cant": "Aliasing only shows up for particular buffer capacities and orders of use.", "anchors": ["gtpv2/ie/ie.go"]}
{"id": "C55", "title": "Accessors on a Bearer Context", "statement": "A typed accessor applied to a Bearer Context IE returns what it returns for the first child of its type, or a not-found error if there is none. A Bearer Context made by any of its constructors holds exactly the IEs given, in the order of the arguments, survives marshalling and parsing, and the accessors read the arguments back from it.", "quantifier": "all well-formed non-empty Bearer Contexts, all children lists", "why_tests_cant": "The number and order of children is unbounded.", "anchors": ["gtpv2/ie/ebi.go", "gtpv2/ie/cause.go", "gtpv2/ie/bearer-qos.go", "gtpv2/ie/charging-id.go", "gtpv2/ie/bearer-flags.go", "gtpv2/ie/ran-nas-cause.go", "gtpv2/ie/bearer-context.go: NewBearerContext, NewBearerContextWithin*, BearerContext"]}
{"id": "C56", "title": "Single-value, flag and forwarding IEs", "statement": "Every IE that holds one number, string or flag octet, the data forwarding IEs, the private extension and the RAN/NAS cause give back, through their accessors, the values they were built from, and are laid out as TS 29.274 says.", "quantifier": "all values", "why_tests_cant": "2^8 to 2^32 values and unbounded strings and lists.", "anchors": ["gtpv2/ie/*.go"]}
{"id": "C57", "title": "CreateSession fills the session from its IEs", "statement": "CreateSession registers the new session under the local F-TEID and its IMSI, fills the subscriber, location, TEIDs and the default bearer from the last IE of each kind, and sends a Create Session Request with exactly these IEs under a fresh sequence number.", "quantifier": "all IE lists, all states of the connection", "why_tests_cant": "Unbounded IE lists in any order; a test fixes one.", "anchors": ["gtpv2/conn.go: CreateSession, ParseCreateSession"]}
{"id": "C58", "title": "Header and instance setters", "statement": "Each setter of a header or IE changes the field it names, within the bits the field has, and leaves the others as they were; the list of grouped types and the fixed lengths of GTPv1 TV IEs are those of TS 29.274 and TS 29.060.", "quantifier": "all field values", "why_tests_cant": "2^32 values of each field times the states of the other fields.", "anchors": ["gtpv2/message/header.go", "gtpv1/message/header.go", "gtpv0/message/header.go", "gtpv2/ie/ie.go: SetInstance, IsGrouped", "gtpv1/ie/ie.go: tvLengthMap"]}
{"id": "C59", "title": "What can crash the GTPv2 control plane", "statement": "A process that uses the control plane panics only for one of the listed causes (double Close, an undecodable IE given to CreateSession, a message that cannot be marshalled, RemoveSession while a TEID is reserved, a datagram for a reserved TEID, a nil handler); in particular no datagram crashes it while every TEID handed out is registered and no nil handler was added.", "quantifier": "all histories of calls and datagrams, all schedules", "why_tests_cant": "Schedules and datagrams are unbounded.", "anchors": ["gtpv2/conn.go", "gtpv2/handlers.go"]}
{"id": "C60", "title": "DSCP/ECN marks of concurrent writes", "statement": "Every datagram a UPlaneConn call puts on the wire carries the mark that call asked for (WriteTo asks for 0), its own payload and its own destination, whatever other calls run at the same time; a call returns a nil error exactly when its one datagram was sent; the socket has its original mark once all calls have returned; no interleaving deadlocks.", "quantifier": "all numbers of concurrent WriteTo and WriteToWithDSCPECN calls, all schedules, all failures of the system calls", "why_tests_cant": "The mark is a property of the shared socket; a wrong lock shows only in particular interleavings and failure points.", "anchors": ["gtpv1/u-conn.go: pktConn4.WriteToWithDSCPECN, pktConn6.WriteToWithDSCPECN, UPlaneConn.WriteTo, UPlaneConn.WriteToWithDSCPECN"]}
{"id": "C61", "title": "The Relay between two connections", "statement": "What a Relay sends on one connection is what it received on the other, in order, each T-PDU at most once with its payload unchanged, to a TEID and address that AddPeer registered for the TEID it came with; after Close it relays no more and the two connections go on serving.", "quantifier": "all schedules of the two goroutines with AddPeer, Close and arriving T-PDUs", "why_tests_cant": "Two goroutines, a shared table and closing make unboundedly many interleavings.", "anchors": ["gtpv1/relay.go: NewRelay, Run, AddPeer, Close"]}
{"id": "C62", "title": "Dial", "statement": "Dial and DialUPlane return a connection only if the peer has answered their Echo Request; they return an error if no answer comes within the limit or the context ends, never panic on what arrives, send nothing but echo messages, and leave no socket behind on failure.", "quantifier": "all datagrams that may arrive, from anyone, and all failures of system calls", "why_tests_cant": "Any sequence of datagrams from any source may arrive before the answer.", "anchors": ["gtpv2/conn.go: Dial", "gtpv1/u-conn.go: DialUPlane"]}
{"id": "C63", "title": "Choosing the grouped IE types", "statement": "After any sequence of AddGroupedIEType and SetIsGroupedFun calls, IsGrouped holds for the built-in and added types, or for those the last function set accepts; IEs whose types are not concerned by a change are read and written as before, and an IE existing before a change is still marshalled with its value.", "quantifier": "all sequences of registrations, all IE trees", "why_tests_cant": "Registrations are global state with unbounded histories; the effect on nested IEs is recursive.", "anchors": ["gtpv2/ie/ie_grouped.go: SetIsGroupedFun, AddGroupedIEType, IsGrouped", "gtpv2/ie/ie.go: MarshalTo, ParseMultiIEs"]}
{"id": "C64", "title": "Request and response", "statement": "DeleteSession, ModifyBearer and DeleteBearer send one message, of the procedure's type, to the session's peer, with the TEID and IEs given, under the connection's next sequence number, which they return; they change no session and no table. RespondTo sends the response under the number of the message it answers, so the answer reaches the requester's handler under the number its call returned.", "quantifier": "all states of the two ends, all TEIDs, all lists of IEs that fit a datagram, all response types", "why_tests_cant": "The state of the sequence counter, tables and handlers at the call is arbitrary, and the IE lists are unbounded.", "anchors": ["gtpv2/conn.go: DeleteSession, ModifyBearer, DeleteBearer, SendMessageTo, RespondTo"]}
{"id": "C65", "title": "What a received message says about itself", "statement": "After Parse, MessageType, MessageTypeName, Sequence, TEID (TID for GTPv0) and the header's flags are what the octets of the datagram say, and messages of different types have different names.", "quantifier": "all datagrams that Parse accepts, GTPv0, GTPv1 and GTPv2", "why_tests_cant": "Every octet of the header takes 256 values, optional fields shift the others, and each message type has its own methods.", "anchors": ["gtpv0/message/header.go: ParseHeader, MessageType, TID", "gtpv1/message/header.go: ParseHeader, MessageType, TEID, Sequence", "gtpv2/message/header.go: ParseHeader, Version, MessageType, TEID, Sequence", "gtpv0/message, gtpv1/message, gtpv2/message: MessageTypeName methods"]}
{"id": "C66", "title": "Kernel tunnels", "statement": "The tunnels of Kernel GTP-U are those AddTunnel and AddTunnelOverride asked for and no delete call removed; no two share the subscriber's address or the incoming TEID; a call that returns nil did what it says; AddTunnelOverride replaces exactly the tunnels with its address or TEID, the delete calls remove exactly the tunnel named and give its TEID back, and a call that fails changes nothing.", "quantifier": "all interleavings of calls and of their netlink requests, all failures of these requests", "why_tests_cant": "The calls are made of several unsynchronised kernel requests; interleavings and failures between them are unbounded and need root privilege to try.", "anchors": ["gtpv1/tunnel_linux.go: AddTunnel, AddTunnelOverride, DelTunnelByITEI, DelTunnelByMSAddress", "gtpv1/u-conn.go: NewFTEID, iteiMap"]}
{"id": "C67", "title": "Which IEs the GTPv2 accessors answer for", "statement": "An accessor of a GTPv2 IE returns a value if and only if the IE is of a type the accessor serves, its payload is of a form it knows (address flags, address length, node type) and has at least the octets that value needs; a Bearer Context answers through its first IE of the type, and otherwise the accessor returns an error.", "quantifier": "all accessors of the list, all IEs with any type and payload, all sets of grouped types", "why_tests_cant": "The boundary lies at one octet for each of about ninety accessors and several types each, and for the variable ones it moves with the payload; tests sample complete IEs.", "anchors": ["gtpv2/ie/*.go: the accessors of IE", "gtpv2/ie/ie.go: ValueAsUint8, ValueAsUint16, ValueAsUint32, ValueAsString, ValueAsFQDN", "gtpv2/ie/bearer-context.go: BearerContext"]}
{"id": "C68", "title": "Which functions race", "statement": "Calls of exported functions and goroutines the library started, running at once in any number on any objects, have a data race on a variable (two accesses that nothing orders, one of them a write) exactly if the pair of functions and the variable are in a given table; in particular sequence numbers, the active flag of sessions, the pairs of a Relay, the loggers and the table of grouped IE types never race, and 45 functions race with nothing.", "quantifier": "all sets of concurrent calls, all objects they share, all schedules, all outcomes of network operations", "why_tests_cant": "The race detector reports a race only in a run that happens to reach both accesses at once, and can never report its absence; the pairs of functions, objects and interleavings are unbounded.", "anchors": ["gtpv1/u-conn.go: UPlaneConn", "gtpv1/tunnel.go, gtpv1/tunnel_linux.go", "gtpv1/relay.go: Relay", "gtpv2/conn.go: Conn", "gtpv2/session.go: Session", "gtpv2/bearer.go: Bearer", "gtpv2/ie/ie_grouped.go: SetIsGroupedFun, AddGroupedIEType, IsGrouped"]}
{"id": "C69", "title": "No call waits for ever on a mutex", "statement": "Whatever calls are under way, each that has not returned can go on or waits for a mutex whose holder can (through any chain of holders); the library's goroutines and calls never wait for each other in a circle.", "quantifier": "all sets of concurrent calls, all objects, all schedules", "why_tests_cant": "A deadlock needs one interleaving among unboundedly many; a run that ends shows nothing about the others.", "anchors": ["gtpv1/logger.go: SetLogger, EnableLogging, DisableLogging", "gtpv2/logger.go: SetLogger, EnableLogging, DisableLogging", "gtpv1/u-conn.go: UPlaneConn", "gtpv2/conn.go: Conn", "gtpv2/session.go: Session", "gtpv1/relay.go: Relay"]}
{"id": "C70", "title": "Closing a connection", "statement": "After Close, or after the context given to Serve ends, every Serve and every blocked read of the connection returns, every goroutine the library started ends and the socket is closed, after finitely many steps; nothing is sent or received through a closed socket; Serve returns nil for no other reason; Close works once, and only a second Close panics. Refuted in parts: blocked ReadFromGTP calls survive the end of the context and get no error from Close, and in several listed situations a socket is left open.", "quantifier": "all sets and orders of Listen, Serve, read, write and Close calls, all contexts, all arriving datagrams, all interleavings of the goroutines", "why_tests_cant": "A goroutine or socket left behind shows only under particular interleavings of the end with reads and handlers, and a test that ends says nothing about goroutines it does not wait for.", "anchors": ["gtpv2/conn.go: Conn.Serve, Conn.Listen, Conn.ListenAndServe, Conn.Close, Conn.ReadFrom", "gtpv1/u-conn.go: UPlaneConn.ListenAndServe, UPlaneConn.ReadFromGTP, UPlaneConn.Close, newPktConn", "gtpv1/handlers.go: handleTPDU"]}
{"id": "C71", "title": "A datagram bounds what parsing it builds and costs", "statement": "However IEs are nested, parsing n octets yields at most n/4 GTPv2 IEs (members of grouped IEs included), nested at most n/4 deep, and a message holds no more than fit behind its header; for GTPv1 and GTPv0 at most one IE per octet and one extension header per four octets. The parser starts to read at most n/4 + 1 IEs, also when it fails. Refuted: that the work is proportional to n. ParseMultiIEs asks every parsed IE for its MarshalLen, which walks all of its members again, so nested grouped IEs cost (n/4)^2/2 calls; the quadratic bound is proved.", "quantifier": "all byte strings, all classifications of grouped IE types, all message types", "why_tests_cant": "The worst nesting is not among any finite set of sample messages, and a bound on work must hold for inputs chosen by an attacker.", "anchors": ["gtpv2/ie/ie.go: UnmarshalBinary, ParseMultiIEs, MarshalLen", "gtpv2/message/message.go: Parse", "gtpv1/ie/ie.go: ParseMultiIEs", "gtpv1/message/extension-header.go: ParseMultiExtensionHeaders", "gtpv0/ie/ie.go: ParseMultiIEs"]}
{"id": "C72", "title": "What is printed tells what was printed", "statement": "The String of an IE shows its type, length, instance and payload, that of a header all of its fields, and Prettify of a message the header and every IE (of a grouped one its members): values that print alike agree in all of these, and two received messages that print alike are equal. The name an IE prints is that of the constant of its type, no two types share a name, and types without a constant are Undefined. Refuted: no GTPv1 type below 128 has a name, GTPv2 names PLMNID and TargetIdentification are one type off, and Prettify hides the type and instance of a grouped IE.", "quantifier": "all IEs, headers and messages of GTPv0, GTPv1 and GTPv2; all pairs of datagrams", "why_tests_cant": "That two different values never print alike is a statement about all pairs of values.", "anchors": ["gtpv2/ie/ie.go: Name, String, ieTypeNameMap", "gtpv1/ie/ie.go: Name, String, ieTypeNameMap", "gtpv0/ie/ie.go: Name, String, ieTypeNameMap", "gtpv2/message/header.go: String", "gtpv1/message/header.go: String", "gtpv0/message/header.go: String", "gtpv1/message/extension-header.go: String", "gtpv2/message/message.go: Prettify", "gtpv1/message/message.go: Prettify", "gtpv0/message/message.go: Prettify"]}
{"id": "C73", "title": "Adding extension headers to a GTPv1 header", "statement": "AddExtensionHeaders returns an error exactly when the list it is given is not linked, that is when an extension header does not have the type its predecessor announced or the last one announces another. When it succeeds all of them are appended in order, the header announces the first one, the E flag is set, Length is right and nothing else changes. An extension header requires comprehension exactly when the top bit of its type is set. Two expectations fail: a call that returns an error leaves the header unchanged (it does not, and the constructors discard the error), and a list it accepts reaches the receiver whole (not if it is linked through type 0).", "quantifier": "all headers, all lists of extension headers, all type octets", "why_tests_cant": "Unboundedly many lists and headers.", "anchors": ["gtpv1/message/header.go: AddExtensionHeaders, WithExtensionHeaders, NewHeaderWithExtensionHeaders", "gtpv1/message/extension-header.go: IsComprehensionRequired"]}
{"id": "C74", "title": "Errors tell what was wrong", "statement": "Two error values with fields returned by gtpv2, gtpv1 and the ie packages that print the same text are the same kind of error with the same fields, as long as a field printed in front of another one does not contain the separator. UnexpectedIEError is the exception: it prints the same text for every IE type.", "quantifier": "all error values", "why_tests_cant": "Unboundedly many field values; pairs of them.", "anchors": ["gtpv2/errors.go", "gtpv1/errors.go", "gtpv2/ie/errors.go: InvalidTypeError"]}
{"id": "C75", "title": "The example P-GW and MME do what the messages say", "statement": "The example P-GW answers every Create Session Request of a known subscriber that carries the IEs it needs, and no other: the answer goes to the TEID the request gave, under the request's sequence number, accepts the request and carries the subscriber's address, the bearer's EBI and the TEIDs the P-GW drew, and the session keeps them with the identities of the subscriber. It answers a Delete Session Request with 'accepted' to the S-GW's TEID for a session it has and with 'IMSI/IMEI not known' to TEID 0 otherwise. Its user plane answers an IP packet with source and destination swapped. The example MME takes a Create Session Response exactly when it is accepted and readable, and keeps the S-GW's TEID. None of the handlers ends the program.", "quantifier": "all octets received, all TEIDs drawn, all sessions", "why_tests_cant": "Every received message, with every combination of missing, repeated and malformed IEs.", "anchors": ["examples/pgw/pgw.go: handleCreateSessionRequest, handleDeleteSessionRequest", "examples/mme/mme.go: handleCreateSessionResponse", "examples/mme/mock.go: handleAttach"]}
{"id": "C76", "title": "A message passed on keeps its IEs", "statement": "A GTPv2 message that was received and is then given another TEID and sent as the answer to another request (SetTEID, RespondTo) reaches the next node as a message of the same type with the same IEs in every field, under the new TEID and the other request's sequence number, at most 4 octets longer, whether or not it had a TEID when received; the one exception is a Create Session Request with both a private extension and IEs no field is for. The example S-GW does so with the answers to deletions: it asks the other side about the session or bearer that the request named, passes the answer on and removes the session or bearer, answers with a cause of its own when none arrives, and refuses a Delete Bearer Request that names no bearer, an unknown one, or one in two ways.", "quantifier": "all octets received on either side, all TEIDs and sequence numbers, all sessions", "why_tests_cant": "Every received message of every type, with any IEs in any order, known or not.", "anchors": ["gtpv2/message/header.go: SetTEID", "gtpv2/conn.go: RespondTo, DeleteSession, DeleteBearer", "examples/sgw/s11.go: handleDeleteSessionRequest", "examples/sgw/s5.go: handleDeleteBearerRequest"]}
{"id": "C77", "title": "A message filled field by field is read as it was filled", "statement": "A GTPv2 message structure whose fields are assigned directly, each IE in a field it is for by TS 29.274 (type and instance), marshals to octets of the length the IEs add up to, and parsing the octets gives a message of the same type with the same IEs in the same fields and the same header flags, TEID and sequence number. Conversely a parsed message has in each field only IEs that are for it, so a message with an IE in another field is never what the peer reads; Marshal does not report this. Not covered: Context Response, a Create Session Request with both a private extension and additional IEs, and the fields listed in misplaced_parse2.", "quantifier": "all message types, all header values, all IEs in all fields", "why_tests_cant": "Each of 44 structures has up to sixty fields holding arbitrary IEs; the marshalling order and the parsing table are written apart by hand.", "anchors": ["gtpv2/message: MarshalTo, UnmarshalBinary of each message", "gtpv2/message/message.go: Parse, Marshal"]}
{"id": "C78", "title": "The example S-GW joins what the MME and the P-GW asked for", "statement": "The example S-GW passes a P-GW's Create Session Response on to the MME exactly when it carries an accepting Cause, a PAA, a control plane F-TEID and a Bearer Context whose causes accept, whose EBI and Charging ID can be read and whose F-TEIDs have an IPv4 address; its session then holds the TEIDs of the response and its bearer the subscriber's address, the last EBI, Charging ID, and the address and TEID of the last F-TEID. Otherwise the message is not passed on, and the session is removed when a required IE is missing or a cause refuses. The message passed on has the S-GW's control plane F-TEID and FQ-CSID, in the first Bearer Context the S-GW's S1-U F-TEID and no Charging ID, and every other IE as the P-GW sent it, under the MME's TEID and sequence number. A Modify Bearer Request is answered as accepted, under the MME's TEID, with the S-GW's S1-U F-TEID, and from then on packets are relayed to the P-GW's address and TEID one way and to the last F-TEID of the request the other way. Neither handler panics on any octets received.", "quantifier": "all octets received from the P-GW and the MME, all sessions, bearers, TEIDs and sequence numbers", "why_tests_cant": "The response may carry any IEs in any order and number, in the message and in the Bearer Context, and those not looked at must reach the MME unchanged.", "anchors": ["examples/sgw/s5.go: handleCreateSessionResponse", "examples/sgw/s11.go: handleCreateSessionRequest, handleModifyBearerRequest, handleFTEIDU", "gtpv2/ie/ie.go: Add, Remove"]}
{"id": "C79", "title": "The example P-GW, S-GW and MME agree on the session they set up", "statement": "When the example P-GW accepts a Create Session Request, the octets it answers with are accepted by the example S-GW, the message the S-GW makes of them is accepted by the example MME, and then all three hold an active session in which the S-GW has the P-GW's control and user plane TEIDs and its user plane address, the MME has the S-GW's control plane TEID and S1-U TEID, and the subscriber's address and the EBI are the same at the S-GW and the MME. The S-GW's answer to a Modify Bearer Request makes the eNB behind the MME send its packets to the very address and TEID from which the S-GW relays to the P-GW. The MME starts the eNB exactly when the response accepts and every F-TEID of instance 0 in its Bearer Context has an IPv4 address, and does not panic on any response.", "quantifier": "all octets of requests that the P-GW accepts, all TEIDs, IPv4 addresses, sequence numbers and sessions", "why_tests_cant": "The agreement is between five handlers of three programs through two marshalled messages, for every TEID, address and request.", "anchors": ["examples/pgw/pgw.go: handleCreateSessionRequest", "examples/sgw/s5.go: handleCreateSessionResponse", "examples/sgw/s11.go: handleCreateSessionRequest, handleModifyBearerRequest", "examples/mme/mme.go: handleCreateSessionResponse, handleModifyBearerResponse"]}
{"id": "C80", "title": "What the example S-GW asks of the P-GW for an MME, and the attachment as a whole", "statement": "When the example S-GW receives a Create Session Request that has the P-GW's IPv4 address and TEID, the MME's TEID, the IMSI, MSISDN, MEI, APN, serving network and RAT type, and only then, it sends the P-GW at that address a Create Session Request in which fifteen of the received fields are as they came, the control and user plane F-TEIDs are its own, the bearer is number 5, and nothing else is there; it keeps a session with the MME and one with the P-GW for the same IMSI, holding the TEIDs it drew. If the P-GW knows the subscriber, that request, the P-GW's answer and the message passed on to the MME end in three active sessions that agree. No request makes the handler panic while TEIDs can be found. Refuted: the session is reached only under TEIDs the S-GW drew (the MME can have it registered under another), and a request that comes when no TEID is left is refused (the program panics).", "quantifier": "all octets of requests received, all TEIDs, IPv4 addresses and sequence numbers", "why_tests_cant": "Which fields survive and which TEIDs are registered depends on every field of the request, and the agreement is between six handlers of three programs through four marshalled messages.", "anchors": ["examples/sgw/s11.go: handleCreateSessionRequest", "gtpv2/conn.go: CreateSession, ParseCreateSession", "examples/pgw/pgw.go: handleCreateSessionRequest", "examples/sgw/s5.go: handleCreateSessionResponse", "examples/mme/mme.go: handleCreateSessionResponse"]}
{"id": "C81", "title": "The example MME's request attaches each of its subscribers", "statement": "For each of its five subscribers the example MME sends a Create Session Request that parses to the subscriber's IMSI, MSISDN, IMEI, serving network and APN, its own control plane TEID and the address of a P-GW, and keeps a session for the IMSI registered with exactly that TEID. The S-GW takes the request up, and after the P-GW, the S-GW and the MME have handled what follows, all three hold active sessions that agree on IMSI, TEIDs, bearer and subscriber address. Refuted: the P-GW asked is always the one that serves the APN named in the request (the APN is read twice from a bearer that the goroutines of all subscribers write).", "quantifier": "all five subscribers, all TEIDs, IPv4 addresses, sequence numbers and interleavings of the APN reads", "why_tests_cant": "The outcome must not depend on which TEIDs are drawn, on the addresses, or on when the shared bearer is written.", "anchors": ["examples/mme/mock.go: handleAttach", "examples/mme/main.go: main", "gtpv2/conn.go: CreateSession, ParseCreateSession", "examples/sgw/s11.go: handleCreateSessionRequest"]}
{"id": "C82", "title": "The example MME's bearer modification connects the eNB both ways", "statement": "Once a session is created the example MME sends a Modify Bearer Request under the TEID the S-GW gave, holding the EBI of the default bearer and the TEID and address of the eNB, and keeps the eNB's TEID in the session. After the S-GW has handled it and the MME its answer, packets that reach the S-GW's S5-U TEID go to the eNB's address and TEID, and the eNB sends to the S-GW's address and S1-U TEID, from which the S-GW relays to where the P-GW asked. Refuted: a request is sent only if the session has a TEID of the S-GW (it is sent under TEID 0); the program goes on when no TEID is left for the eNB (it panics).", "quantifier": "all sessions, EBIs, TEIDs, IPv4 addresses and sequence numbers", "why_tests_cant": "The route packets take must not depend on which TEIDs, addresses or sequence numbers are drawn.", "anchors": ["examples/mme/main.go: main", "gtpv2/conn.go: ModifyBearer, SendMessageTo", "examples/sgw/s11.go: handleModifyBearerRequest", "examples/mme/mme.go: handleModifyBearerResponse"]}
