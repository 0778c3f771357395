{
 "C02": {
  "note": "datagrams; a 65543-octet input panics (refuted)",
  "status": "proved"
 },
 "C03": {
  "note": "datagrams; a longer input panics (refuted)",
  "status": "proved"
 },
 "C06": {
  "note": "New with a grouped type builds an inconsistent IE (refuted separately)",
  "status": "proved"
 },
 "C08": {
  "note": "the exceptions are exhibited as refutations",
  "status": "proved"
 },
 "C10": {
  "note": "for consistent headers of at least 12 octets; shorter ones are refused by ParseHeader (refuted separately)",
  "status": "proved"
 },
 "C11": {
  "note": "all headers built by the constructor and setters with at most one AddExtensionHeaders call; the API sequences that break a header are refuted separately",
  "status": "proved"
 },
 "C12": {
  "note": "all fields but the SNDCP number, which is refuted",
  "status": "proved"
 },
 "C13": {
  "note": "contents up to 1018 octets; padding of odd sizes and longer contents refuted",
  "status": "proved"
 },
 "C14": {
  "note": "all structures; CreateSessionRequest when PrivateExtension and AdditionalIEs are not both used, ContextResponse when the three fields its MarshalTo forgets are empty, both refuted without the condition",
  "status": "partial"
 },
 "C15": {
  "note": "all structures; CreateSessionRequest, CreateBearerResponse and ContextResponse under the condition named in the theorem, each refuted without it; 8-octet messages without TEID and IEs are refused by Parse (refuted)",
  "status": "partial"
 },
 "C16": {
  "note": "all structures, CreateSessionRequest only when PrivateExtension and AdditionalIEs are not both used (refuted otherwise); datagrams below 65536 octets",
  "status": "partial"
 },
 "C17": {
  "note": "size and round trip for all messages; re-marshalling for the messages that reset the payload and IEs of known size; the nine others are refuted",
  "status": "partial"
 },
 "C18": {
  "note": "size and round trip for all messages; re-marshalling for all but DeletePDPContextResponse, which is refuted",
  "status": "partial"
 },
 "C19": {
  "note": "",
  "status": "proved"
 },
 "C20": {
  "note": "GTPv2 and GTPv1: exactly which IEs are kept and which are dropped, for every structure; GTPv0: none is dropped; that nothing is dropped is refuted for the structures listed",
  "status": "proved"
 },
 "C21": {
  "note": "GTPv1 headers leave optional octets whose flag is not set unchanged (refuted)",
  "status": "partial"
 },
 "C25": {
  "note": "labels below 256 octets; longer ones refuted",
  "status": "proved"
 },
 "C27": {
  "note": "GREKey on an F-TEID without address fails (refuted separately)",
  "status": "proved"
 },
 "C28": {
  "note": "with the IP Address IE",
  "status": "proved"
 },
 "C29": {
  "note": "MBRForUplink on Flow QoS is refuted",
  "status": "proved"
 },
 "C30": {
  "note": "Struct constructor and UserLocationInformation accessor: proved for all subsets, values and payloads. Refuted parts: the positional constructor cuts the E-UTRAN cell identity to 20 bits, and UserLocationInfo shows the PLMN of the last component in all of them (both proved for the cases where they are right).",
  "status": "partial"
 },
 "C31": {
  "note": "templates with no or an odd number of parameters; an even number loses them, more than 15 filters overflow the counter, the IPv6 getters are wrong: all refuted with witnesses",
  "status": "partial"
 },
 "C32": {
  "note": "PPP, PAP and IPCP decoding panics (PPP characterised exactly) and truncated containers are accepted: refuted with witnesses",
  "status": "partial"
 },
 "C33": {
  "note": "",
  "status": "proved"
 },
 "C34": {
  "note": "HasBCE/HasCS, IsRemoteCause and IsPDNConnectionIEError are refuted; everything else is proved",
  "status": "partial"
 },
 "C35": {
  "note": "DelayValue decoding, inexpressible durations and times before 1970 are refuted; EPC timer characterised for every duration",
  "status": "partial"
 },
 "C36": {
  "note": "even-length IMSI, GUTI(), CMI() of UCI, FQ-CSID corner cases are refuted; everything else proved",
  "status": "partial"
 },
 "C37": {
  "note": "168 accessors by Go name (every one that returns an error; the Must- and Has- forms are wrappers of these) never panic, for any type, octet payload and children, hence for every IE of every parsed buffer. GUTI panics exactly on a three-octet payload at the end of its buffer (refuted part).",
  "status": "partial"
 },
 "C38": {
  "note": "All constructors and accessors of gtpv1/ie outside the untyped ones: layout, wire well-formedness and read-back for all values; 49 accessors total and type-checked on any IE. Refuted parts: AUTN (wrong offset, and a panic on a 50-octet quintuplet), XRES on an empty IE of another type, RAI with a three-digit or empty MNC, MSISDN of odd length, IMSI of other than 15 digits.",
  "status": "partial"
 },
 "C39": {
  "note": "All constructors and accessors of gtpv0/ie: layout, wire well-formedness and read-back for all values; 36 accessors total and type-checked on any IE. Refuted parts: AccessPointName answers for no payload, MCC and MNC of RAI, QoSDelay/QoSPeak/QoSMean, MSISDN of odd length, IMSI and end user address of an invalid string.",
  "status": "partial"
 },
 "C40": {
  "note": "NewFTEID against all schedules and random draws; TEIDs passed to RelayTo are not marked as taken, so uniqueness against relayed TEIDs is refuted",
  "status": "partial"
 },
 "C41": {
  "note": "exactness, CloseRelay and progress proved for datagrams of 11 to 1500 bytes; shorter ones are dropped and longer ones cut (refuted)",
  "status": "partial"
 },
 "C42": {
  "note": "the causes of a crash are characterised exactly; datagrams of 0 or 1 bytes with a relay, and Error Indications without their IEs, crash the process in every reachable state (refuted)",
  "status": "partial"
 },
 "C43": {
  "note": "content, sender, TEID, at-most-once and progress for payloads up to 1492 bytes; order of arrival and longer payloads are refuted",
  "status": "partial"
 },
 "C44": {
  "note": "every T-PDU that is not relayed is answered with an Error Indication while this is enabled",
  "status": "proved"
 },
 "C45": {
  "note": "user plane and control plane",
  "status": "proved"
 },
 "C46": {
  "note": "lookups, counts, Register and Remove proved as map operations for every history; sessions with two TEIDs, a changed IMSI or a shared IMSI, and concurrent Register/Remove are refuted",
  "status": "partial"
 },
 "C47": {
  "note": "range, distinctness without DecSequence in between, numbers on the wire, responses; sharing after a failed send is refuted",
  "status": "partial"
 },
 "C48": {
  "note": "a head with another number is consumed and lost (refuted separately)",
  "status": "proved"
 },
 "C49": {
  "note": "every query for every visiting order; the name \"\" is refuted for lookups by EBI",
  "status": "partial"
 },
 "C50": {
  "note": "TEID and peer checks for every schedule, progress and rejection; the version check never fails (refuted)",
  "status": "partial"
 },
 "C51": {
  "note": "allocation proved; messages for reserved TEIDs crash the process (refuted in general)",
  "status": "partial"
 },
 "C52": {
  "note": "all GTPv1/v0 fields; GTPv2 fields except the 24 (New) / 26 (Parse) listed pairs, each of which is refuted",
  "status": "partial"
 },
 "C53": {
  "note": "Proved for every GTPv2 message, whatever its fields hold, and for every GTPv1/GTPv0 message and T-PDU except nine GTPv1 messages and one GTPv0 message, for which the claim is refuted in general: once marshalled with an IE present they cannot be marshalled again.",
  "status": "partial"
 },
 "C54": {
  "note": "On a model with arrays and slices (V2Heap.v): parsing shows the values of the value model; Remove changes no other IE in memory; Add changes no IE apart from the octets behind the edited payload, so none before it, none in other arrays, and none at all if the array has no room. The rest is refuted in general: if there is room, Add overwrites the payload of the following IE of the same datagram.",
  "status": "partial"
 },
 "C55": {
  "note": "CauseFlags is refuted; the constructors and the accessors modelled so far",
  "status": "partial"
 },
 "C56": {
  "note": "the exceptions are refuted with witnesses",
  "status": "partial"
 },
 "C57": {
  "note": "Proved for every reachable state, every list of readable IEs and an uninterrupted call: one Create Session Request is sent under the next sequence number, the new session and its default bearer carry what the last IE of each type says, and the session is found under the local TEIDs and the IMSI read so far; unreadable IEs end the call without sending. Refuted parts: the guaranteed downlink rate and the two preemption flags of the bearer, lookup by IMSI when the IMSI follows the F-TEID, and clean-up after a failure.",
  "status": "partial"
 },
 "C58": {
  "note": "Header setters and getters, flag octets, TV size tables and grouped-type lists are proved against independent tables. Refuted: v2 SetTEID leaves Length unchanged when it adds the TEID field, v2 SetMessagePriority keeps only the upper four bits, v1 SetTEID sets the spare bit, and the v1 TV table gives TEID Data II four octets instead of five.",
  "status": "partial"
 },
 "C59": {
  "note": "",
  "status": "proved"
 },
 "C60": {
  "note": "Marks, destinations, results, deadlock freedom and termination hold for every schedule and every failure. The option of the socket is restored only if setting it back succeeds (its error is dropped): refuted otherwise, harmless to later marked writes.",
  "status": "partial"
 },
 "C61": {
  "note": "Relaying holds for every schedule until a connection is closed. Refuted: a pair serves both directions; a waiting goroutine relays one more T-PDU after Close (at most one, proved); Close ends the serving of both connections; closing a connection makes the goroutine send empty packets for ever if TEID 0 is registered.",
  "status": "partial"
 },
 "C62": {
  "note": "What makes each Dial succeed is characterised exactly, with what it sends; neither panics. Refuted: the answer may come from anyone, for GTPv2 even an Echo Request of somebody else; GTPv2 Dial fails on any other first datagram; DialUPlane loses its time limit after the first datagram and can block for ever; with a done context it returns nil, nil; a failed Dial leaves its socket open.",
  "status": "partial"
 },
 "C63": {
  "note": "The classification after any history, and that IEs of other types are unaffected, are proved. Refuted: AddGroupedIEType is ignored after SetIsGroupedFun; a nil function panics; an IE made or parsed before its type became grouped is marshalled without its value.",
  "status": "partial"
 },
 "C64": {
  "note": "for the responses built and parsed alike (built2), on calls not interleaved with others; interleavings are covered by C47 and C50",
  "status": "proved"
 },
 "C65": {
  "note": "Refuted: GTPv2 Version is always 2; the names of the GTPv1 types 26, 31 and 255.",
  "status": "partial"
 },
 "C66": {
  "note": "Refuted: the TEID of a replaced tunnel is never given back, AddTunnelOverride is not atomic, concurrent calls can delete a tunnel nobody named, a tunnel's TEID is not marked as taken. The kernel's side is assumed, see UKernel.v.",
  "status": "partial"
 },
 "C67": {
  "note": "All accessors of AccSpec.v; for TrafficFlowTemplate also which template is answered. OffendingIE answers only for an IE without a payload, which is what NewCause writes.",
  "status": "proved"
 },
 "C68": {
  "note": "Both directions: no race outside the table of RaceSpec.v, and a schedule for each pair in it. The table is long: most functions of a UPlaneConn race with ListenAndServe and EnableKernelGTP, those of a Conn with Listen.",
  "status": "proved"
 },
 "C69": {
  "note": "Proved as long as EnableLogging is not called. Refuted: EnableLogging of gtpv1 and gtpv2 never returns, and stops every goroutine that logs afterwards.",
  "status": "partial"
 },
 "C70": {
  "note": "Proved for a connection that is opened once and served. Refuted: ReadFromGTP returns a nil error on Close and does not return when the context ends; Close without Serve unblocks nothing; Listen twice, a local address that is no IP address and a failed read leave a socket open; handlers may run after Serve has returned; use before Listen panics.",
  "status": "partial"
 },
 "C71": {
  "note": "Refuted part: the number of MarshalLen calls is not linear in the size of the datagram; the bounds on IEs, depth, UnmarshalBinary calls and the quadratic bound are proved.",
  "status": "partial"
 },
 "C72": {
  "status": "partial",
  "note": "Printed values can be told apart: proved for all IEs, headers and messages. Refuted: names of the GTPv1 types below 128 and of two GTPv2 types; type and instance of a grouped IE in Prettify."
 },
 "C73": {
  "status": "partial",
  "note": "Which lists are accepted and what success and failure do to the header: proved. Refuted: an error leaves the header unchanged; every accepted list is read back (type 0)."
 },
 "C74": {
  "status": "partial",
  "note": "Proved for all kinds of errors but UnexpectedIEError, which is refuted."
 },
 "C75": {
  "status": "partial",
  "note": "Proved: which Create Session Requests are answered and how, Delete Session, the packet rewriting, the MME's side, and that a request never ends the P-GW while TEIDs are free. Refuted: without a free TEID, on short packets, on a first attach and on a response under an unknown TEID the program ends; downlink packets always carry TEID 0; the session lacks the mobile country code. Of the S-GW example the deletion handlers are modelled (C76); the eNB example is not."
 },
 "C76": {
  "status": "proved",
  "note": "Refuted at the edges: a request that finds no session, or a session without the TEID needed, is not answered; of several EBIs only the first is passed on. A Create Session Request with both a private extension and unknown IEs is excluded from the forwarding theorem (see C16). The waiting is a function of its outcome: answered, not answered, answered by another message."
 },
 "C77": {
  "status": "proved",
  "note": "Excludes Context Response, a Create Session Request with both a private extension and additional IEs (both refuted under C14), and the fields of misplaced_parse2 (refuted under C52). That Marshal reports an IE in a wrong field is refuted."
 },
 "C78": {
  "status": "proved",
  "note": "Refuted at the edges: a P-GW's refusal is never passed on (the MME is answered with the S-GW's own cause later); an IPv6-only F-TEID is an error that leaves the session registered; a Modify Bearer Request without an F-TEID is accepted with a relay to no address; an F-TEID of the S-GW's own interface type replaces the S-GW's own TEID. net.ResolveUDPAddr is modelled on the text of an IP address only, and the five-second wait as an input."
 },
 "C79": {
  "status": "proved",
  "note": "The messages travel as octets; the network in between neither loses nor changes them. Refuted at the edge: a Bearer Context without an F-TEID starts the eNB with no address."
 },
 "C80": {
  "status": "partial",
  "note": "The request and both sessions are proved for every received message. Refuted: only drawn TEIDs are registered; no panic when no TEID is left."
 },
 "C81": {
  "status": "partial",
  "note": "Proved for every TEID, address, sequence number and read of the APN, from getPGWIP on; before it handleAttach panics for an IMSI without a session (C75). Refuted: the P-GW asked is the one of the APN named."
 },
 "C82": {
  "status": "partial",
  "note": "Proved for every TEID, address and sequence number; the messages travel as octets that are neither lost nor changed. Refuted: no request without a TEID of the S-GW (sent under 0); no panic when no TEID is left for the eNB."
 }
}