# A machine-checked model of wmnsk/go-gtp

The model is written in Gallina (Coq 8.16.1) under `rocq/theories`. This file
says what is modelled, how each property of `properties.jsonl` is stated and
proved, and what one must trust.

## 1. Conventions of the model

* **Bytes.** A Go `[]byte` is a `list N`; a well-formed one satisfies
  `bytes_ok` (every element below 256). Lengths, indices and offsets are `nat`,
  values of `uint8/16/32/64` are `N`, and every place where the Go code wraps is
  written with an explicit `mod 2^n`.
* **Outcomes.** A Go function that may fail or panic returns
  `res A = Ok a | Err e | Panic`. Indexing, slicing, `binary.BigEndian.*`, `make`
  and nil dereferences produce `Panic` exactly when the Go run time would.
  A theorem "never panics" is `f x <> Panic`.
* **Capacity.** A slice expression `b[lo:hi]` is checked against `len(b)`, not
  `cap(b)`. The Go run time checks `hi` against the capacity, so the model panics
  in strictly more cases; "never panics" theorems are therefore sound for the
  code, and where capacity matters (GUTI) the definition says so.
* **Loops** are structural recursion or recursion on explicit fuel. Running out
  of fuel is `Panic`, so a no-panic theorem also excludes non-termination.
* **Pointers.** `nil` IE pointers are `option`; a mutating method returns the new
  value. Parsed IEs really are parts of the array that was parsed; `V2Heap.v` models
  this with arrays and slices for the GTPv2 IE parser, Add and Remove (C54), and shows
  that parsing and Remove agree with the value model. Add in place is the one function
  that writes through such a slice (the relay is modelled on the datagram itself).
  Everywhere else payloads are values.
* **Concurrency.** Mutex-protected and `sync.Map` operations are atomic steps of a
  state machine; schedules are lists of steps.
* **Randomness, peers, sockets, clocks** are inputs (oracles) of the model:
  theorems quantify over them.

## 2. Layout

| file | content |
|---|---|
| `Base.v`, `BaseLemmas.v` | bytes, outcomes, checked slice operations |
| `Utils.v` | `utils/utils.go` |
| `V2IE.v`, `V2Header.v` | GTPv2 IE and header codec |
| `TvIE.v`, `V1Header.v`, `V0Header.v` | GTPv1/GTPv0 IEs (one codec, two length tables), headers, extension headers |
| `MsgModel.v` | semantics of the regular message functions over descriptors |
| `Msgs{0,1,2}Gen.v` | descriptors of every message, extracted from the Go text by `tools/extract.py` |
| `V2Codec*.v`, `V2Pco.v`, `V2Uli.v`, `V2Acc.v` | GTPv2 IE constructors and accessors; `CodecSpec*.v`, `UliSpec.v`, `AccSpec.v` give the layouts |
| `V2Heap.v`, `HeapSpec.v` | the GTPv2 IE parser, Add and Remove with shared arrays |
| `TvCodec.v`, `TvCodecSpec.v` | GTPv1 and GTPv0 IE constructors and accessors and their layouts |
| `UPlane.v`, `USpec.v`, `UPlaneProofs*.v`, `PropertiesU.v` | gtpv1 user-plane connection as a transition system; specification over histories |
| `CPlane.v` | gtpv2 connection, sessions, bearers |
| `UDscp.v`, `DscpSpec.v`, `URelay.v`, `Dial.v`, `Registry.v` | marked writes with their two locks; the deprecated Relay; the two Dial functions; the set of grouped IE types |
| `SessReq.v` | DeleteSession, ModifyBearer, DeleteBearer and RespondTo |
| `ExPgw.v` | the example P-GW and MME |
| `ExSgw.v` | the deletion handlers of the example S-GW, which pass messages on |
| `ExSgw2.v`, `ExSgw3.v` | its other handlers: the P-GW's answer passed on and Modify Bearer; the MME's Create Session Request |
| `ExMme.v`, `ExMme2.v` | the example MME's handling of a Modify Bearer Response; its Create Session Request |
| `*Proofs.v` | lemmas |
| `Spec.v`, `*Spec.v`, `MsgSpec*.v`, `FieldSpec.v` | specifications independent of the model |
| `Properties*.v` | the theorems, one per claim, with `Print Assumptions` and examples |

## 3. Plan per property

| id | model | proof |
|---|---|---|
| C01 | `V2Header`, `V2IE`, dispatch table, all v2 descriptors | case analysis on guards; fuel induction for IE lists; generic theorem over descriptors |
| C02 | same for v1, with 16-bit wrap written out | same, plus a refutation witness of 65536+ bytes |
| C03 | same for v0 | same |
| C04 | `gtp.Parse` | composition of C01-C03 |
| C05 | `ParseMultiIEs` v0/v1/v2 | induction on fuel; consumed bytes concatenate to the input |
| C06, C07 | IE trees (nested inductive) | induction on trees / on fuel |
| C08, C09 | TV/TLV codec with the code's length tables | case split on format |
| C10-C12 | headers | append-writer lemmas; C12 refuted for SNDCP number |
| C13 | extension header list | induction on the chain |
| C14-C18, C20 | descriptor interpreter | one generic theorem by induction on the descriptor steps, side conditions discharged by `vm_compute` on each concrete descriptor; `_refuted` for the offending ones. `MsgRepair.v` treats CreateSessionRequest, CreateBearerResponse and ContextResponse: each is compared with a repaired descriptor that satisfies the side conditions and agrees with it on the messages and IE lists named in the theorem. `DropSpec.v`/`MsgDrop.v`: the exact table of IEs each v2 structure drops. `Drop1Spec.v`/`MsgDrop1.v`: the same for v1, where only the third charging gateway address of two messages is dropped |
| C19 | dispatch tables | finite table plus generic descriptor theorem |
| C21 | MarshalTo on arbitrary buffers | append-writer lemmas; for GTPv1 and GTPv0 messages (PropertiesMarshalTo.v) MarshalTo of a value not marshalled before leaves the octets of Marshal in the buffer, whatever it held |
| C22 | Add/Remove histories | invariant over op lists |
| C23-C26 | utils | digit lemmas; induction on strings |
| C27-C37 | IE codecs v2 | per-codec round trip and totality |
| C38, C39 | IE codecs v1, v0 | same; `TvAnswerSpec.v`: the exact types and lengths each accessor answers for |
| C40-C44 | user-plane state machine | invariants over step lists |
| C45-C51 | control-plane state machine | invariants / refinement to finite maps |
| C57, C59 | control-plane state machine | sequential run of CreateSession; crash causes from the invariant |
| C58 | header and IE setters | bit lemmas, finite tables |
| C53 | descriptor interpreter | algebra of the header setters, for every descriptor |
| C54 | heap of byte arrays and slices | frame lemmas for append; refinement of the value parser |
| C60 | transition system of write calls, two mutexes, one socket option | invariant tying lock owners, option and history; a decreasing measure for termination |
| C61 | transition system of the two relay goroutines | invariant: sent is an order-preserving image of received |
| C62 | functions of an environment (system-call results, datagrams read) | case analysis; induction on the turns of the loop |
| C63 | histories of registrations; the IE codec for any classification | induction on histories and on IE trees |
| C64 | the three session procedures and RespondTo on the C-plane transition system | composition of the round trip of New/Marshal/Parse with the send and receive steps |
| C65 | header parsers, tables of the MessageTypeName methods (`MsgSelf.v`, printed by `tools/gen_names.py`); `SelfSpec.v` is the specification | the octets of each field by computation; tables swept over the 256 types |
| C66 | transition system of the kernel requests of one connection; the kernel's table of tunnels is a list (`UKernel.v`) | invariant over every schedule and failure; sequential runs for the exact effect |
| C67 | the accessors of `AccSpec.v`; `V2AnswerSpec.v` is the table of types, payload forms and lengths, `TftAnswerSpec.v` the form of a template | case split on type, length and the deciding octets; induction over options; sweep of the 256 values of a flag octet |
| C68 | every exported function as the sequence of its accesses to shared fields, its mutex operations and its choices (`RaceModel.v`); `RaceSpec.v` says what a data race is and lists them | a checker of the accesses (`RaceStatic.v`) is sound for every schedule (`RaceProofs.v`, `RaceDial.v`); each listed race has a schedule that `vm_compute` replays (`RaceWitness.v`) |
| C69 | the same system; `RaceSpec.v` says what waiting for each other is | a rank of the mutexes; the positions EnableLogging can be in (`RaceLogging.v`) |
| C70 | transition system of the calls and goroutines of one connection around its sockets, `closeCh` and the contexts (`Life.v`); `LifeSpec.v` is the specification | invariant over every schedule (`LifeProofs.v`); a measure for coming to rest (`LifeEnd.v`); replayed runs for the refuted parts |
| C71 | the parser of GTPv2 IEs with a count of the calls it makes (`Work.v`), the other parsers as they are; `WorkSpec.v` counts IEs and depth | counted and plain parser agree on every input; inversion of the parsers; induction on the nesting for the bounds and for the refuted linear bound |
| C72 | Name and String of IEs, String of headers, Prettify of messages, on the fmt verbs they use (`Print.v`); the type names and constants (`IENames.v`, printed by tools/gen_ienames.py) | every printed piece shows where it ends, so what was printed can be read back piece by piece; the tables by computation |
| C73 | AddExtensionHeaders, WithExtensionHeaders, IsComprehensionRequired (`V1Header.v`, `V1Ext.v`) | induction over the list handed in; the type octet by computation. Refuted: a call that fails changes the header without its Length, and three callers discard the error; lists linked through type 0 are accepted |
| C74 | the Error methods of the error types with fields (`ErrText.v`), on the fmt verbs of `Print.v` | each text starts differently and shows where its fields end. Refuted: UnexpectedIEError prints the Go type of the octet instead of the IE type |
| C75 | the handlers of the example P-GW and the Create Session Response handler of the example MME (`ExPgw.v`), on the accessors, constructors and codecs of the library | which requests are answered (both directions) and what the answer, parsed again by the library, holds; the user plane's packet rewriting octet by octet; deletion with and without a session. Refuted: no free TEID, a packet shorter than 23 octets, a first attach and a response under an unknown TEID end the program; the downlink TEID is always 0 and the session lacks the mobile country code |
| C76 | SetTEID and RespondTo applied to a received message; the deletion handlers of the example S-GW (`ExSgw.v`) | for every parsed GTPv2 message: what is passed on parses to the same type and the same IEs, with the new TEID and sequence number (from the re-marshal theorem C16 applied to the message under its new header); the S-GW's request to the other side and its answer, for the four outcomes (answered, not answered, answered by another message, refused). Refuted: a request that finds no session is not answered; a request with no EBI is refused with a nil error (in `C76_sgw_delete_bearer_refused`); of several EBIs only the first is passed on (`C76_sgw_delete_bearer`, example) |
| C77 | a message structure whose fields are assigned by hand, then MarshalTo and Parse | for every structure but Context Response, if each IE is in a field that TS 29.274 gives it (`belongs2` of FieldSpec.v), the octets parse to the same fields and header; the hypothesis of the generic round trip (each field's IE is routed back by the parser's table) follows from the field table check of C52. Conversely no octets parse to a message with an IE in a field it is not for; that Marshal reports it is refuted (`PropertiesFill.v`) |
| C78 | the example S-GW's handling of the P-GW's Create Session Response, what it passes on to the MME, and Modify Bearer (`ExSgw2.v`) | the response is passed on exactly when it grants the session and every IE of its Bearer Context can be used, and then the session and bearer hold the TEIDs, address, EBI and Charging ID that come last in it (`C78_sgw_created`); the session is removed exactly in the cases of `gives_up` (`C78_sgw_removed`); the message to the MME has the S-GW's F-TEIDs and FQ-CSID added, the Charging ID taken out of the first Bearer Context and every other field unchanged, for every response received (`C78_sgw_relay`, by the field-wise round trip C77); Modify Bearer joins the two tunnels and is answered under the MME's TEID (`C78_sgw_modify`, `_only`); neither handler panics (`C78_sgw_returns`). Refuted: the P-GW's refusal reaches the MME; an IPv6-only F-TEID can be used; an accepted Modify Bearer Request leaves a relay with an address; a peer cannot replace the S-GW's own TEID (`PropertiesSgw2.v`, `PropertiesSgw3.v`) |
| C79 | the example P-GW, S-GW and MME one after the other (`ExPgw.v`, `ExSgw2.v`, `ExMme.v`) | for every acceptable Create Session Request: the P-GW's octets, parsed and handled by the S-GW model, changed, marshalled, parsed and handled by the MME model, leave the three sessions active with the same TEIDs, subscriber address and EBI (`C79_attach`, from C75, C78 and C77); the S-GW's Modify Bearer Response makes the eNB send to the TEID and address the S-GW relays from (`C79_modify`); when the MME starts the eNB (`C79_mme_modified`), and that it does not panic. Refuted: the eNB always has an address (`C79_mme_nowhere_refuted`) (`PropertiesJoin.v`) |
| C80 | the example S-GW's handling of the MME's Create Session Request up to the wait for the P-GW (`ExSgw3.v`; specification `SgwAskSpec.v`) | for every received request that has all the handler reads: the octets sent parse to a Create Session Request with the 15 passed fields as received, the S-GW's own F-TEIDs, EBI 5 and FQ-CSID, and nothing else; the two sessions hold the TEIDs they are registered with (`C80_sgw_asks`, from C77 for the filling and C16 for the octets); nothing less is enough (`C80_sgw_asks_only`) and the subscriber kept is the one of the request (`C80_sgw_keeps`); no request ends the program while TEIDs are found (`C80_sgw_ask_returns`). With C79: the attachment from the MME's octets on (`C80_attach`). Refuted: the session is registered with TEIDs the S-GW drew only (`C80_sgw_registered_refuted`: a P-GW F-TEID of interface type 6 registers it with a TEID of the MME's choice); the program goes on when no TEID is left (`C80_sgw_no_teid_refuted`) (`PropertiesSgw4.v`) |
| C81 | the example MME's Create Session Request (`ExMme2.v`) | for each of its five subscribers, every TEID, local address and sequence number, and whichever APNs are read from the bearer the goroutines share: the octets sent parse to a request that has all the S-GW asks for, under the subscriber's IMSI and the TEID drawn, and the MME's session holds both and is registered with that TEID only (`C81_mme_asks`); with C80, the attachment as a whole, from the MME's subscriber to three active sessions that agree (`C81_attach`). Refuted: the P-GW asked is the one of the APN named (`C81_mme_apn_refuted`) (`PropertiesMme.v`) |
| C82 | the example MME's Modify Bearer Request for the eNB (`ExMme3.v`) | for every session, EBI, TEID, eNB address and sequence number: the octets sent parse to a request under the S-GW's TEID whose Bearer Context holds the EBI and the eNB's F-TEID, and the session keeps the eNB's TEID (`C82_mme_modifies`); with C78 and C79, after the S-GW's answer both user plane directions are set up: downlink from the S-GW to the eNB's address and TEID, uplink from the eNB to the S-GW's address and S1-U TEID (`C82_user_plane`). Refuted: a request is only sent under a TEID the S-GW gave (`C82_mme_teid0_refuted`: sent under 0); the program goes on when no TEID is left for the eNB (`C82_mme_no_teid_refuted`) (`PropertiesMme2.v`) |
| C52 | descriptor interpreter, tables of `FieldSpec.v` | generic routing lemma by induction on the IE list; the tables are checked by `vm_compute` for every type and instance |

Nothing in the list is out of reach of a model; where only the logic and not the
run-time behaviour (timeouts, socket errors) is covered, the claim is `partial`
in `MANIFEST.json` and says so.

### The user plane

`UPlane.v` is a labelled transition system. A label is one atomic step of one
goroutine or of the environment: an API call entered, one table access under its
lock, one `sync.Map` operation, one network write, one channel rendezvous, an
arriving datagram, a random draw. `run (start local) ls` is the execution of the
labels `ls`; quantifying over `ls` quantifies over every schedule, datagram,
random source and write failure. Every step appends the event it causes to a
history; the specification `USpec.v` speaks about histories only. The invariant
(`UPlaneProofs.v`) says that each event is justified by the history before it and
that the tables are functions of the history.

Assumed atomic although the code does not synchronise them: reading
`errIndEnabled`, `KernelGTP.enabled` and `len(relayMap)` (one machine word each).
Deadlines are modelled only in `Dial.v` and `URelay.v`, marks only in `UDscp.v` (here
a write is one step). The netlink calls succeed or the
call has no effect here; `UKernel.v` models them. Not modelled: log output, what a user's handler does besides being
called (its API calls appear as separate labels).

### Data races and deadlocks

`RaceModel.v` models the functions of gtpv1 and gtpv2 a second time, for their accesses to
shared fields only: values are one bit, everything else that decides the control flow is a free
choice, so the system has every execution of the code and some more. A data race is two goroutines about to
access the same field of the same object, one of them to write it. `C68_data_races` says for
which pairs of functions that state is reachable: the 17 groups of `races` in `RaceSpec.v`,
and no others. That a race shown by the model happens in the code rests on the choices of its
schedule being possible (errors returned by the network, IEs in any order); the schedules are in
`RaceWitness.v` and can be read. Left out are the fields that the library never reads, the
memory of messages, IEs and buffers, and what the user does with exported fields other than
`Session.IMSI`, `Bearer.EBI` and `KernelGTP.Link`. Initialising a variable before `go` or a
`sync.Map` store is taken to happen before its uses there, as the Go memory model says.

`C69_no_deadlock` is for the mutexes: waiting for the network, a channel or a timer counts as a
step. EnableLogging of both packages locks `logMu` and calls setLogger, which locks it again.

### Opening, serving, closing

`Life.v` models Listen, ListenAndServe, Serve, the goroutine each Serve starts to close the
socket, ReadFrom, WriteTo, ReadFromGTP, Close and the goroutines of datagrams and T-PDUs, of
both kinds of connection, as one transition system: any number of calls, contexts and sockets,
any interleaving. A datagram is a number; its goroutine may do anything the handlers of
`UPlane.v` and `CPlane.v` do to a connection. Liveness is stated without fairness: between two
events from outside the library takes a bounded number of steps (`C70_comes_to_rest`), and
where it can take none (`quiet`) the theorems say what has ended. Not modelled there: Kernel
GTP-U, deadlines set by the caller, `io.EOF` from a UDP socket.

Findings: a blocked ReadFromGTP survives the end of the context for ever and returns a nil error
on Close; Close without Serve unblocks nothing and releases no socket; Listen before
ListenAndServe leaks the first socket; ListenAndServe of a UPlaneConn on an address that is no IP
address leaks one; Serve that returns on a failed read leaves its socket open; handlers may still
run after Serve has returned; serving or reading before Listen panics.

### The cost of parsing

`Work.v` repeats UnmarshalBinary and ParseMultiIEs of gtpv2 with a counter of method calls;
`C71_same_parse` says that the results are those of `V2IE.v`. Calls are counted, not machine
steps or allocations: the payloads are subslices of the input and nothing is copied.

Finding: ParseMultiIEs calls MarshalLen on every IE it has parsed and MarshalLen of a grouped IE
walks its members, so one UDP datagram of nested grouped IEs costs 134 million calls
(`C71_linear_work_refuted`). Using `4 + len(Payload)` there would make it linear.

### Printing

`Print.v` models `%d`, `%x`, `%#x`, `%#0wx`, `%#v` and `%v` for the types they are used with and
the reflection loop of Prettify (every message structure is a `*Header` followed by exported
`*ie.IE` and `[]*ie.IE` fields, in the order of the generated tables). Whether an empty
payload is a nil slice is given to the printing functions from outside; the theorems hold for
every choice. A message with a nil Header is not modelled.

Findings: no GTPv1 IE type below 128 has a name, all of them print as "Undefined"; for GTPv2 the
PLMN ID has none and Target Identification prints as "PLMNID" (the table has both one too high).

### The control plane

`CPlane.v` models `gtpv2/conn.go`, `session.go`, `bearer.go` and `handlers.go` in the
same way; `CSpec.v` states what a history means (which session a TEID or IMSI is
registered for, what was queued, which handler is in force) and the invariant in
`CPlaneProofs.v` ties the tables to it for every schedule. `alone` runs one call
without interference and gives the sequential reading of Register, Remove and
receive.

Assumed: `sync.Map.Range` sees one snapshot, in an order the environment chooses;
single fields are read and written atomically; addresses are compared as opaque
values. `Dial` is in `Dial.v`. Not modelled: deadlines, log output.

Findings, each a `_refuted` theorem: `Header.Version()` is constant so other versions
reach the handlers; a TEID reserved by `NewSenderFTEID` maps to a nil session, which a
datagram or `RemoveSession` dereferences; a session registered twice or whose IMSI
changed leaves stale entries; a failed send can make two requests share a number;
`WaitMessage` drops a head with another number; a bearer named "" cannot be removed by
EBI.

### Findings in the IE codecs

Each is a `_refuted` theorem; the neighbouring theorems state what does hold.

* v2 ULI (C30): the positional constructor cuts the E-UTRAN cell identity to 20 bits;
  `UserLocationInfo` shows the PLMN of the last component in every component.
* v2 accessors (C37): `GUTI` slices beyond a three-octet payload, which panics when the
  payload ends its buffer. `spare` in `V2Acc.v` is what lies behind the payload.
* v1 (C38): `AUTN` reads the wrong octet as its length and starts at the length octet, and
  panics on a quintuplet of fifty octets; `XRES` does not check the type of an empty IE;
  `NewRouteingAreaIdentity` drops the third MNC digit and panics on an empty MNC; an MSISDN of
  odd length comes back with an `f`; an IMSI of 14 digits gets a fifteenth.
* v0 (C39): `AccessPointName` fails for every payload; `MCC` and `MNC` read the wrong
  nibbles; `QoSDelay` and `QoSPeak` are not shifted and `QoSMean` loses a bit; an invalid IMSI or
  address string becomes a valid one of zeros.

Names (C65): `Version` of GTPv2 is the constant 2 whatever the datagram says; three GTPv1 messages
(26, 31 and 255) do not carry the names of TS 29.060 (`C65_v1_name_refuted` lists them).

Shared memory (C54): Add on a parsed grouped IE writes into the array of the datagram and
overwrites the IEs that follow it, as long as the array has room.

Connections (C60-C63): the restore of a socket's mark can fail silently; a Relay pair works in
both directions and Close stops the serving of both connections; `Dial` accepts an answer,
or an Echo Request, from anyone; `DialUPlane` can block for ever after an unrelated datagram;
an IE made before its type was registered as grouped loses its value.

Kernel tunnels (C66): `AddTunnelOverride` never gives back the TEID of a tunnel it replaced
(`C66_lost`: no later call can); it is not atomic, so a failure leaves the subscriber without
any tunnel; two calls at once can delete the tunnel of a third subscriber. The behaviour of
`vishvananda/netlink` and of the kernel (lookup by key, exclusive add, delete by incoming TEID)
is assumed as written at the head of `UKernel.v`.

Standard library calls are inputs of the models: `net.ParseIP` (an optional byte string),
`time.Time.Sub` and `time.Duration` (an integer of nanoseconds), floating point seconds are
rounded as integers. What these functions do is assumed, not proved.

The examples (C75, C76, C78-C82): the handlers are functions of the message, the session found for its TEID
and the TEIDs drawn; the connection they run on is the one of `CPlane.v`. Not modelled: the
eNB example, `gw-tester`, configuration, S1AP, HTTP, the S-GW FQ-CSID based restoration.
`C75_downlink_refuted`: a shadowed variable in the P-GW leaves the TEID of its downlink packets 0.

## 4. Trusted base

* Coq's kernel (8.16.1) and its `vm_compute` reduction machine.
* No axioms: every `Print Assumptions` says `Closed under the global context`. (`coqchk` additionally lists seven constants of the standard library's `Coq.ssr.ssrunder`, which are declared there as parameters of a module type; no theorem uses them.)
* The faithfulness of the model to the Go text (each definition cites its source).
* `tools/gen_names.py`, which reads the MessageTypeName methods and writes `MsgSelf.v`.
* `tools/extract.py`, which reads the message files and writes the descriptor
  modules; its output is committed and can be compared with the source by eye.
