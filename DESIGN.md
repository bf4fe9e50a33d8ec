# Formal model of libosmo-pfcp in Coq 8.16 — design

## What is modelled

Source read: everything under `/repo/src` and `/repo/include` (C, despite the "cpp" label).
All Coq files live in `rocq/theories`, logical name `Verif`.

| file | models / contains |
|---|---|
| `Base.v`, `BaseProofs.v` | result type (`Ok` / `Err errno` / `UB kind`), bytes, big-endian integers, list-by-`N` indexing; facts about them |
| `GtlvModel.v` | `src/libosmo-gtlv/gtlv.c`, `gtlv.h`: tag compare, load_next, peek, next_by_tag, put_tl, put_update_tl, T8L8V, T16L16V |
| `GtlvSpec.v`, `GtlvProofs.v`, `GtlvInst.v` | spec of TLV formats and buffers; proofs; instances in API terms |
| `DecEncModel.v` | `src/libosmo-gtlv/gtlv_dec_enc.c`, `gtlv_dec_enc.h`: decode unordered / ordered, encode, over arbitrary coding tables |
| `DecEncSpec.v` | spec: well-formed structs, their wire form, what decoding must return |
| `DecEncProofs.v`, `DecOrdProofs.v`, `DecCharProofs.v`, `RtProofs.v`, `OrdMandProofs.v`, `OrdCharProofs.v`, `EncShapeProofs.v`, `EncAppendProofs.v`, `WfProofs.v` | proofs about it |
| `CStr.v` | `strlen`, `osmo_strlcpy` as called by the IE codecs |
| `TestTables.v` | the tables and messages of `tests/libosmo-gtlv/gtlv_dec_enc_test.c`; the model reproduces the test's recorded bytes |
| `IesModel.v` | `src/libosmo-pfcp/pfcp_ies_custom.c`, `pfcp_ies_custom.h`: every IE decoder / encoder, F-SEID compare, bit helpers, address helpers |
| `IesSpec.v`, `IesProofs.v`, `HelperProofs.v` | spec of the IE wire formats (TS 29.244), proofs |
| `TablesModel.v` | `gen__pfcp_ies_auto.c` as expanded by `gtlv_gen.c:258-293`: the IE tables of all messages |
| `MsgModel.v` | `pfcp_msg.c`: header, message encode/decode, bundles, the receive loop of `pfcp_endpoint.c:423-465`, sequence numbers, SEIDs |
| `MsgSpec.v`, `MsgProofs.v`, `MsgEncProofs.v`, `RxProofs.v`, `TermProofs.v`, `SizeProofs.v`, `MsgFinalProofs.v`, `RxFullProofs.v` | spec of PFCP messages, proofs |
| `AcceptSpec.v`, `AcceptProofs.v` | literal grammar of all messages and IEs (numbers of TS 29.244 written out), proof that exactly it is accepted |
| `StrModel.v` | `OSMO_STRBUF_*`/`OSMO_NAME_C_IMPL` use; `osmo_gtlvs_encode_to_str_buf/_c`, `osmo_gtlv_tag_inst_to_str_buf`, every `osmo_pfcp_enc_to_str_*`, `osmo_pfcp_msg_to_str_buf`, `_log_info_buf`; the bit name tables of `pfcp_strs.c` |
| `StrSpec.v`, `StrProofs.v` | the texts as plain character lists, what "writes a text into a buffer" means; proofs |
| `ErrModel.v` | `gtlv_dec_enc.c` again, with the calls of the error callback that `RETURN_ERROR()` makes; `ErrSpec.v`: where decoding / encoding can fail |
| `NamesModel.v` | the enumerations of `pfcp_proto.h` and all value_string tables of `pfcp_strs.c` (generated from the source, entry by entry); `get_value_string()` |
| `NamesSpec.v`, `NamesProofs.v` | the tables the property is about; proofs |
| `EndpointModel.v` | `pfcp_endpoint.c`: queues, timers, retransmission, receive path, close, free, callbacks that call back into the API |
| `EndpointSpec.v`, `EndpointProofs.v`, `EndpointRun.v`, `EndpointLife.v`, `EndpointFinal.v`, `EndpointExt.v`, `EndpointProps.v`, `EndpointProps2.v`, `EndpointProps3.v` | the life of one message as a specification automaton; proof that every message in every history lives it; consequences |
| `MemModel.v` | the decoded C struct as bytes: `membof()`, presence flags, counts, array pitch in `gtlv_dec_enc.c` (decode unordered / ordered, encode, to_str); `MemTest.v` is struct decoded_msg of the project's test |
| `MemSpec.v`, `MemProofs.v`, `MemEncProofs.v`, `MemFinal.v` | when a struct in memory holds given values; refinement to `DecEncModel.v` / `StrModel.v` |
| `GenModel.v` | `gtlv_gen.c`: the generator of structs and tables (as C declarations), what a C compiler makes of them (struct layout, offsets), the generated `_ies_decode/_encode/_encode_to_str` |
| `GenSpec.v`, `GenProofs.v`, `GenTabProofs.v`, `GenCompile.v`, `GenConflict.v`, `GenFinal.v`, `GenTest.v` | what definitions mean (per `gtlv_gen.h`), when names are sound; generated tables = meaning, placement of members, acceptance, conflicts |
| `GenPfcp.v`, `GenPfcpProofs.v` | `gen__pfcp_ies_auto.c`: the definitions given to the generator; proof that the generated tables are those of `TablesModel.v` |
| `PfcpMem.v`, `PfcpMemProofs.v`, `PfcpMemFinal.v` | the types of `pfcp_ies_custom.h` in memory; decode/encode/print of `union osmo_pfcp_ies` in memory |
| `IeMemModel.v`, `IeMemSpec.v`, `IeMemProofs.v`, `IeMemStr.v`, `IeMemDec.v`, `PropertiesIeMem.v` | the IE decoders of `pfcp_ies_custom.c` as stores to struct members, on any ABI (C104, C105) |
| `IeEncModel.v`, `IeEncSpec.v`, `IeEncProofs.v`, `PropertiesIeEnc.v` | the IE encoders and printing functions of `pfcp_ies_custom.c` as loads of struct members, on any ABI (C106, C107) |
| `LeafMapProofs.v`, `IeMsgModel.v`, `IeMsgSpec.v`, `IeMsgProofs.v`, `PropertiesIeMsg.v` | whole messages in memory with these IE functions: octets to union to octets and text, on any ABI (C108) |
| `IeHelpModel.v`, `IeHelpSpec.v`, `IeHelpProofs.v`, `PropertiesIeHelp.v` | the helper functions on addresses, F-SEIDs, Node IDs and feature bits as loads and stores of members, with pointers into the same struct (C109) |
| `EncPrefixProofs.v`, `HdrMemModel.v`, `HdrMemSpec.v`, `HdrMemProofs.v`, `HdrMemLemmas.v`, `PropertiesHdr.v` | the PFCP header structs with their bit fields in the memory of a msgb, both byte orders, memory that is not zero (C110) |
| `MsgMemModel.v`, `MsgMemSpec.v`, `MsgMemProofs.v`, `PropertiesMsgMem.v` | whole messages in memory: union, header, msgb, and the receive loop, between hosts of different ABIs (C111) |
| `SockModel.v`, `SockSpec.v`, `SockProofs.v`, `PropertiesSock.v` | C112: sockets, file descriptors and the select loop's registrations of any number of endpoints |
| `NetModel.v` | several endpoints of `EndpointModel.v` and a network that loses, delays, duplicates and reorders datagrams; no further code |
| `NetProofs.v`, `NetFinal.v`, `NetProps.v`, `NetLive.v`, `NetAssoc.v`, `NetTrip.v`, `NetTest.v` | what every trace entry says about the sender; composition of C24, C30–C36 and C52 over both ends; concrete histories |
| `RepSpec.v`, `RepProofs.v`, `RepUnordProofs.v`, `RepRtProofs.v`, `PropertiesRep.v` | C84–C86: any data, tables that repeat tags |
| `ErrnoSpec.v`, `ErrnoProofs.v`, `ReadSpec.v`, `ReadProofs.v`, `RepErrProofs.v`, `PropertiesRead.v` | C87–C90, C99: error codes; what received octets mean |
| `FreeModel.v`, `FreeSpec.v`, `FreeProofs.v`, `PropertiesFree.v` | C100: `osmo_pfcp_endpoint_free()` from the main loop and from callbacks |
| `CtxModel.v`, `CtxSpec.v`, `CtxProofs.v`, `PropertiesCtx.v` | C101: contexts of messages (peer and session FSM instances and use counts), invalidation, deallocation of objects |
| `CRead.v`, `TextModel.v`, `TextSpec.v`, `TextLex.v`, `TextProofs.v`, `TextTab.v`, `TextFinal.v`, `TextRun.v`, `TextCheck.v`, `PropertiesText.v` | C102: the text of the generated files: a reader of the subset of C they are written in, the generator's `printf()` calls, and that reading the text gives the declarations of `GenModel.v` |
| `PutSpec.v`, `PutProofs.v`, `PutMeanProofs.v`, `ShortProofs.v`, `PropertiesPut.v` | C91–C93, C98: what encoding writes for any contents of the struct, or why it fails |
| `VarySpec.v`, `VaryProofs.v`, `PropertiesVary.v` | C94: histories in which the operator changes N1, T1 and the keep time |
| `WireSpec.v`, `WireProofs.v`, `PropertiesWire.v` | C95, C96: cause and meaning of everything sent and everything delivered |
| `RelaySpec.v`, `RelayProofs.v` | received messages are valid and can be encoded again: size of the encoding against size received |
| `CpPeerModel.v` | `pfcp_cp_peer.c`: association FSM on top of the endpoint model, peer use counts of `pfcp_msg.c` |
| `CpPeerSpec.v`, `CpPeerProofs.v`, `CpPeerProps.v`, `UseCountProofs.v` | spec, proofs |
| `GtlvTest.v`, `ConfTest.v`, `PfcpTest.v` | tests of the model against the real program: all of the project's test programs (`gtlv_test.c`, `gtlv_dec_enc_test.c`, `gtlv_gen_test.c`, `tliv_test.c`, `pfcp_test.c`), run on the model, give the outputs recorded in their `.ok` files |
| `PropertiesGtlv.v` (C01–C17, C81), `PropertiesIes.v` (C18–C20, C46–C49), `PropertiesMsg.v` (C21–C29, C50, C51), `PropertiesEndpoint.v` (C30–C41, C52, C53, C82), `PropertiesPeer.v` (C42–C45), `PropertiesAccept.v` (C54, C55), `PropertiesStr.v` (C56–C58), `PropertiesMem.v` (C59–C61), `PropertiesGen.v` (C62–C68), `PropertiesNet.v` (C69–C75, C80), `PropertiesNames.v` (C76), `PropertiesErr.v` (C77, C78), `PropertiesRelay.v` (C79) | the property theorems: `Theorem … exact lemma`, `Print Assumptions`, and a non-vacuity `Example` beside each |

Undefined behaviour and process aborts are a distinct outcome `UB kind`:
`OobRead` (read beyond the memory object), `MsgbAbort` (msgb_put without tailroom),
`AssertFail` (OSMO_ASSERT), `NullDeref`, `DoubleFree`, and `OutOfFuel` (a loop which the real code
would not leave). Theorems state when these cannot occur; `OutOfFuel` is always excluded by a proof.

## Modelling decisions

* A memory region is a `list N` of bytes: the *real* object from the pointer to its end. A claimed
  length (`src.len`) is a separate `N` and may be larger: reading at an index beyond the list is `UB OobRead`.
* Pointers into the source buffer are offsets from `src.data`; address arithmetic does not wrap around the
  address space.
* A C struct decoded by `osmo_gtlvs_decode` is a list of slots parallel to the coding table; each slot is the
  list of values stored in that member (presence flag = non-empty, count = length, "seen" = non-empty). Byte
  offsets, array pitch and `membof()` assertions are added by `MemModel.v`; the target is assumed
  zero-initialised as `osmo_pfcp_msg_alloc_*` guarantees.
* Calls of the error callback are modelled by `ErrModel.v` (tag and error code of each call, not the rest of the text); other
  logging is not modelled. `*_to_str` functions are (`StrModel.v`), with the texts of
  value_string lookups, addresses and quoted strings as arbitrary functions; `NamesModel.v` has the value_string tables.
* `store_tl` callbacks are pure functions (available space, tag, length) -> header bytes.
* `msgb` = bytes up to tail + capacity; `msgb_alloc` zero-fills (libosmocore).
* libosmocore functions used: `osmo_load/storeXXbe`, `msgb_*`, `osmo_apn_to_str/from_str`,
  `osmo_sockaddr_*`, `osmo_fsm_*`, `osmo_timer_*`, `osmo_use_count_*`. They are modelled from their documented
  behaviour; this is part of the trusted base.
* `MemModel.v` treats the object that contains the decoded struct as a list of bytes and `membof()`'s arithmetic as unsigned 32 bit;
  the byte order of the host is a parameter. `bool` is one byte, `unsigned int` four. A read or write outside of the object is UB;
  forming (not using) such a pointer is not. The functions of leaf IEs are parameters; `dec_ok`/`enc_ok`/`str_ok` say that they act
  on their own member only and as the value level functions do. Alignment is not modelled (x86-64 offsets in the examples).
  The test's int members are unsigned here.
* `GenModel.v`: the generator's output is a list of declarations (struct, union, extern, table, msg_defs), not text. Definitions are
  finite trees; `g_id` stands for the address of a `struct osmo_gtlv_gen_ie` (compared by `seen()`). Truncation by the generator's
  256 byte name buffers and by `osmo_str_toupper()`'s 128 byte buffer is modelled. The compiler part lays out structs like all common
  ABIs and rejects names that are undefined or defined twice; it takes types and enumerators from the user's headers (`te0`, `ce`).
* `PfcpMem.v` fixes one ABI (8 byte aligned uint64_t, 128 byte sockaddr) to show that the hypothesis `pfcp_host` of C67/C68 can be met;
  the theorems hold for every ABI and every set of leaf functions that meet `pfcp_host`. A decoder there stores its
  value when it succeeds and what it may have stored before it failed is left out; `IeMemModel.v` has the decoders with their
  stores, for any ABI, and C104 shows that these meet `pfcp_host`.
* `NetModel.v`: nodes are numbered; time passes at all nodes alike; a datagram may be received by the node at its destination address
  as often as it likes after it was sent (C71: at most `D` after). Applications use `osmo_pfcp_endpoint_tx()` and
  `_tx_heartbeat_req()` with valid messages only. The event loop runs a timer as late as it likes (C71: at most `L` late).

## Plan per property

| property | model | proof |
|---|---|---|
| C01 | `tag_inst_cmp` over `option tag_inst` | case analysis + lia |
| C02, C03 | `t8l8v_*`, `t16l16v_*` | arithmetic on N, division/modulo |
| C04 | `put_tli`, `put_update_tl`, `load_next` iteration | induction over the item list |
| C05, C06 | `load_next`, iteration with fuel; independent grammar spec of TLV concatenation | invariant on loader state, well-founded progress |
| C07, C08 | `peek_tag`, `next_by_tag_inst` against the parsed item list | induction |
| C09, C10 | `decode_unordered` refined to a fold over the parsed item list | commutation of the fold step |
| C11, C12 | same fold; independent recursive spec of mandatory/limits | invariant of the fold; nested induction on tables |
| C13 | `decode` over arbitrary tables, leaf-safety hypothesis | invariant + induction on tables |
| C14, C15 | `encode` / `decode` generic in tables and leaf codecs | nested induction |
| C16, C17 | expected refuted for the faithful model; prove the strongest true variant | witness + conditional theorem |
| C18–C20 | each leaf codec | arithmetic, per-IE case analysis |
| C21–C25 | header codec, tables instantiated | C14 instantiated + header arithmetic; induction over bundles |
| C23 | expected refuted (32-bit underflow) + conditional theorem | witness |
| C26 | `rx_loop` | progress measure; every datagram has an outcome in the relation `received` |
| C27, C28 | `next_seq_nr`, `next_seid` with explicit wrap | modular arithmetic, induction on call count |
| C29 | `alloc_tx` | case analysis |
| C30–C36, C38–C41 | endpoint as transition system with timers, arbitrary callbacks as finite scripts | inductive invariants over histories |
| C37, C40, C41 | expected (partly) refuted | witnesses + conditional theorems |
| C42–C45 | FSM and use-count transition system | inductive invariants |
| C46–C49 | pure functions | case analysis; refuted where the code deviates |
| C50 | expected refuted (msgb abort) + conditional theorem | witness; bound on the wire size per message type |
| C51 | `msg_encode` on a msgb with contents | encode only appends (`EncAppendProofs.v`) |
| C52, C53 | endpoint `tx`; trace of sent datagrams | invariant: queue entries hold the encoding of their message; case analysis on `tx` |
| C54, C55 | decoder over the PFCP tables; every leaf decoder | literal grammar in `AcceptSpec.v`; nested induction over the tables, C12's characterisation of decoding |
| C56–C58 | string buffer with position / remaining size / NULL buffer; all to_str functions | one invariant of the string buffer in three modes (text, NULL buffer, no overflow); nested induction over tables |
| C59–C61 | struct memory as bytes with the table's offsets, flags, counts, pitch | simulation between the loop over memory and the loop over values by induction on table depth and input; layout hypothesis: members inside the struct and disjoint; frame lemma for writes |
| C62–C65 | generator + compiler subset | induction over definition trees with the `seen()` list as invariant; layout algorithm gives disjoint members; C65 expected partly refuted: witnesses |
| C66 | `gen__pfcp_ies_auto.c` definitions | C62 + C64 instantiated; name conditions checked by computation, tables compared by computation for a symbolic ABI |
| C67, C68 | generated functions over `union osmo_pfcp_ies` | C59–C61 instantiated with C66 |
| C69, C70 | system of endpoints and network | invariant over histories: every entry of every node's trace is justified by an entry at the sender; round trip C24 |
| C71 | as C69, with delay bound and timer lateness bound | invariant: each dispatched request has a kept response, or no copy can arrive any more; arithmetic over C30's spacing and C34's keep time |
| C72–C75 | as C69 | uniqueness of drawn sequence numbers (C35), C36, C33 at both ends; C75 = C72 plus the peer's state machine (C42); C73 expected refuted for two clients: witness |
| C76 | enumerations and value_string tables, `get_value_string()` | finite facts about the tables by computation (no duplicates, coverage), lifted to all values; the message text cut at its delimiters |
| C77, C78 | the struct decoder / encoder with a log of `err_cb` calls | erasure to `DecEncModel.v`; induction over table, input and nesting: each log is a path to a failure; C78 is false for ordered decoding and for message types without table |
| C79 | `rx_datagram`, `msg_encode` | C20 lifted to messages by nested induction; per IE: encoding is at most as long as the value received, one octet longer for Apply Action; hence at most one octet per Apply Action for the message; expected refuted for names and large messages: witnesses |
| C80 | composition of endpoints, network and peer | C44 (a waiting peer has a pending request), C74 (an answer that arrives is delivered), C43 (associated iff accepted) |
| C81 | decode_ordered | `in_order` relation on the parsed IEs; induction on table and IEs with the `ahead` invariant |
| C82 | `is_busy` of EndpointModel.v | invariant of C30–C41: a message is queued iff it was given to tx and not freed |
| C83 | as C69–C74 | an arriving request is answered at once, from the cache (C33) or by the application (C71's `answer_kept`); C74 at the other end |
| C84 | as C81; `RepSpec.v`: the IEs and the ending of any data, `fills_ordered` | three loop modes at once (`goes_on`), induction over the table; the ending decides what a search or a look-ahead finds |
| C85 | as C11/C12; `RepSpec.v`: `fills_unordered` | induction over the table: what an entry leaves of the IEs, each carrying the count allowed by the entries before |
| C86 | as C14/C15; `RepSpec.v`: `tells` | the IEs of the wire form satisfy C84's / C85's rules |
| C87 | as C54/C55/C85; `ErrnoSpec.v`: `first_error`, `body_error` | the decoder fails at the first IE that cannot be placed; induction over the IEs, over nested tables |
| C88 | `decode_header`; `ReadSpec.v`: `header_of`, `header_errno` | the decoder as a function of the octets |
| C89 | all IE decoders, `decode_tlv`; `ReadSpec.v`: `ie_reads`, `body_reads` | decoder by decoder; nested tables by induction |
| C90 | `rx_datagram` (fd_cb loop); `ReadSpec.v`: `message_means` | from C87–C89 and C26 |
| C91 | `osmo_gtlvs_encode()` with the PFCP tables, all IE encoders; `PutSpec.v`: `ie_written`, `writable`, `struct_image`, `struct_error` written from TS 29.244 and the struct declarations | per IE kind by computation on the encoder, then induction on the table |
| C92 | `msg_encode` (`osmo_pfcp_msg_encode()`); `PutSpec.v`: `header_image`, `before`, `message_refusal` | from C91 and the header encoder |
| C93 | `msg_encode` against `message_means` of `ReadSpec.v` (C88–C90) | valid contents are typed and writable; C22 round trip and `message_means_iff`; refuted variants by computation |
| C94 | histories whose events each carry the timer values in force (`VarySpec.v`) | the per-message automaton of `EndpointSpec.v` with a configuration per step; invariant with the birth configuration; `step_adv` of `EndpointRun.v` for each event |
| C95 | endpoint histories; each trace entry has a cause among the events (`WireSpec.v`) | growth of the trace per call and event; C52, C93 for the meaning |
| C96 | as C95, for what callbacks get | as C95; C26 (delivered messages) and C90 (meaning) |
| C97 | `PropertiesEndpoint`: the draws `OSeq` recorded in the trace of any history without further set_seq_nr_state equal the closed form `seq_after n k` (EndpointSpec) for k = 1, 2, …; by the append invariant of `EndpointExt` (draws = iterates of osmo_pfcp_next_seq_nr) and the closed form of the iterates. |
| C98 | `ShortProofs`: converse of C91/C92 by induction over tables and values (a successful encode that leaves 4 octets wrote exactly the image; undefined behaviour of well-typed contents can only be the msgb abort), capacity bound from `EncAppendProofs`. "Success means complete" is false without the 4 octets: refuted by a valid Session Modification Request into the standard msgb. |
| C99 | `RepSpec.v`: `fails_ordered`, `fails_unordered`, the error counterparts of C84's and C85's rules | `RepErrProofs`: as C84 / C85 with `= Err e` in place of `= Ok`; both directions, so the rules are exclusive and complete |
| C100 | `FreeModel.v`: the endpoint functions over an endpoint that may be gone (using it then is undefined behaviour), with `osmo_pfcp_endpoint_free()` as a call that may occur anywhere a callback runs; `FreeSpec.v` | `FreeProofs`: equal to `EndpointModel.v` without free; simulation by the same program with close in place of free, so C30–C41 carry over; case analysis of where a freed endpoint is not used again. Whether a message is a talloc child of the endpoint is part of the call |
| C101 | `CtxModel.v`: objects, use counts by token, messages with peer and session context and their place (application, being sent, queue, freed); a log of allocation, context setting, invalidation, object deallocation and of the endpoint's trace (any endpoint history of `EndpointModel.v`); logging and releasing a message access what its contexts refer to; `CtxSpec.v` | `CtxProofs`: the endpoint does nothing to a message after releasing it (from its life cycle, C30–C32); invariant over the log: live references, at least as many counts as holders; the difference of count and holders never decreases and only invalidation changes it; witnesses for the two unsafe cases (C101_failed_tx_refuted, C101_received_refuted) |
| C102 | `TextModel.v`: every `printf()` of `gtlv_gen.c` with its format string, giving a list of characters; `CRead.v`, independent of the generator: characters to tokens (comments, directives, words), tokens to brackets, brackets to declarations, declarations to types (layout and name rules of `GenModel.v`), tables, function types and definitions, and the evaluation of function bodies; `TextSpec.v`: names that can be printed | token by token: each printed line, after any white-space separated prefix, adds its tokens (`TextLex`); each declaration is read back as the one of `GenModel.v` (`TextProofs`, `TextTab`), by induction over the definitions; compilers run in lockstep (`TextFinal`: names of functions and tables do not clash); the four functions evaluated (`TextRun`); hence C62, C64, C66 hold of the text |
| C103 | the value to which a function of the printed text evaluates is a call of the library with given arguments (C102); `decode_call` etc. in `PropertiesText.v` run the memory model of that library function (`MemModel.v`) on them | C102_functions gives the arguments, C102_tables the table; then C63 (any definitions) and C67, C68 (PFCP) |
| C104 | `IeMemModel.v` has the IE decoders of `pfcp_ies_custom.c` again, as the sequence of loads and stores that the C functions make, with `offsetof`/`sizeof` from the compiler model applied to the declarations of `pfcp_ies_custom.h`; access outside of the IE or struct is UB; alignment of accesses is not checked | simulation (`ref`) of the value level decoders of `IesModel.v`, store by store, with the disjointness of members derived from the layout; `osmo_apn_to_str()` by induction over labels. Assumed of the ABI: `ie_abi` (widths of the fixed-width types, enums large enough, what `osmo_sockaddr_from_octets()` stores). |
| C105 | the same decoders on a struct with any old contents | same simulation without the zero hypothesis; for F-SEID and UE IP Address equality of the members that are flagged as present; Outer Header Removal of one octet keeps the old extension header members (`_refuted` by computation). |
| C106 | `IeEncModel.v`: the IE encoders as sequences of loads from the struct and puts to the msgb; a load outside of the struct, or of a string behind its array, is UB, a put behind the room aborts; of the log output on errors only the load of its `%s` is kept (as if logging were enabled) | symbolic execution (`E room c out o`) of each encoder against `enc_of` of the value that the members hold (`c_val`); `osmo_apn_from_str()` by induction over the characters; composed with C91 (octets) and C104 (decoded structs) |
| C107 | `IeEncModel.v`: the printing functions as programs that load members | equality with the functions of `StrModel.v` on `c_val`, member by member; then C57. `strnlen()` by induction |
| C108 | the tables of C66 with the functions of `IeMemModel.v` and `IeEncModel.v` as their leaves (`cc_lk`); every undefined behaviour of an encoder is mapped to the one kind of `MemModel.v` | the refinement theorems of C59/C60 (`decode_refines`, `encode_refines`, `to_str_refines`) instantiated with values of type `option iev` (None = string without NUL), and a naturality theorem for decoding and encoding (`LeafMapProofs.v`: they commute with mapping leaf values); decoded and valid strings are shorter than their arrays, so have their NUL |
| C109 | `IeHelpModel.v`: the helpers as sequences of loads and stores; a `const struct osmo_sockaddr *` is a pointer to other memory or an address in the memory that is changed; `osmo_sockaddr_set_port()` of libosmocore is a parameter that keeps the address and clears the port (`sets_port0`) | store by store with a frame condition (`only`); equality with the value functions of `IesModel.v` (C46 to C49) on the members; the aliasing case of `osmo_pfcp_ie_f_seid_set()` is computed in general (C109_f_seid_set_own) and by a witness |
| C110 | `HdrMemModel.v`: enc_pfcp_header(), pfcp_header_set_message_length(), osmo_pfcp_msg_encode() and osmo_pfcp_msg_decode_header() as stores and loads of the members and bit fields of the packed header structs in the bytes of a msgb, bit fields allocated as the ABIs of little and of big endian hosts do, over the struct declarations of pfcp_msg.c:65-102 for both byte orders | simulation against the octet model of `MsgModel.v` (`encode_in_memory`, `decode_in_memory`): all octets but the last one of the header agree, that one keeps the spare bits of memory; IE encoding depends on the msgb only through its length (`EncPrefixProofs.v`); zeroed memory, byte order independence and exchange between hosts follow |
| C111 | `MsgMemModel.v`: osmo_pfcp_msg_encode(), the two decode functions and the loop of osmo_pfcp_fd_cb() with the header in msgb memory (C110) and the IEs in the union (C108) | the memory encoder equals that of C110 for any union that holds a message (C108_encode), then C24 through C110_message_exchange, and C108_decode on the other host; the receive loop by induction over the complete messages of the datagram, each step a C108_decode. Datagrams with a message that announces less than its header are left out (they are read out of bounds, C23, C26) |
| C112 | `SockModel.v`: what create, bind, close, free, sendto and the read callback do with `pfcp_fd`, in one process with any number of endpoints and the application's own descriptors; every system call goes to a trace. `SockSpec.v`: who holds a descriptor, read off the trace alone | one invariant of all histories (descriptor numbers in the endpoints = holders in the trace = registrations), by induction; the open flag of `EndpointModel.v` is the projection (C112_endpoint_model). Histories with a failing osmo_fd_register() or a talloc context freed over an open socket are excluded, and refuted |

Where a theorem is called `…_refuted`, it states that a concrete execution of the faithful model violates the property; the
`…_partial` theorem beside it states the part that is true, with the missing hypothesis visible. Nothing is hidden in the model
to make a property true.

## Trusted base

* Coq 8.16.1's kernel (including `vm_compute`'s conversion, used for concrete examples, counterexamples and table facts).
* `Print Assumptions` of every theorem in MANIFEST.json says "Closed under the global context": no axioms. (They are printed
  during the build of the `Properties*.v` files.)
* Axioms of the standard library that are *loaded* (not used by any theorem): vcheck lists the seven module-type style
  parameters of `Coq.ssr.ssrunder.Under_rel` (`Over_rel`, `Under_rel_from_rel`, `over_rel`, `over_rel_done`, `Under_rel`,
  `Under_relE`, `under_rel_done`), which come in with `Lia`/`zify` via `Coq.ssr`.
* That the model is what the C code does. Each definition cites file and lines; the simplifications are listed above and in the
  comments. The endpoint/peer model executes the same steps in the same order as the C code, including callbacks which call
  back into the API.
* Functions of libosmocore and libc, which are outside /repo and are modelled from their documented behaviour:
  `osmo_load16be/32be/64be(_ext)`, `osmo_store…`, `msgb_alloc` (zero-filled), `msgb_put` (aborts without tailroom),
  `msgb_tailroom`, `osmo_apn_to_str`, `osmo_apn_from_str`, `osmo_strlcpy`, `strlen`, `osmo_sockaddr_from_octets/to_octets`,
  `osmo_sockaddr_cmp`, `osmo_timer_schedule/del/pending` (a timer runs at most once per schedule, not before its time),
  `osmo_tdef_get`, `osmo_fsm_inst_state_chg` (refuses transitions not in the table before doing anything else; else stops the
  timer, runs onleave, sets state and timer, runs onenter), `osmo_fsm_inst_dispatch`, `osmo_use_count_get_put` (no int32
  overflow), `snprintf`, `OSMO_STRBUF_APPEND/PRINTF`, `OSMO_NAME_C_IMPL`, `osmo_sockaddr_to_str_buf2`, `osmo_quote_str_buf3`
  (both write like `snprintf`), `llist_*`, `hash_*`, talloc (destructors run once per free; allocation succeeds).

## Not modelled

* Failure of memory allocation; integer overflow of the use counts; `fprintf`/logging output; the explanations in `err_cb` texts.
* What the kernel does with sockets (the results of opening one, of `sendto` and of `recvfrom` are inputs of the model);
  `osmo_wqueue`/select loop: events (datagram, timer expiry, API call) arrive one at a time in any order.
* Calendar time other than through the timers and the recovery time stamp.
* A C compiler in general: only the subset of C that generated code is written in (`CRead.v`); included files are types and constants, a name that is
  a reserved word of C is accepted as a name, and so is a name longer than a compiler can handle.

## Findings (behaviours of the code the proofs exposed; all have a `_refuted` theorem or a remark in the model)

1. `osmo_pfcp_msg_decode_header()`: a message length smaller than the header wraps to about 2^32 and is then used as the IE
   region's length: out-of-bounds read (C23, C26).
2. `osmo_gtlvs_encode()` ignores the result of `osmo_gtlv_put_tli()` / `put_update_tl()`: a value longer than the length field
   produces a corrupt message with return value 0 (C17).
3. Ordered decoding: trailing garbage accepted, mandatory counts above 1 not enforced, repeated tags in a table (C13, C16).
4. `osmo_pfcp_dec_activate_predefined_rules()` runs `strlen()` on a value that need not be NUL terminated (C19).
5. Requests and responses are matched by sequence number only, not by peer (C37); so a second client's request is never given to
   the server's application if it happens to have the number of a kept response: every endpoint starts at 1 (C73). A request whose
   answer is not yet sent is given to the application again when it is retransmitted (C71).
6. `osmo_pfcp_endpoint_close()` drops pending requests without calling their `resp_cb`, and the rest of a bundle
   is dispatched after it (C40); a callback for the response to, or the timeout of, a pending request that closes the endpoint
   always leads to a double free, one for any other received message never does (C41); N1 = 0 or T1 = 0: `tx` returns 0 but the message is neither queued nor freed (C41);
   `set_seq_nr_state()` can duplicate pending sequence numbers (C35).
7. `osmo_pfcp_endpoint_invalidate_ctx()` on a pending association request, then timeout: NULL dereference (C42); it also does
   not release the use count (C45).
8. `osmo_pfcp_ie_f_seid_cmp()` is not antisymmetric / not an equality for mixed address families (C46).
9. `osmo_pfcp_ip_addrs_get_str()` etc. (C48), `osmo_pfcp_ie_node_id_to_osmo_sockaddr()` on an uninitialised argument (C49).
10. Message Priority is written to the low nibble of the octet (TS 29.244: high nibble); remark in `MsgModel.v`; C88_priority_refuted.
11. A failed `osmo_pfcp_msg_encode()` leaves partial data and a set FO flag in the msgb (C51).
12. Valid Session Establishment / Modification messages can exceed the 2048 byte msgb and abort the process (C50).
13. A datagram filling the receive buffer completely has no NUL behind it: with finding 4, a read beyond the buffer (C26).
14. Names in Node ID / Network Instance with '.' or NUL inside labels do not re-encode to themselves (C20).
15. CP peer: a failing `tx` leads to a transition to the current state, which the FSM layer refuses: no retry is scheduled by it
    (C42); after closing the endpoint the peer waits for ever (C44); association is never reported lost.
16. `osmo_gtlvs_encode_to_str_c()` of a struct without any IE returns uninitialised, unterminated memory (C58); UE IP Address:
    `chv6` is printed as "chv4", with a buffer a comma is printed before `chv6` or `dst` even if it is the first flag (as in the
    project's own recorded `,dst,v4:192.168.0.23`), and with a NULL buffer the returned length lacks the commas; for unsupported message types the
    returned length is 2 too large (C57).
17. The decoded struct of `osmo_gtlvs_decode()` is documented as `[out]` but must be zeroed by the caller: decoding into a used one
    fails with ENOTSUP (unordered) or appends to the arrays of the previous message (ordered) (C59_any_output_struct_refuted).
18. A repeated IE with `memb_array_pitch` 0 is refused by encoding (EFAULT) only; decoding stores all values on top of each other
    (C59_zero_pitch_not_refused_refuted).
19. The generator does not notice two groups with the same `decoded_type` but different `nested_ies`: the struct has the members of the
    first only, and a peer's message can make the generated decoder fail its assertion (C65_same_type_refuted).
20. Message names that differ in case only share an enumerator: the later table silently replaces the earlier (C65_same_message_type_refuted).
    A conflict between IE definitions is found only when the C file is generated, after the header was written (C65_example).
21. Ordered decoding returns without calling `err_cb` when an occurrence of a repeated IE is followed by a TLV with the same tag that
    is cut off (`gtlv_dec_enc.c:413-415`), and so do all functions for a message type without table (C78).
22. Forwarding a received message (decode, then encode) can abort the process: a one octet Apply Action becomes two octets, so a
    message of 1985 octets may need more than the 2048 octets of the msgb (C79_size_refuted; the limit is sharp up to one octet).
23. Ordered decoding never looks at what follows the last IE it wants: broken data there is accepted (C81_malformed_data_refuted), a second
    occurrence of an IE that may occur once is ignored (C81_example); unordered decoding rejects both.
24. With a table that repeats a tag, what ordered decoding makes of a message is not stable: an unknown IE between two IEs keeps them in different
    members, and after forwarding (decode, encode) without it they land in one member (C86_ordered_tells_refuted).
25. Encoding does not check that mandatory IEs are there: a Session Establishment Request without any Create PDR is encoded and sent, and every receiver
    drops it (C93_mandatory_refuted). It does not check the address family of a Node ID either: one marked IPv4 that holds an IPv6 address is sent as
    0.0.0.0 (C93_node_id_refuted); F-SEID, F-TEID and UE IP Address are checked (C91_ie_octets).
26. A valid message that does not fit in the msgb is not always reported: if fewer than 4 octets are left for an IE header, `osmo_gtlvs_encode()` writes the
   value without it, into the IE before. A Session Modification Request of 2050 octets is encoded "successfully" into the standard 2048 octets, and the receiver
   reads it as a message without its last IE (C98_success_refuted).
27. `osmo_pfcp_endpoint_free()` (like `osmo_pfcp_endpoint_close()`, C41) from within a response callback that reports a response or a timeout, or from
   `set_msg_ctx_cb`, makes the library use freed memory; from `rx_msg_cb` too, if the message answers a request or another message follows in the same
   datagram (C100_in_resp_cb_refuted, C100_in_timeout_cb_refuted, C100_in_ctx_cb_refuted, C100_receiving); from the response callback
   of a request that cannot be sent, if the message was allocated with the endpoint as talloc context, as `osmo_pfcp_cp_peer_new_req()` and the example in
   `pfcp_msg.h` do (C100_in_failed_tx). Nothing in the API documentation warns of this.
28. `osmo_pfcp_endpoint_invalidate_ctx()` does not reach messages that are in no queue: when the response callback of a request that could not be sent
   deallocates the session, or that of an answered request deallocates the session `set_msg_ctx_cb` has put in the received message's context,
   the library then logs the name of the deallocated FSM instance, also if the function was called just before (C101_failed_tx_refuted,
   C101_received_refuted). Invalidation does not release the context's use count, so an object that waits for its use count to reach zero
   never goes away (C101_mixed).
29. gtlv_gen: with `add_enc_to_str`, an IE whose function name is `to_str_x` next to one named `x` gives two declarations of `<proto>_enc_to_str_x()` with
   different types, which do not compile (C102_accepted_refuted). (A `proto_name` that begins with `ies_in` may clash with the names of tables in the same way.)
30. (Not from a proof, and the standard is not part of the repository:) `enum osmo_pfcp_up_feature` has no IPTV between NORP and IP6PL, where TS 29.244
   has it as far as I know; the feature bits from IP6PL on would then be off by one. C76_numbers, which compares with the standard's numbers, does not cover this enumeration.
31. `osmo_pfcp_dec_outer_header_removal()` never clears `gtp_u_extension_header_del_present`: decoding an IE of one octet into a struct that
    was used before leaves the old flag and bits (C105_removal_refuted). Message decoding always starts from zeroed memory, so only direct callers of
    the decoder are concerned. The F-SEID and UE IP Address decoders do not reset either, but set all of their presence flags.
32. The encoders of Node ID (FQDN), Network Instance and Activate Predefined Rules read their `char` array up to a NUL: a name that fills the array, with no
    NUL in it, is read behind the array (C106_unended, C106_unended_refuted). The printing functions use `strnlen()`/`%s` bounds and are safe for all contents (C107).
33. `osmo_pfcp_ie_f_seid_set(f, seid, &f->ip_addr.v4)`: the function clears `*f` before it reads the address, so an address of the same F-SEID is
    lost and no address is set, without an error (C109_f_seid_set_own, C109_f_seid_set_own_refuted). `osmo_pfcp_ip_addrs_set()` has no such problem.
34. The spare octet of a header without SEID, the spare bits next to a message priority, and the whole last octet of a header with SEID and without priority are never written by `osmo_pfcp_msg_encode()`.
    In zeroed memory (`msgb_alloc()`, what the library itself uses) they are 0; in a msgb that is reused after `msgb_reset()` an octet of an earlier message is sent (C110_pure_refuted). Receivers ignore it (C110_exchange).
35. `osmo_pfcp_endpoint_bind()` ignores that `osmo_sock_init_osa_ofd()` leaves the number of an already closed descriptor in `pfcp_fd.fd` when the
    registration with the select loop fails: later messages go to whatever gets that number, and close unregisters what is not registered (C112_register_failure_refuted).
36. An endpoint has no talloc destructor: released with its talloc context instead of by `osmo_pfcp_endpoint_free()`, it leaves its socket open and
    registered, and the next datagram is handled in freed memory (C112_context_refuted).
