{"id": "C01", "title": "Tag/instance comparison is a total order", "statement": "osmo_gtlv_tag_inst_cmp() is a total order on (possibly NULL) tag/instance identifiers: it returns 0 exactly when both denote the same tag with the same instance (or both have none), swapping the arguments negates the sign, and it is transitive. Hence dispatching on 'cmp == 0' identifies exactly one IE.", "quantifier": "all pairs/triples of tag_inst values (any tag, instance present or not, any instance value, NULL)", "why_tests_cant": "infinitely many pairs; a non-transitive or instance-blind comparison only shows up on particular pairs", "anchors": ["src/libosmo-gtlv/gtlv.c:osmo_gtlv_tag_inst_cmp"]}
{"id": "C02", "title": "T8L8V header store/load are inverse", "statement": "For every tag and length the T8L8V header either is rejected (-EINVAL iff tag>255, else -EMSGSIZE iff length>255, else -ENOSPC iff fewer than 2 bytes remain) or is written as exactly 2 bytes which, loaded back, yield the same tag and length.", "quantifier": "all tags, lengths and remaining buffer sizes", "why_tests_cant": "boundary behaviour must hold for every combination, including all error priorities", "anchors": ["src/libosmo-gtlv/gtlv.c:t8l8v_store_tl", "src/libosmo-gtlv/gtlv.c:t8l8v_load_tl"]}
{"id": "C03", "title": "T16L16V header store/load are inverse", "statement": "Same as C02 with 16-bit big-endian tag and length and a 4-byte header.", "quantifier": "all tags, lengths and remaining buffer sizes", "why_tests_cant": "2^32 header values times buffer sizes", "anchors": ["src/libosmo-gtlv/gtlv.c:t16l16v_store_tl", "src/libosmo-gtlv/gtlv.c:t16l16v_load_tl"]}
{"id": "C04", "title": "TLV sequence round trip", "statement": "Writing any sequence of (tag,value) items with osmo_gtlv_put_tl(0), appending the value and osmo_gtlv_put_update_tl(), then iterating osmo_gtlv_load_next() over the resulting bytes, returns exactly those items in order and then the end-of-data indication.", "quantifier": "all finite sequences of representable items, both stock TL formats, any buffer large enough", "why_tests_cant": "needs induction over unbounded sequences and values", "anchors": ["src/libosmo-gtlv/gtlv.c:osmo_gtlv_put_tli", "src/libosmo-gtlv/gtlv.c:osmo_gtlv_put_update_tl", "src/libosmo-gtlv/gtlv.c:osmo_gtlv_load_next"]}
{"id": "C05", "title": "TLV iteration is memory safe, makes progress and terminates", "statement": "On any input bytes, each osmo_gtlv_load_next() either fails, reports the end, or yields a value range that lies inside the source buffer and behind the previous item; no byte outside the buffer is read; iteration stops after at most (buffer length / minimum header size)+1 calls.", "quantifier": "all byte strings and all reachable loader states, both stock TL formats", "why_tests_cant": "malformed inputs are an infinite set; termination is not a test outcome", "anchors": ["src/libosmo-gtlv/gtlv.c:osmo_gtlv_load_next", "src/libosmo-gtlv/gtlv.c:next_tl_valid"]}
{"id": "C06", "title": "TLV parse accepts exactly the well-formed buffers", "statement": "Iterating osmo_gtlv_load_next() over a buffer ends without error iff the buffer is the concatenation of complete TLVs, and the items returned are then the unique decomposition of the buffer; nothing is lost or invented.", "quantifier": "all byte strings, both stock TL formats", "why_tests_cant": "an iff over all byte strings", "anchors": ["src/libosmo-gtlv/gtlv.c:osmo_gtlv_load_next"]}
{"id": "C07", "title": "Peek agrees with next", "statement": "Whenever osmo_gtlv_load_next() would yield an item, osmo_gtlv_load_peek_tag() returns 0 and that item's tag; when the next call would report the end it returns -ENOENT; it never changes the loader state.", "quantifier": "all buffers and all reachable loader states", "why_tests_cant": "relation between two functions on every state", "anchors": ["src/libosmo-gtlv/gtlv.c:osmo_gtlv_load_peek_tag"]}
{"id": "C08", "title": "Find-by-tag returns the first match or leaves the loader unchanged", "statement": "osmo_gtlv_load_next_by_tag[_inst]() moves to the first following item with that tag/instance; if it returns non-zero (-ENOENT: no such item up to the end; other errors: malformed item before any match) the loader state is unchanged.", "quantifier": "all buffers, loader states and sought tags", "why_tests_cant": "unbounded skip loop; state-unchanged-on-error must hold for every failing input", "anchors": ["src/libosmo-gtlv/gtlv.c:osmo_gtlv_load_next_by_tag_inst", "src/libosmo-gtlv/gtlv.c:osmo_gtlv_load_next_by_tag"]}
{"id": "C09", "title": "Unordered decoding ignores unknown IEs", "statement": "Inserting any complete TLV whose tag is not in the coding table, at any position between IEs, does not change the result of osmo_gtlvs_decode() in unordered mode (same return code, same decoded struct).", "quantifier": "all coding tables, all IE sequences, all unknown TLVs and positions", "why_tests_cant": "forward compatibility must hold for every message and every unknown IE", "anchors": ["src/libosmo-gtlv/gtlv_dec_enc.c:osmo_gtlvs_decode_unordered"]}
{"id": "C10", "title": "Unordered decoding does not depend on the order of IEs with different tags", "statement": "Exchanging neighbouring IEs with different tags (hence any reordering that keeps the relative order of same-tag IEs) does not change the outcome when decoding succeeds: same decoded struct.", "quantifier": "all coding tables, all IE sequences and such reorderings", "why_tests_cant": "quantifies over all permutations", "anchors": ["src/libosmo-gtlv/gtlv_dec_enc.c:osmo_gtlvs_decode_unordered"]}
{"id": "C11", "title": "Unordered decoding enforces mandatory IEs", "statement": "Whenever unordered osmo_gtlvs_decode() returns 0, every mandatory IE of the table was present in the data and decoded, and every repeated IE was present at least count_mandatory times; nested structures too.", "quantifier": "all coding tables and all byte strings", "why_tests_cant": "every input that omits something must be rejected", "anchors": ["src/libosmo-gtlv/gtlv_dec_enc.c:osmo_gtlvs_decode_unordered"]}
{"id": "C12", "title": "Unordered decoding never overfills struct members", "statement": "Unordered osmo_gtlvs_decode() never stores more than count_max values in a repeated member nor more than one in a single member, at any nesting depth; a surplus known IE yields -ENOTSUP.", "quantifier": "all coding tables and all byte strings", "why_tests_cant": "array overflow must be impossible for every input", "anchors": ["src/libosmo-gtlv/gtlv_dec_enc.c:osmo_gtlvs_decode_unordered"]}
{"id": "C13", "title": "TLV struct decoding is memory safe for every input", "statement": "osmo_gtlvs_decode() (ordered or not) never reads outside the given source bytes, at any nesting depth, provided each leaf decoder stays inside its own IE value.", "quantifier": "all coding tables, cfgs and byte strings", "why_tests_cant": "all malformed inputs", "anchors": ["src/libosmo-gtlv/gtlv_dec_enc.c:osmo_gtlvs_decode_unordered", "src/libosmo-gtlv/gtlv_dec_enc.c:osmo_gtlvs_decode_ordered"]}
{"id": "C14", "title": "Generic encode/decode round trip (unordered)", "statement": "If osmo_gtlvs_encode() of a well-formed struct into a sufficiently large buffer succeeds, unordered osmo_gtlvs_decode() of the produced bytes returns 0 and yields the same struct.", "quantifier": "all coding tables whose leaf codecs round-trip, with distinct tags per level, and all well-formed structs of any nesting", "why_tests_cant": "quantifies over tables and values", "anchors": ["src/libosmo-gtlv/gtlv_dec_enc.c:osmo_gtlvs_encode", "src/libosmo-gtlv/gtlv_dec_enc.c:osmo_gtlvs_decode_unordered"]}
{"id": "C15", "title": "Generic encode/decode round trip (ordered)", "statement": "Same as C14 for ordered decoding.", "quantifier": "all coding tables whose leaf codecs round-trip, with distinct tags per level, and all well-formed structs", "why_tests_cant": "quantifies over tables and values", "anchors": ["src/libosmo-gtlv/gtlv_dec_enc.c:osmo_gtlvs_encode", "src/libosmo-gtlv/gtlv_dec_enc.c:osmo_gtlvs_decode_ordered"]}
{"id": "C16", "title": "Ordered decoding enforces mandatory IEs", "statement": "Whenever ordered osmo_gtlvs_decode() returns 0, every mandatory IE was present and every repeated IE at least count_mandatory times.", "quantifier": "all coding tables and all byte strings", "why_tests_cant": "every input that omits something must be rejected", "anchors": ["src/libosmo-gtlv/gtlv_dec_enc.c:osmo_gtlvs_decode_ordered"]}
{"id": "C17", "title": "A successful encode never emits a corrupt TLV", "statement": "Whenever osmo_gtlvs_encode() returns 0, each IE was written with its own header whose length field equals the size of the value written (otherwise an error is returned).", "quantifier": "all coding tables, structs and buffer sizes", "why_tests_cant": "depends on every size/tailroom combination", "anchors": ["src/libosmo-gtlv/gtlv_dec_enc.c:osmo_gtlvs_encode", "src/libosmo-gtlv/gtlv.c:osmo_gtlv_put_tli", "src/libosmo-gtlv/gtlv.c:osmo_gtlv_put_update_tl"]}
{"id": "C18", "title": "Every PFCP IE value round-trips", "statement": "For each PFCP IE type: if encoding a valid in-memory value succeeds, decoding the produced bytes returns 0 and yields an equal value.", "quantifier": "all IE types and all valid values of each", "why_tests_cant": "value spaces are astronomically large (addresses, names, flags)", "anchors": ["src/libosmo-pfcp/pfcp_ies_custom.c"]}
{"id": "C19", "title": "PFCP IE decoders are total and memory safe", "statement": "For every byte string, each PFCP IE decoder returns a value or an error after reading only bytes of that IE's value.", "quantifier": "all IE types, all byte strings and lengths", "why_tests_cant": "all malformed IEs", "anchors": ["src/libosmo-pfcp/pfcp_ies_custom.c"]}
{"id": "C20", "title": "PFCP IE decoders produce only in-range values", "statement": "Every value a PFCP IE decoder returns is a valid in-memory value: masked fields fit their width, address families match the flags, strings are NUL-terminated within their array; decoded-then-encoded-then-decoded yields the same value.", "quantifier": "all IE types and all byte strings", "why_tests_cant": "all inputs", "anchors": ["src/libosmo-pfcp/pfcp_ies_custom.c"]}
{"id": "C21", "title": "PFCP header round trip", "statement": "For every header (request or response, with or without SEID and priority, any 24-bit sequence number, any 64-bit SEID) osmo_pfcp_msg_decode_header() of an encoded message returns the same header fields and the exact message length.", "quantifier": "all header values and all payloads that fit", "why_tests_cant": "2^90 headers", "anchors": ["src/libosmo-pfcp/pfcp_msg.c:enc_pfcp_header", "src/libosmo-pfcp/pfcp_msg.c:osmo_pfcp_msg_decode_header"]}
{"id": "C22", "title": "Encoded message length field is exact", "statement": "Every successfully encoded message carries a length field equal to its total size minus 4, so the message is self-delimiting.", "quantifier": "all messages", "why_tests_cant": "all sizes and shapes", "anchors": ["src/libosmo-pfcp/pfcp_msg.c:osmo_pfcp_msg_encode", "src/libosmo-pfcp/pfcp_msg.c:set_message_length"]}
{"id": "C23", "title": "Header decoding stays inside the received data", "statement": "For every received byte string osmo_pfcp_msg_decode_header() either fails or returns a message length not exceeding the data, with an IE region that lies inside the message.", "quantifier": "all byte strings", "why_tests_cant": "every malformed length field", "anchors": ["src/libosmo-pfcp/pfcp_msg.c:osmo_pfcp_msg_decode_header"]}
{"id": "C24", "title": "PFCP message round trip", "statement": "For each of the supported message types and every valid struct, encode followed by decode_header + decode_tlv returns 0 and the same header and IE struct.", "quantifier": "all supported message types and valid contents", "why_tests_cant": "value space unbounded; includes nested and repeated IEs", "anchors": ["src/libosmo-pfcp/pfcp_msg.c:osmo_pfcp_msg_encode", "src/libosmo-pfcp/pfcp_msg.c:osmo_pfcp_msg_decode_tlv", "src/libosmo-pfcp/gen__pfcp_ies_auto.c"]}
{"id": "C25", "title": "Bundled messages round trip", "statement": "Encoding any list of messages back to back into one msgb and running the receive loop over the bytes yields exactly those messages in order; the follow-on flag is set on all but the last.", "quantifier": "all finite lists of valid messages that fit", "why_tests_cant": "unbounded lists", "anchors": ["src/libosmo-pfcp/pfcp_msg.c:osmo_pfcp_msg_encode", "src/libosmo-pfcp/pfcp_endpoint.c:osmo_pfcp_fd_cb"]}
{"id": "C26", "title": "Receive loop terminates and isolates a bad message", "statement": "For every datagram the receive loop ends; messages before a malformed header are still processed; a message with a malformed IE part is dropped without affecting the other messages in the datagram.", "quantifier": "all datagrams", "why_tests_cant": "termination and isolation over all byte strings", "anchors": ["src/libosmo-pfcp/pfcp_endpoint.c:osmo_pfcp_fd_cb"]}
{"id": "C27", "title": "Sequence numbers are valid and do not repeat early", "statement": "osmo_pfcp_next_seq_nr() always returns a value in 1..2^24-1 and any 2^24-1 consecutive results are pairwise distinct, from any start state.", "quantifier": "all states and all numbers of calls", "why_tests_cant": "period is 16.7 million and state space 2^32", "anchors": ["src/libosmo-pfcp/pfcp_msg.c:osmo_pfcp_next_seq_nr"]}
{"id": "C28", "title": "SEIDs are valid and do not repeat early", "statement": "osmo_pfcp_next_seid() never returns 0 and any 2^64-1 consecutive results are pairwise distinct, from any start state.", "quantifier": "all states and all numbers of calls", "why_tests_cant": "period 2^64", "anchors": ["src/libosmo-pfcp/pfcp_msg.c:osmo_pfcp_next_seid"]}
{"id": "C29", "title": "A reply is a response carrying its request's sequence number and destination", "statement": "osmo_pfcp_msg_alloc_tx() with in_reply_to yields a message whose sequence number and remote address are the request's; is_response is set exactly for the response message types.", "quantifier": "all message types, requests", "why_tests_cant": "all combinations", "anchors": ["src/libosmo-pfcp/pfcp_msg.c:osmo_pfcp_msg_alloc_tx", "src/libosmo-pfcp/pfcp_msg.c:osmo_pfcp_msgtype_is_response"]}
{"id": "C30", "title": "Bounded retransmission", "statement": "An unanswered request is transmitted once plus at most N1 times, T1 apart, byte-identical each time, and then fails with exactly one response callback with no message.", "quantifier": "all event histories of the endpoint", "why_tests_cant": "needs all timer/receive interleavings", "anchors": ["src/libosmo-pfcp/pfcp_endpoint.c:pfcp_queue_retrans", "src/libosmo-pfcp/pfcp_endpoint.c:pfcp_queue_sent_req_timer_cb", "src/libosmo-pfcp/pfcp_endpoint.c:osmo_pfcp_endpoint_retrans_queue_add"]}
{"id": "C31", "title": "Response callback at most once per request", "statement": "For every request handed to osmo_pfcp_endpoint_tx(), its response callback runs at most once, over any history of events including callbacks that transmit further messages.", "quantifier": "all event histories and callback behaviours", "why_tests_cant": "all interleavings and re-entrancy", "anchors": ["src/libosmo-pfcp/pfcp_endpoint.c"]}
{"id": "C32", "title": "Every request is eventually resolved", "statement": "Each transmitted request is at any time either still queued with a running timer or has had its response callback called exactly once (success or failure) or was dropped by osmo_pfcp_endpoint_close(); after N1+1 timer expiries it is no longer queued.", "quantifier": "all event histories", "why_tests_cant": "liveness over all schedules", "anchors": ["src/libosmo-pfcp/pfcp_endpoint.c"]}
{"id": "C33", "title": "A retransmitted request is answered from the cache and not dispatched twice", "statement": "While the response to a request is cached, receiving the request again re-sends the identical response bytes and does not call the receive callback.", "quantifier": "all event histories", "why_tests_cant": "needs all interleavings within the retention time", "anchors": ["src/libosmo-pfcp/pfcp_endpoint.c:osmo_pfcp_endpoint_handle_rx"]}
{"id": "C34", "title": "Responses stay cached for the configured time and only that long", "statement": "A sent response is retained until its keep-response timer expires and is not retained beyond the expiry handling.", "quantifier": "all event histories", "why_tests_cant": "timing over all histories", "anchors": ["src/libosmo-pfcp/pfcp_endpoint.c:osmo_pfcp_endpoint_retrans_queue_add", "src/libosmo-pfcp/pfcp_endpoint.c:pfcp_queue_sent_resp_timer_cb"]}
{"id": "C35", "title": "Pending requests have distinct sequence numbers", "statement": "As long as fewer than 2^24-1 requests were sent since the oldest pending one, no two pending requests share a sequence number, so a response completes exactly the request it answers.", "quantifier": "all event histories", "why_tests_cant": "invariant over unbounded histories", "anchors": ["src/libosmo-pfcp/pfcp_endpoint.c:osmo_pfcp_endpoint_tx", "src/libosmo-pfcp/pfcp_endpoint.c:osmo_pfcp_queue_find"]}
{"id": "C36", "title": "A response completes exactly the matching request", "statement": "A received response with sequence number s completes the pending request with sequence number s and no other pending request; an unmatched response does not complete any.", "quantifier": "all event histories", "why_tests_cant": "all queue contents", "anchors": ["src/libosmo-pfcp/pfcp_endpoint.c:osmo_pfcp_endpoint_handle_rx"]}
{"id": "C37", "title": "Messages of different peers do not interfere", "statement": "A request from one peer is never treated as a retransmission of another peer's request, and a response completes a request only if it comes from the peer and is of the type that the request was sent to/asks for.", "quantifier": "all event histories with several peers", "why_tests_cant": "cross-peer collisions need particular sequence numbers", "anchors": ["src/libosmo-pfcp/pfcp_endpoint.c:osmo_pfcp_queue_find"]}
{"id": "C38", "title": "Every Heartbeat Request is answered", "statement": "Each received, decodable Heartbeat Request makes the endpoint transmit a Heartbeat Response to the sender with the same sequence number and the endpoint's recovery time stamp (given encoding and sendto succeed).", "quantifier": "all heartbeat requests and endpoint states", "why_tests_cant": "all states", "anchors": ["src/libosmo-pfcp/pfcp_endpoint.c:osmo_pfcp_endpoint_handle_rx"]}
{"id": "C39", "title": "Recovery time stamp is NTP time", "statement": "The endpoint's recovery time stamp is the creation UNIX time in NTP seconds modulo 2^32 for the whole life of the endpoint, and this value is what its heartbeat requests and responses carry.", "quantifier": "all UNIX times", "why_tests_cant": "year 2036 wrap", "anchors": ["src/libosmo-pfcp/pfcp_endpoint.c:osmo_pfcp_endpoint_create"]}
{"id": "C40", "title": "Endpoint close resolves pending requests", "statement": "osmo_pfcp_endpoint_close() calls the response callback of every pending request so that no caller waits forever.", "quantifier": "all endpoint states", "why_tests_cant": "all states", "anchors": ["src/libosmo-pfcp/pfcp_endpoint.c:osmo_pfcp_endpoint_close"]}
{"id": "C41", "title": "Messages are released exactly once", "statement": "Every message given to osmo_pfcp_endpoint_tx() is freed exactly once over any history ending in close: no double free, no leak, no use after free.", "quantifier": "all event histories, configurations and callback behaviours", "why_tests_cant": "needs all paths", "anchors": ["src/libosmo-pfcp/pfcp_endpoint.c"]}
{"id": "C42", "title": "CP peer FSM only takes permitted transitions", "statement": "For any event history, the association FSM only makes transitions permitted by its table, never gets an action that the FSM layer rejects, and osmo_pfcp_cp_peer_is_associated() is true exactly in the associated state.", "quantifier": "all event histories", "why_tests_cant": "all interleavings", "anchors": ["src/libosmo-pfcp/pfcp_cp_peer.c"]}
{"id": "C43", "title": "Association callback alternates and agrees with the state", "statement": "The assoc_cb calls alternate true,false,true,... starting with true, and the last call's value equals osmo_pfcp_cp_peer_is_associated(). However the callback is set, changed or removed: before the association none is called; at the association the one then registered is called once, with true, and none if none is registered.", "quantifier": "all event histories", "why_tests_cant": "all interleavings", "anchors": ["src/libosmo-pfcp/pfcp_cp_peer.c"]}
{"id": "C44", "title": "Association is retried until it succeeds", "statement": "After osmo_pfcp_cp_peer_associate(), until an accepting response arrives there is always either an outstanding Association Setup Request or a running retry timer; each retry sends a new request.", "quantifier": "all event histories", "why_tests_cant": "liveness over all histories", "anchors": ["src/libosmo-pfcp/pfcp_cp_peer.c"]}
{"id": "C45", "title": "Peer use counts equal live messages", "statement": "The CP peer's use count attributed to message tokens equals the number of live messages holding that peer context; it never goes negative.", "quantifier": "all histories of attaching, sending, completing and freeing messages", "why_tests_cant": "all interleavings", "anchors": ["src/libosmo-pfcp/pfcp_cp_peer.c:osmo_pfcp_cp_peer_set_msg_ctx", "src/libosmo-pfcp/pfcp_msg.c:osmo_pfcp_msg_destructor"]}
{"id": "C46", "title": "F-SEID comparison is an equality test and antisymmetric", "statement": "osmo_pfcp_ie_f_seid_cmp() returns 0 for equal F-SEIDs, swapping arguments negates the result, and it returns 0 when the SEIDs match and one address family matches.", "quantifier": "all F-SEID pairs", "why_tests_cant": "all pairs", "anchors": ["src/libosmo-pfcp/pfcp_ies_custom.c:osmo_pfcp_ie_f_seid_cmp"]}
{"id": "C47", "title": "Feature bit get/set laws", "statement": "osmo_pfcp_bits_set() changes exactly the addressed bit: getting it returns the value set, all other bits are unchanged.", "quantifier": "all bitfields, positions and values", "why_tests_cant": "all positions/contents", "anchors": ["src/libosmo-pfcp/pfcp_ies_custom.c:osmo_pfcp_bits_get", "src/libosmo-pfcp/pfcp_ies_custom.c:osmo_pfcp_bits_set"]}
{"id": "C48", "title": "IP address set helpers", "statement": "osmo_pfcp_ip_addrs_set() stores an address in the slot of its family, keeps the other slot and is read back by osmo_pfcp_ip_addrs_get(); other families are rejected without change. osmo_pfcp_ip_addrs_get_str() reports the same IPv4 address, and the same IPv6 address if there is no IPv4 address (otherwise it leaves the IPv6 result untouched).", "quantifier": "all address values and prior contents", "why_tests_cant": "all values", "anchors": ["src/libosmo-pfcp/pfcp_msg.c:osmo_pfcp_ip_addrs_set", "src/libosmo-pfcp/pfcp_msg.c:osmo_pfcp_ip_addrs_get"]}
{"id": "C49", "title": "Node ID / socket address conversion round trip", "statement": "Converting an IPv4/IPv6 socket address to a Node ID and back yields the same IP address.", "quantifier": "all addresses", "why_tests_cant": "all values", "anchors": ["src/libosmo-pfcp/pfcp_msg.c:osmo_pfcp_ie_node_id_from_osmo_sockaddr", "src/libosmo-pfcp/pfcp_msg.c:osmo_pfcp_ie_node_id_to_osmo_sockaddr"]}
{"id": "C50", "title": "Encoding a PFCP message never aborts the process", "statement": "osmo_pfcp_msg_encode() of any valid message into the standard 2048-byte buffer either succeeds or returns an error; it never trips the msgb overflow abort.", "quantifier": "all valid messages", "why_tests_cant": "depends on total size over all combinations of repeated IEs", "anchors": ["src/libosmo-pfcp/pfcp_msg.c:osmo_pfcp_msg_encode", "src/libosmo-gtlv/gtlv_dec_enc.c:osmo_gtlvs_encode"]}
{"id": "C51", "title": "Encoding into a bundle keeps earlier messages", "statement": "osmo_pfcp_msg_encode() appending a message to a msgb that already holds messages changes no byte of them except the previous message's follow-on flag, whether it succeeds or returns an error.", "quantifier": "all msgb contents, headers and structs", "why_tests_cant": "all combinations of buffer fill level, message and failure point", "anchors": ["src/libosmo-pfcp/pfcp_msg.c:osmo_pfcp_msg_encode", "src/libosmo-gtlv/gtlv_dec_enc.c:osmo_gtlvs_encode"]}
{"id": "C52", "title": "What osmo_pfcp_endpoint_tx() puts on the wire", "statement": "Every datagram sent for a message given to osmo_pfcp_endpoint_tx() goes to that message's remote address and is the encoding of that message with the endpoint's configured local Node ID filled in where its type has one and, for a request, with a sequence number drawn from the endpoint for it; a response keeps its own sequence number. This includes retransmissions.", "quantifier": "all endpoint histories and messages", "why_tests_cant": "all message types, and retransmissions arbitrarily later in any history", "anchors": ["src/libosmo-pfcp/pfcp_endpoint.c:osmo_pfcp_endpoint_tx", "src/libosmo-pfcp/pfcp_endpoint.c:osmo_pfcp_endpoint_tx_data_no_logging"]}
{"id": "C53", "title": "Result and ownership of osmo_pfcp_endpoint_tx()", "statement": "If osmo_pfcp_endpoint_tx() returns an error, the message was not sent, has been released exactly once, and the failure callback of a request was called exactly once; if it returns success, the message was sent at least once.", "quantifier": "all endpoint histories, messages and socket failures", "why_tests_cant": "every failure point of encoding and sending, in any history", "anchors": ["src/libosmo-pfcp/pfcp_endpoint.c:osmo_pfcp_endpoint_tx", "src/libosmo-pfcp/pfcp_endpoint.c:osmo_pfcp_endpoint_retrans_queue_add"]}
{"id": "C54", "title": "Exactly the conforming message bodies are accepted", "statement": "For each supported PFCP message type, osmo_pfcp_msg_decode() of the IEs accepts a body if and only if it is a sequence of complete TLVs in which every IE that TS 29.244 assigns to that message (and, recursively, to each grouped IE) and that the library knows occurs exactly once if mandatory, at most once if optional, and between its minimum and 32 times if repeatable, each with acceptable contents; unknown IEs are ignored. For any other message type decoding and encoding fail with -ENOTSUP.", "quantifier": "all message types and all byte strings", "why_tests_cant": "the set of byte strings is infinite, and both directions (no conforming message refused, no malformed one accepted) are claimed", "anchors": ["src/libosmo-pfcp/pfcp_msg.c:osmo_pfcp_msg_decode_tlv", "src/libosmo-pfcp/gen__pfcp_ies_auto.c", "src/libosmo-gtlv/gtlv_dec_enc.c:osmo_gtlvs_decode_unordered"]}
{"id": "C55", "title": "Exactly the well-formed IE values are accepted, later extensions are ignored", "statement": "Each osmo_pfcp_dec_*() accepts an IE value if and only if its length is what its type and flag octets announce (at least that for extendable IEs, exactly that for fixed-length ones); additional octets behind the known contents of an extendable IE do not change the decoded value.", "quantifier": "all IE types and byte strings", "why_tests_cant": "all lengths and flag combinations, all possible extensions", "anchors": ["src/libosmo-pfcp/pfcp_ies_custom.c"]}
{"id": "C56", "title": "Text form of a decoded struct", "statement": "osmo_gtlvs_encode_to_str_buf() writes, for every coding table and struct, the text listing all present members in table order with their names, all values of repeated members and nested structs, cut off to any buffer size like snprintf() (always terminated, never beyond the buffer), and returns the full length; with a NULL buffer it returns the same length; a negative value is returned exactly if there is no table or a member of the outermost struct has more values than it can hold, and even then nothing is written outside of the buffer. osmo_gtlv_tag_inst_to_str_buf() likewise.", "quantifier": "all tables, structs, nesting depths, buffer sizes and buffer contents", "why_tests_cant": "unbounded structs, nesting and every possible truncation point", "anchors": ["src/libosmo-gtlv/gtlv_dec_enc.c:osmo_gtlvs_encode_to_str_buf", "src/libosmo-gtlv/gtlv.c:osmo_gtlv_tag_inst_to_str_buf"]}
{"id": "C57", "title": "Text form of PFCP IEs and messages", "statement": "Every osmo_pfcp_enc_to_str_*(), osmo_pfcp_msg_to_str_buf() and osmo_pfcp_msg_log_info_buf() writes the documented text of any value into a buffer of any size without writing beyond it and returns its length, also for a NULL buffer; the text shows all flags, and the names printed for bit fields determine the bits. (Refuted: NULL buffer and CHV6 of a UE IP Address.)", "quantifier": "all IE values, messages, buffer sizes", "why_tests_cant": "all values and all truncation points", "anchors": ["src/libosmo-pfcp/pfcp_ies_custom.c", "src/libosmo-pfcp/pfcp_msg.c:osmo_pfcp_msg_to_str_buf", "src/libosmo-pfcp/pfcp_strs.c"]}
{"id": "C58", "title": "The _c variants return complete strings", "statement": "Each *_to_str_c() returns a NUL terminated string holding the whole text, however long it is compared to the initial buffer. (Refuted for an empty text: osmo_gtlvs_encode_to_str_c() of a struct without IEs returns uninitialised memory.)", "quantifier": "all texts, initial sizes, contents of fresh memory", "why_tests_cant": "text lengths are unbounded; contents of uninitialised memory vary", "anchors": ["src/libosmo-gtlv/gtlv_dec_enc.c:osmo_gtlvs_encode_to_str_c", "src/libosmo-pfcp/pfcp_msg.c:osmo_pfcp_msg_to_str_c"]}
{"id": "C59", "title": "Decoding writes the C struct correctly", "statement": "Given a table whose members lie inside the struct and do not overlap, and a zeroed struct, osmo_gtlvs_decode() stores exactly the decoded values, presence flags and counts at the members' offsets, at every nesting depth, writes no byte outside of the struct, and fails no assertion; its result is the one of the decoder without memory. (Refuted: for structs that are not zeroed; zero array pitch is not refused.)", "quantifier": "all tables, layouts, inputs, host byte orders, depths", "why_tests_cant": "offsets, sizes and inputs are unbounded; a wrong offset corrupts memory only for particular layouts", "anchors": ["src/libosmo-gtlv/gtlv_dec_enc.c:osmo_gtlvs_decode", "src/libosmo-gtlv/gtlv_dec_enc.c:membof"]}
{"id": "C60", "title": "Encoding and printing read the C struct correctly", "statement": "osmo_gtlvs_encode() and osmo_gtlvs_encode_to_str_buf() give for a struct in memory the bytes / text of the values it holds; padding, the contents of absent members and array entries beyond the count have no influence; no read outside of the struct.", "quantifier": "all tables, layouts, structs, host byte orders", "why_tests_cant": "struct contents and padding are unbounded", "anchors": ["src/libosmo-gtlv/gtlv_dec_enc.c:osmo_gtlvs_encode", "src/libosmo-gtlv/gtlv_dec_enc.c:osmo_gtlvs_encode_to_str_buf"]}
{"id": "C61", "title": "Round trip through memory", "statement": "Encoding a struct and decoding the result into a zeroed struct gives a struct that holds the same values; and whatever unordered decoding stored can be encoded and printed again without undefined members.", "quantifier": "all tables, layouts, structs, buffer positions", "why_tests_cant": "quantifies over all structs and memories", "anchors": ["src/libosmo-gtlv/gtlv_dec_enc.c"]}
{"id": "C62", "title": "Generated tables mean the definitions", "statement": "For every set of IE and message definitions that the generator and the compiler accept, the coding table of each message has the tags, instances, presence flags, occurrence limits and functions of the definitions at every depth, its offsets are those of the struct members named after the IEs, all members lie in the generated union without overlap, and message types that are not defined have no table.", "quantifier": "all definitions, configurations, headers (ABIs), message types", "why_tests_cant": "definitions are arbitrary trees; a test checks one protocol", "anchors": ["src/libosmo-gtlv/gtlv_gen.c", "include/osmocom/gtlv/gtlv_gen.h"]}
{"id": "C63", "title": "Generated functions do what the definitions mean", "statement": "The generated _ies_decode() (into a zeroed union), _ies_encode() and _ies_encode_to_str() behave as osmo_gtlvs_decode() etc. for the table that the definitions mean, values being in the named members; nothing outside of the union is written.", "quantifier": "all definitions, message types, inputs, unions", "why_tests_cant": "inputs and definitions are unbounded", "anchors": ["src/libosmo-gtlv/gtlv_gen.c:write_c"]}
{"id": "C64", "title": "Well named definitions are accepted", "statement": "Definitions in which every name means one thing, with headers that declare the leaf types and constants, are accepted by the generator and the generated code compiles.", "quantifier": "all definitions and headers", "why_tests_cant": "definitions are unbounded", "anchors": ["src/libosmo-gtlv/gtlv_gen.c"]}
{"id": "C65", "title": "Conflicting definitions are rejected", "statement": "Definitions in which one name stands for two things (two groups of one name, two groups of one C type with different members, two messages of one name or type, two members of one name) are not accepted.", "quantifier": "all definitions", "why_tests_cant": "definitions are unbounded", "anchors": ["src/libosmo-gtlv/gtlv_gen.c:seen"]}
{"id": "C66", "title": "The PFCP tables are generated as intended", "statement": "The definitions of the PFCP IEs compile with every ABI; the generated table of every message type is the one documented in TS 29.244 as far as implemented (the one used for all PFCP properties), placed in the members of union osmo_pfcp_ies of the same name, without overlap.", "quantifier": "all ABIs / headers, all message types", "why_tests_cant": "a build tests one ABI", "anchors": ["src/libosmo-pfcp/gen__pfcp_ies_auto.c", "include/osmocom/pfcp/pfcp_ies_custom.h"]}
{"id": "C67", "title": "A received PFCP message is stored in the union correctly", "statement": "For every message type and datagram, decoding the IEs into the zeroed union of struct osmo_pfcp_msg ends without assertion failure or access outside of the union, with the outcome of the abstract decoder, and on success members, flags and counts hold exactly the decoded IEs. (A NUL byte must lie somewhere behind the datagram in memory, as in C19 and C26: the decoder of Network Instance and of FQDN Node IDs relies on it.)", "quantifier": "all message types, datagrams, ABIs, byte orders", "why_tests_cant": "datagrams are unbounded", "anchors": ["src/libosmo-pfcp/pfcp_msg.c:osmo_pfcp_msg_decode_tlv", "src/libosmo-pfcp/gen__pfcp_ies_auto.c"]}
{"id": "C68", "title": "A PFCP message in the union is sent and printed correctly", "statement": "Encoding / printing of a union that holds given IEs gives the bytes / text of these IEs; decoding the bytes into another zeroed union gives a union that holds the same IEs. (For the decoding part, as in C67.)", "quantifier": "all message types, IE values, unions, ABIs, byte orders", "why_tests_cant": "values and memories are unbounded", "anchors": ["src/libosmo-pfcp/pfcp_msg.c:osmo_pfcp_msg_encode_tlv", "src/libosmo-pfcp/gen__pfcp_ies_auto.c"]}
{"id": "C69", "title": "Between endpoints, messages arrive as they were sent", "statement": "In a system of endpoints on a network that loses, delays, duplicates and reorders but does not forge datagrams: every message given to a receive callback or a response callback was sent to this node, all fields and IEs equal (sequence number and Node ID as filled in by the sending endpoint), by the node at the address it is reported to come from.", "quantifier": "all numbers of nodes, configurations, histories, schedules of delivery and timers, valid messages, behaviours of callbacks", "why_tests_cant": "histories, schedules and message contents are unbounded", "anchors": ["src/libosmo-pfcp/pfcp_endpoint.c:osmo_pfcp_endpoint_tx", "src/libosmo-pfcp/pfcp_endpoint.c:osmo_pfcp_endpoint_handle_rx", "src/libosmo-pfcp/pfcp_endpoint.c:osmo_pfcp_fd_cb"]}
{"id": "C70", "title": "A system of endpoints never runs into undefined behaviour", "statement": "In such a system every datagram an endpoint puts on the network decodes at its destination to exactly one message, the one encoded; and whatever call, datagram or timer happens next at any node is executed without undefined behaviour or failing assertion, if applications give valid messages to the endpoint and do not close it from callbacks for received messages and timeouts.", "quantifier": "all systems, histories, next events", "why_tests_cant": "histories are unbounded", "anchors": ["src/libosmo-pfcp/pfcp_endpoint.c:osmo_pfcp_endpoint_tx", "src/libosmo-pfcp/pfcp_endpoint.c:osmo_pfcp_fd_cb", "src/libosmo-pfcp/pfcp_msg.c:osmo_pfcp_msg_encode"]}
{"id": "C71", "title": "Requests are processed at most once", "statement": "If a node's receive callback answers every request at once, responses are kept for longer than the peers retransmit plus the network delay, nobody sets sequence number states, and at most 2^24 - 1 sequence numbers are drawn at each node, then the receive callback is given each request (sender, sequence number) at most once, whatever the network duplicates and however often it is retransmitted. A callback that does not answer at once may be given the same request twice.", "quantifier": "all systems, configurations, delays, histories", "why_tests_cant": "the number of copies, their order and timing are unbounded", "anchors": ["src/libosmo-pfcp/pfcp_endpoint.c:osmo_pfcp_endpoint_handle_rx", "src/libosmo-pfcp/pfcp_endpoint.c:osmo_pfcp_endpoint_retrans_queue_add", "src/libosmo-pfcp/pfcp_endpoint.c:pfcp_queue_sent_resp_timer_cb", "src/libosmo-pfcp/pfcp_endpoint.c:pfcp_queue_sent_req_timer_cb"]}
{"id": "C72", "title": "A response answers the request it is reported for", "statement": "If applications respond only to requests they were given, then the response given to a request's response callback was sent by the node the request was addressed to, which had been given this very request (or it is the automatic Heartbeat Response of the endpoint there), with at most 2^24 - 1 sequence numbers drawn by the requester.", "quantifier": "all systems, histories", "why_tests_cant": "histories are unbounded", "anchors": ["src/libosmo-pfcp/pfcp_endpoint.c:osmo_pfcp_endpoint_handle_rx", "src/libosmo-pfcp/pfcp_endpoint.c:osmo_pfcp_queue_find"]}
{"id": "C73", "title": "A request that arrives is given to the application", "statement": "A request that reaches a node whose application answers all requests is given to the application there. (Fails if another node's request had the same sequence number: see the _refuted theorem. Holds otherwise.)", "quantifier": "all systems, histories", "why_tests_cant": "histories are unbounded", "anchors": ["src/libosmo-pfcp/pfcp_endpoint.c:osmo_pfcp_endpoint_handle_rx", "src/libosmo-pfcp/pfcp_endpoint.c:osmo_pfcp_queue_find"]}
{"id": "C74", "title": "A response that arrives in time completes its request", "statement": "A response that arrives while its request has not been released is given to the request's callback -- to the receive callback if it has none -- and the request is released, in every state of the system.", "quantifier": "all systems, histories, messages", "why_tests_cant": "histories are unbounded", "anchors": ["src/libosmo-pfcp/pfcp_endpoint.c:osmo_pfcp_endpoint_handle_rx"]}
{"id": "C75", "title": "An association at the CP function is one at the UP function", "statement": "If a CP peer is associated, then the node bound to the peer's remote address was given the peer's Association Setup Request (with its Node ID, recovery time stamp and the BUNDL feature) and sent a response with Cause 'request accepted', whatever datagrams were lost, duplicated or reordered before, provided applications respond only to requests they were given, no application overwrites the sequence number counter and fewer than 2^24 sequence numbers were drawn.", "quantifier": "all systems, histories, peers, losses, duplications and reorderings", "why_tests_cant": "histories and interleavings are unbounded", "anchors": ["src/libosmo-pfcp/pfcp_cp_peer.c:on_pfcp_assoc_resp", "src/libosmo-pfcp/pfcp_endpoint.c:osmo_pfcp_endpoint_handle_rx"]}
{"id": "C76", "title": "Names in logs identify what they name", "statement": "The name functions for message types, IE types, causes, features, actions, outer headers and interfaces give different values (any 32-bit values, known or not) different names; every enumerator of pfcp_proto.h except the two meaning 'none' has a name of its own, every message type and IE the library can encode or decode has one, other values print as 'unknown 0x..'; causes, interfaces, node id types and apply actions have the numbers of the standard; and the human readable text of a message determines its version, type, sequence number, priority and SEID.", "quantifier": "all values of each enumeration, all headers", "why_tests_cant": "the tables have hundreds of entries, values are 8 to 32 bits wide and headers contain arbitrary numbers", "anchors": ["src/libosmo-pfcp/pfcp_strs.c:osmo_pfcp_message_type_strs", "src/libosmo-pfcp/pfcp_strs.c:osmo_pfcp_iei_strs", "include/osmocom/pfcp/pfcp_strs.h:osmo_pfcp_message_type_str", "src/libosmo-pfcp/pfcp_msg.c:osmo_pfcp_msg_to_str_buf"]}
{"id": "C77", "title": "Error reports are true", "statement": "osmo_gtlvs_decode() and osmo_gtlvs_encode() call the error callback only when they fail; every call then carries the error code that the function returns, and the tags of the calls, from the last to the first, name the chain of IEs that leads to a place in these bytes (or this struct) where decoding (encoding) with this table fails with that code. A missing mandatory IE is reported exactly once, naming the first missing table entry. The callback does not change the result.", "quantifier": "all tables, TLV formats, input bytes, structs, nesting depths, ordered and unordered", "why_tests_cant": "inputs, tables and nesting depths are unbounded; tests look at a few error texts", "anchors": ["src/libosmo-gtlv/gtlv_dec_enc.c:RETURN_ERROR", "src/libosmo-gtlv/gtlv_dec_enc.c:osmo_gtlvs_decode", "src/libosmo-gtlv/gtlv_dec_enc.c:osmo_gtlvs_encode"]}
{"id": "C78", "title": "No failure is silent", "statement": "Every failing call of osmo_gtlvs_decode() / osmo_gtlvs_encode() calls the error callback at least once; in particular every PFCP message whose IEs cannot be decoded or encoded yields a log message.", "quantifier": "all tables, inputs, structs and PFCP message types", "why_tests_cant": "inputs and structs are unbounded; every error path must report", "anchors": ["src/libosmo-gtlv/gtlv_dec_enc.c:osmo_gtlvs_decode", "src/libosmo-gtlv/gtlv_dec_enc.c:osmo_gtlvs_encode", "src/libosmo-pfcp/pfcp_msg.c:osmo_pfcp_msg_err_cb"]}
{"id": "C79", "title": "A received message can be sent on", "statement": "A message that was received and decoded can be encoded again (in the standard buffer of 2048 octets), and whoever receives the result decodes the same message, whatever unknown IEs, extra octets, repeated or reordered IEs the original had. (Fails for names with '.' inside of a label and for some messages of types 50 and 52 of 1985 octets and more, which grow by one octet for each Apply Action: see the _refuted theorems. Holds otherwise.)", "quantifier": "all received messages", "why_tests_cant": "messages are unbounded; every IE, depth and combination matters", "anchors": ["src/libosmo-pfcp/pfcp_msg.c:osmo_pfcp_msg_decode_header", "src/libosmo-pfcp/pfcp_msg.c:osmo_pfcp_msg_decode_tlv", "src/libosmo-pfcp/pfcp_msg.c:osmo_pfcp_msg_encode", "src/libosmo-pfcp/pfcp_ies_custom.c"]}
{"id": "C80", "title": "An accepting answer completes the association", "statement": "While a CP peer waits for the answer to its Association Setup Request, such a request is pending in its endpoint; and when a response to it that says 'Request accepted' arrives -- however late, and however often the request was retransmitted or other messages were lost, duplicated or reordered -- the peer is associated afterwards. (The endpoint is not closed meanwhile, no sequence number state is set, at most 2^24 - 1 sequence numbers are drawn, T1 and N1 are not zero.)", "quantifier": "all histories of several nodes and their network, all peers, all arrival times", "why_tests_cant": "ranges over all interleavings of retransmissions, timeouts, other requests, and application calls at all nodes", "anchors": ["src/libosmo-pfcp/pfcp_cp_peer.c:pfcp_cp_peer_wait_assoc_setup_resp_onenter", "src/libosmo-pfcp/pfcp_cp_peer.c:on_pfcp_assoc_resp", "src/libosmo-pfcp/pfcp_endpoint.c:osmo_pfcp_endpoint_handle_rx"]}
{"id": "C81", "title": "What ordered decoding accepts, exactly", "statement": "Decoding with IEs in table order succeeds if and only if the data is a sequence of whole IEs and these, in this order, fill the members: for each table entry in turn, either no IE with its tag is left, which the entry allows; or the IEs before the first such IE are skipped and this one (of a repeated member: it and the ones with the same tag that directly follow, at most the maximum) decodes and gives the value. The result is then the struct with these values.", "quantifier": "all formats, all tables without repeated tags, all data, all nested structs", "why_tests_cant": "ranges over all byte strings and all tables", "anchors": ["src/libosmo-gtlv/gtlv_dec_enc.c:osmo_gtlvs_decode_ordered", "src/libosmo-gtlv/gtlv_dec_enc.c:osmo_gtlvs_decode", "src/libosmo-gtlv/gtlv.c:osmo_gtlv_load_next_by_tag_inst"]}
{"id": "C82", "title": "Queue status query", "statement": "osmo_pfcp_endpoint_retrans_queue_is_busy() is true exactly if a message given to osmo_pfcp_endpoint_tx() has not yet been freed.", "quantifier": "all event histories and configurations with N1 and T1 not 0", "why_tests_cant": "all histories", "anchors": ["src/libosmo-pfcp/pfcp_endpoint.c:osmo_pfcp_endpoint_retrans_queue_is_busy"]}
{"id": "C83", "title": "One round trip completes a request", "statement": "If any transmission of a request reaches a peer whose application answers requests at once, and to which no other node's request with the same sequence number was given before, the peer sends a datagram back at that moment -- the application's answer, or the same answer again if the request was answered before; and whenever that datagram reaches the requesting endpoint while the request has not been released, whatever happened in between, the request is completed: its callback (or the receive callback) is given exactly the response in this datagram and the request is released once.", "quantifier": "all systems of endpoints, all histories with loss, delay, duplication and reordering, all transmissions of the request", "why_tests_cant": "all interleavings at both ends", "anchors": ["src/libosmo-pfcp/pfcp_endpoint.c:osmo_pfcp_endpoint_handle_rx", "src/libosmo-pfcp/pfcp_endpoint.c:osmo_pfcp_endpoint_tx", "src/libosmo-pfcp/pfcp_endpoint.c:osmo_pfcp_endpoint_retrans_queue_add"]}
{"id": "C84", "title": "What ordered decoding does with any data and any table", "statement": "Any data reads, in exactly one way, as a sequence of whole IEs followed by a proper end or by something that is not a whole IE. Decoding in table order succeeds if and only if these IEs fill the members as follows, and gives the struct with these values: each table entry in turn takes the first remaining IE with its tag, passing over the IEs before it; an entry for a repeated member also takes the IEs with the same tag that follow directly, up to its maximum; if then one more IE with the same tag follows directly, decoding goes on with that IE at the next table entry for that tag, the entries in between staying empty even if they are mandatory; an entry none of whose IEs is left stays empty, which succeeds only if the entry allows it and the end is proper. A repeated member whose last IE is directly followed by a broken IE with the same tag is refused. All IEs behind the last one taken are ignored, and so is a broken end if every entry finds an IE.", "quantifier": "all formats, all byte strings, all tables (several entries may have the same tag; maximum counts at least 1), all nested structs", "why_tests_cant": "ranges over all byte strings and all tables", "anchors": ["src/libosmo-gtlv/gtlv_dec_enc.c:osmo_gtlvs_decode_ordered", "src/libosmo-gtlv/gtlv.c:osmo_gtlv_load_next_by_tag_inst", "src/libosmo-gtlv/gtlv.c:osmo_gtlv_load_peek_tag"]}
{"id": "C85", "title": "What unordered decoding does with tables that repeat a tag", "statement": "Decoding in any order succeeds if and only if the data is a sequence of whole IEs and each table entry in turn, taking of the IEs with its tag that earlier entries have left the first ones up to its maximum, gets as many as it needs, all of these decode, and in the end no IE is left whose tag is in the table. The result is the struct with these values.", "quantifier": "all formats, all byte strings, all tables of up to 4096 entries (several entries may have the same tag; maximum counts at least 1), all nested structs", "why_tests_cant": "ranges over all byte strings and all tables", "anchors": ["src/libosmo-gtlv/gtlv_dec_enc.c:osmo_gtlvs_decode_unordered"]}
{"id": "C86", "title": "Round trip with tables that repeat a tag", "statement": "Encoding a struct and decoding the result gives the same struct also if several members share a tag, provided the struct can be told from its IEs: a member is less than full only if no later member with the same tag is used (in table order also if it is used itself and the next IE on the wire has another tag). Every struct that comes from decoding is of this kind, so decoding, encoding and decoding again gives the same struct.", "quantifier": "all formats, tables, structs, nested structs, both orders", "why_tests_cant": "ranges over all tables and structs", "anchors": ["src/libosmo-gtlv/gtlv_dec_enc.c:osmo_gtlvs_encode", "src/libosmo-gtlv/gtlv_dec_enc.c:osmo_gtlvs_decode"]}
{"id": "C87", "title": "A failing decode returns the code of the first thing that is wrong", "statement": "Decoding with a table in any order fails with error e if and only if e is the code of the first thing that is wrong with the data, reading its IEs from left to right: an IE that is one more than its table entry allows (-ENOTSUP), an IE whose value its decoder refuses (the decoder's code), data that does not end with a whole IE (the code of the header reader, -EBADMSG for PFCP), and, if none of these, a mandatory IE that is missing (-EINVAL). A PFCP IE decoder refuses a value with -EINVAL, or with -ERANGE if a name is empty or longer than 254 octets. For the twelve PFCP message types this holds down to the nested IEs.", "quantifier": "all formats, tables with distinct tags, byte strings; all IE types and values; all message types and bodies", "why_tests_cant": "ranges over all byte strings; a caller maps the code to the Cause it answers with", "anchors": ["src/libosmo-gtlv/gtlv_dec_enc.c:osmo_gtlvs_decode_unordered", "src/libosmo-pfcp/pfcp_ies_custom.c", "src/libosmo-pfcp/pfcp_msg.c:osmo_pfcp_msg_decode_tlv"]}
{"id": "C88", "title": "The header of a received message is read as specified", "statement": "Decoding a header fails if and only if the data is shorter than the header its S flag implies or than the length it announces, or has a priority flag without the S flag; the code is -EMSGSIZE if the header is whole and the announced length is too large, else -EINVAL. Otherwise version, message type, SEID, sequence number and priority are those TS 29.244 7.2.2 assigns to the octets, and the announced length, the offset of the IEs and their length are those of the header.", "quantifier": "all byte strings", "why_tests_cant": "ranges over all byte strings", "anchors": ["src/libosmo-pfcp/pfcp_msg.c:osmo_pfcp_msg_decode_header"]}
{"id": "C89", "title": "Every accepted IE value and message body means what TS 29.244 8.2 says", "statement": "An IE value is decoded to x if and only if it is well formed and x has the fields that the octets of the value have at the places TS 29.244 8.2 gives them; a message body is decoded to a struct if and only if it is a sequence of IEs that has every IE as often as it must and may occur, and each member of the struct holds, in the order of the message, the values of its IEs, down to nested IEs.", "quantifier": "all IE types and values, all message types and bodies", "why_tests_cant": "ranges over all byte strings", "anchors": ["src/libosmo-pfcp/pfcp_ies_custom.c", "src/libosmo-pfcp/pfcp_msg.c:osmo_pfcp_msg_decode_tlv"]}
{"id": "C90", "title": "What becomes of a received datagram", "statement": "For a datagram of complete messages, possibly followed by data that is no complete message: each message of a supported type is delivered with exactly the header and contents its octets mean if its body is well formed, and is dropped with the code of the first thing that is wrong otherwise; a message of another type is dropped; what follows is reported as a bad header. No more and no less, in this order.", "quantifier": "all datagrams of less than the receive buffer's size that consist of complete messages and possibly a bad header", "why_tests_cant": "ranges over all byte strings", "anchors": ["src/libosmo-pfcp/pfcp_endpoint.c:osmo_pfcp_fd_cb", "src/libosmo-pfcp/pfcp_msg.c:osmo_pfcp_msg_decode_header", "src/libosmo-pfcp/pfcp_msg.c:osmo_pfcp_msg_decode_tlv"]}
{"id": "C91", "title": "Encoding writes exactly the octets that the struct describes", "statement": "Whatever the application stored in the struct of a message (with unions holding the kind of value their type says): if there is room, encoding either appends exactly the octets TS 29.244 lays down for these values, each IE in table order, each repeated IE as often as its count says, with numbers cut to the size of their field; or it fails with the code of the first value that cannot be written or of the first count that is too large. Nothing else can happen.", "quantifier": "all supported message types, all contents of their structs, all buffers with room for the result", "why_tests_cant": "ranges over all values the application can store, including ones outside the range of their field", "anchors": ["src/libosmo-gtlv/gtlv_dec_enc.c:osmo_gtlvs_encode", "src/libosmo-pfcp/pfcp_ies_custom.c:osmo_pfcp_enc_*", "src/libosmo-pfcp/pfcp_msg.c:osmo_pfcp_msg_encode_tlv"]}
{"id": "C92", "title": "What osmo_pfcp_msg_encode() appends, or why it fails", "statement": "For any header and any contents, with room in the msgb: osmo_pfcp_msg_encode() leaves what the msgb held before as it was, but for setting the 'follow on' flag of the last message, and appends exactly the header (with the length field counting all octets after the first four, and flags as given) and the octets of the contents; or it fails, with -EINVAL for a priority without SEID, -ENOTSUP for a message type without a table, otherwise with the code of the first IE that is refused, or -EMSGSIZE if the length field cannot hold the length.", "quantifier": "all msgbs with room, headers and contents", "why_tests_cant": "ranges over all headers, contents and buffers", "anchors": ["src/libosmo-pfcp/pfcp_msg.c:osmo_pfcp_msg_encode", "src/libosmo-pfcp/pfcp_msg.c:enc_pfcp_header"]}
{"id": "C93", "title": "What is sent means what the application passed", "statement": "If header and contents are valid (each mandatory IE there, each count within its limits, each value within the range of its field and of the address family its flags say) and the message is no longer than its length field can say, then encoding succeeds and the octets, read by the receiver as TS 29.244 says, mean exactly this header and these contents. Contents that are not valid may be encoded without error and mean something else, or be dropped by any receiver: encoding does not check mandatory IEs or address families of a Node ID.", "quantifier": "all supported message types, all valid headers and contents, all msgbs with room", "why_tests_cant": "ranges over all contents", "anchors": ["src/libosmo-pfcp/pfcp_msg.c:osmo_pfcp_msg_encode", "src/libosmo-gtlv/gtlv_dec_enc.c:osmo_gtlvs_encode", "src/libosmo-pfcp/pfcp_ies_custom.c:osmo_pfcp_enc_node_id"]}
{"id": "C94", "title": "Timers may be changed while the endpoint runs", "statement": "The operator may change N1, T1 and the response keep time at any moment (VTY). Whatever they are changed to: a request given to the endpoint is sent at most 1 + N1 times with the N1 in force then; each transmission starts a timer of the T1 in force at that transmission; failure is reported after exactly these transmissions and timeouts, once; without close it is pending or resolved with exactly one callback, and resolved within (N1 + 1) times the largest T1; a response is kept for the keep time in force when it was given to the endpoint, and repeated requests are answered from it; responses complete exactly the pending request with their sequence number; sequence numbers stay distinct; nothing is released twice, and no undefined behaviour comes from the change (under the conditions of C41).", "quantifier": "all histories, with any timer values in force at each event; all callback behaviours", "why_tests_cant": "ranges over all histories and all moments of change", "anchors": ["src/libosmo-pfcp/pfcp_endpoint.c:ep_n1", "src/libosmo-pfcp/pfcp_endpoint.c:ep_t1", "src/libosmo-pfcp/pfcp_endpoint.c:ep_keep_resp", "src/libosmo-pfcp/pfcp_endpoint.c:osmo_pfcp_tdefs", "src/libosmo-pfcp/pfcp_endpoint.c:osmo_pfcp_endpoint_retrans_queue_add"]}
{"id": "C95", "title": "Everything an endpoint sends was asked for, and means it", "statement": "Every datagram an endpoint ever sends is (a) a message the application gave to osmo_pfcp_endpoint_tx() for that address, possibly from a callback, possibly repeated: if the message, with the endpoint's Node ID in place of its own, is valid, the octets read as TS 29.244 says mean exactly that message, with the response's sequence number or the number drawn for the request; or (b) a message given to osmo_pfcp_endpoint_tx_data(); or (c) a Heartbeat Request the application asked for; or (d) a Heartbeat Response to a Heartbeat Request received from that address, with its sequence number. Heartbeats carry the endpoint's creation time. Nothing else is sent.", "quantifier": "all histories of API calls, datagrams, timer expiries and callbacks; all contents", "why_tests_cant": "ranges over all histories and contents", "anchors": ["src/libosmo-pfcp/pfcp_endpoint.c:osmo_pfcp_endpoint_tx", "src/libosmo-pfcp/pfcp_endpoint.c:osmo_pfcp_endpoint_tx_data", "src/libosmo-pfcp/pfcp_endpoint.c:osmo_pfcp_endpoint_handle_rx", "src/libosmo-pfcp/pfcp_msg.c:osmo_pfcp_msg_encode"]}
{"id": "C96", "title": "Everything the application gets was received, and is what it means", "statement": "Every message given to the receive callback or to a response callback is a complete message within a datagram that arrived (for the receive callback: from the address reported), and its header and contents are exactly what its octets, read as TS 29.244 says, mean.", "quantifier": "all histories, with any octets in any datagram", "why_tests_cant": "ranges over all datagrams and histories", "anchors": ["src/libosmo-pfcp/pfcp_endpoint.c:osmo_pfcp_fd_cb", "src/libosmo-pfcp/pfcp_endpoint.c:osmo_pfcp_endpoint_handle_rx", "src/libosmo-pfcp/pfcp_msg.c:osmo_pfcp_msg_decode_header"]}
{"id": "C97", "title": "Sequence numbers are consecutive", "statement": "The sequence numbers an endpoint uses for its requests (those given to osmo_pfcp_endpoint_tx() and its own Heartbeat Requests), in the order in which they are used, are exactly 1, 2, 3, ... from its creation on, and n+1, n+2, ... after osmo_pfcp_endpoint_set_seq_nr_state(n), going on with 1 after 2^24-1; no number is skipped or repeated before that.", "quantifier": "all event histories, configurations and initial states n < 2^32", "why_tests_cant": "the wrap-around comes after 2^24-1 requests; all interleavings of requests, callbacks, receptions and timers", "anchors": ["src/libosmo-pfcp/pfcp_endpoint.c:osmo_pfcp_endpoint_set_seq_nr_state", "src/libosmo-pfcp/pfcp_endpoint.c:osmo_pfcp_endpoint_tx", "src/libosmo-pfcp/pfcp_msg.c:osmo_pfcp_next_seq_nr"]}
{"id": "C98", "title": "Encoding into a message buffer of any size", "statement": "osmo_pfcp_msg_encode() into a msgb of any size never writes behind its end; it aborts the process (msgb_put() without room) only if the message does not fit; and when it returns success, the complete message is in the msgb.", "quantifier": "all msgb sizes and fill levels, headers, message types and struct contents", "why_tests_cant": "depends on every combination of sizes and room, down to single octets", "anchors": ["src/libosmo-pfcp/pfcp_msg.c:osmo_pfcp_msg_encode", "src/libosmo-gtlv/gtlv_dec_enc.c:osmo_gtlvs_encode", "src/libosmo-gtlv/gtlv.c:osmo_gtlv_put_tli"]}
{"id": "C99", "title": "The error code of decoding with any table", "statement": "When decoding fails, in table order or in any order, with a table in which entries may share a tag and on data of any kind, the error code is that of the first thing that is wrong. In table order, entry by entry: the code of broken data that the search for an absent IE runs into; -ENOENT for an absent IE that the entry requires; the code with which one of the IEs of this entry (as many as it can hold) is refused; the code of a broken IE with the same tag that follows directly; -ENOTSUP if more follow than fit and no later entry has the tag. In any order, IE by IE: -ENOTSUP if all entries with its tag are full, else the code with which the first entry with room refuses it; then the code of a broken end; then -EINVAL for missing IEs.", "quantifier": "all tables (any tags, nesting, repetition), formats, data, and memory behind the data", "why_tests_cant": "all data and tables; which of several errors is reported depends on order, repetition and position", "anchors": ["src/libosmo-gtlv/gtlv_dec_enc.c:osmo_gtlvs_decode_ordered", "src/libosmo-gtlv/gtlv_dec_enc.c:osmo_gtlvs_decode_unordered"]}
{"id": "C100", "title": "Freeing the endpoint, also from within callbacks", "statement": "osmo_pfcp_endpoint_free() may be called from the main loop at any time, from rx_msg_cb for a message that answers no pending request and after which no further message of the datagram is dispatched, and from a response callback that osmo_pfcp_endpoint_tx() itself invokes (if sending failed: only if the message is not a talloc child of the endpoint). Everything observable up to then is as if the endpoint had been closed; each message given to osmo_pfcp_endpoint_tx() has been released exactly once (N1 and T1 not zero); afterwards nothing is sent and no callback is invoked, and freeing again does nothing. Called from set_msg_ctx_cb, or from a response callback invoked because the response arrived or the request timed out, the library uses freed memory.", "quantifier": "all histories of calls, datagrams and timers, with callbacks that make any sequence of calls, nested to any depth, including free", "why_tests_cant": "every place in every history where a callback may free the endpoint", "anchors": ["src/libosmo-pfcp/pfcp_endpoint.c:osmo_pfcp_endpoint_free", "src/libosmo-pfcp/pfcp_endpoint.c:osmo_pfcp_endpoint_handle_rx", "src/libosmo-pfcp/pfcp_endpoint.c:pfcp_queue_sent_req_timer_cb", "src/libosmo-pfcp/pfcp_endpoint.c:osmo_pfcp_fd_cb"]}
{"id": "C101", "title": "Message contexts: no use after free, exact use counts", "statement": "A message's context may refer to FSM instances of the application (a peer, a session) and to their use counts. The library accesses no deallocated object and lets no use count go negative if (a) no unreleased message refers to an object when it is deallocated; in particular if (b) every context is set with a use count and objects are deallocated when their use counts are zero, or (c) osmo_pfcp_endpoint_invalidate_ctx() is called just before, and osmo_pfcp_msg_invalidate_ctx() for the messages that refer to the object and are in no queue of the endpoint. An object's use count equals the number of contexts that hold it, while none that refers to it is invalidated. osmo_pfcp_endpoint_invalidate_ctx() removes exactly the references to the object from exactly the queued messages, and does not release use counts, which hence never reach zero again. The endpoint function alone is not enough: a request that cannot be sent, or a received response, still refers to an object its response callback deallocates.", "quantifier": "all histories of allocating, sending, receiving and releasing messages, setting and invalidating contexts, and deallocating objects, also from within callbacks; all objects and tokens", "why_tests_cant": "all interleavings of object deallocation with retransmission, timeout, failure and reception", "anchors": ["src/libosmo-pfcp/pfcp_msg.c:osmo_pfcp_msg_invalidate_ctx", "src/libosmo-pfcp/pfcp_msg.c:osmo_pfcp_msg_destructor", "src/libosmo-pfcp/pfcp_endpoint.c:osmo_pfcp_endpoint_invalidate_ctx", "src/libosmo-pfcp/pfcp_cp_peer.c:osmo_pfcp_cp_peer_set_msg_ctx", "include/osmocom/pfcp/pfcp_msg.h:OSMO_LOG_PFCP_MSG"]}
{"id": "C102", "title": "The text of the generated C files", "statement": "Run with \"h\" and with \"c\", a program that uses gtlv_gen prints a header and a C file that compile, if the definitions give every name one meaning and their names can be printed (identifiers; strings in comments do not end them), and no IE's function name is that of another with the prefix \"to_str_\" (this last condition is needed, contrary to what one may expect). In the compiled text, <proto>_get_msg_coding() returns for every message type that is defined the table the definitions mean, whose offsets are those of the members of the generated struct that are named after the IEs, and NULL for all other message types. <proto>_ies_decode(), _ies_encode() and _ies_encode_to_str() call osmo_gtlvs_decode(), osmo_gtlvs_encode() and osmo_gtlvs_encode_to_str_buf() with the caller's arguments in their places, the size of the generated union and that table. For the PFCP definitions this is the table of each PFCP message type. With any other command line, nothing is printed and the exit status is 1.", "quantifier": "all definitions and configurations of the generator, all message types, all types and constants of the user's headers, all command lines", "why_tests_cant": "tests compile the output for two sets of definitions; this is about the text printed for any definitions", "anchors": ["src/libosmo-gtlv/gtlv_gen.c:osmo_gtlv_gen_main", "src/libosmo-gtlv/gtlv_gen.c:write_h", "src/libosmo-gtlv/gtlv_gen.c:write_c", "src/libosmo-gtlv/gtlv_gen.c:write_ies_array", "src/libosmo-gtlv/gtlv_gen.c:write_extern_dec_enc", "include/osmocom/gtlv/gtlv_gen.h:osmo_gtlv_gen_cfg", "src/libosmo-pfcp/gen__pfcp_ies_auto.c:main"]}
{"id": "C103", "title": "Calls of the functions in the generated text", "statement": "Calling the functions in the text that gtlv_gen prints: <proto>_ies_decode() into a zeroed union, _ies_encode() and _ies_encode_to_str() of a union have the outcome, bytes and text that the definitions mean (as in C63); they write nothing outside of the union, and after a successful decode the members named after the IEs, their presence flags and counts hold the decoded IEs. For the files printed for PFCP this gives C67 and C68.", "quantifier": "all definitions and configurations, message types, inputs, unions; for PFCP all message types, datagrams, IE values, ABIs, byte orders", "why_tests_cant": "definitions, inputs and memories are unbounded", "anchors": ["src/libosmo-gtlv/gtlv_gen.c:write_c", "src/libosmo-gtlv/gtlv_gen.c:osmo_gtlv_gen_main", "src/libosmo-pfcp/gen__pfcp_ies_auto.c:main", "src/libosmo-gtlv/gtlv_dec_enc.c:osmo_gtlvs_decode"]}
{"id": "C104", "title": "IE decoders store to their structs", "statement": "Each IE decoder of pfcp_ies_custom.c (osmo_pfcp_dec_*()), given a zeroed struct of its type, stores to the members of the struct what the IE means and returns 0, or returns the error of that IE; it reads only octets of the IE (and the NUL behind it, for Activate Predefined Rules) and writes only into its struct, whatever the struct contained before; the return code does not depend on the old contents. This is so on every ABI: any alignment, padding, size of enums, byte order. Therefore decoding a whole message into union osmo_pfcp_ies with these decoders has the result of C67/C68.", "quantifier": "all ABIs that give the fixed-width types their width and have enums large enough, both byte orders, all kinds of IEs, all octet strings, all old contents of the struct; for messages all message types and bodies", "why_tests_cant": "tests run on one ABI and few IEs; that stores through member offsets do not overlap or leave the struct is about all layouts and inputs", "anchors": ["src/libosmo-pfcp/pfcp_ies_custom.c:osmo_pfcp_dec_f_teid", "src/libosmo-pfcp/pfcp_ies_custom.c:osmo_pfcp_dec_outer_header_creation", "src/libosmo-pfcp/pfcp_ies_custom.c:osmo_pfcp_dec_node_id", "src/libosmo-pfcp/pfcp_ies_custom.c:osmo_pfcp_dec_ue_ip_address", "include/osmocom/pfcp/pfcp_ies_custom.h"]}
{"id": "C105", "title": "IE decoders on a struct used before", "statement": "Decoding an IE into a struct that was used before gives the same value as decoding into a zeroed struct, for all members that are flagged as present. (False of the code for Outer Header Removal of one octet, where the extension header flag and bits keep their old values.)", "quantifier": "all ABIs, all kinds of IEs, all octet strings, all old contents of the struct", "why_tests_cant": "old contents and inputs are unbounded", "anchors": ["src/libosmo-pfcp/pfcp_ies_custom.c:osmo_pfcp_dec_outer_header_removal", "src/libosmo-pfcp/pfcp_ies_custom.c:osmo_pfcp_dec_f_seid", "src/libosmo-pfcp/pfcp_ies_custom.c:osmo_pfcp_dec_ue_ip_address"]}
{"id": "C106", "title": "IE encoders load from their structs", "statement": "Each IE encoder of pfcp_ies_custom.c (osmo_pfcp_enc_*()), given a struct of its type with any contents in which the string member in use has its terminating NUL, puts into the msgb exactly the octets of the IE that the members of the struct stand for and returns 0, or returns -EINVAL if there is no such IE, or aborts in msgb_put() if the octets do not fit; it loads only members of its struct. This is so on every ABI. In particular, encoding a struct that a decoder filled, zeroed before or not, writes the IE that was decoded. (Without the NUL the encoders of Node ID, Network Instance and Activate Predefined Rules read behind the member's array.)", "quantifier": "all ABIs that give the fixed-width types their width and have enums large enough, both byte orders, all kinds of IEs, all contents of the struct, all amounts of room in the msgb", "why_tests_cant": "tests run on one ABI with few values; contents of the struct and room are unbounded", "anchors": ["src/libosmo-pfcp/pfcp_ies_custom.c:osmo_pfcp_enc_node_id", "src/libosmo-pfcp/pfcp_ies_custom.c:osmo_pfcp_enc_network_inst", "src/libosmo-pfcp/pfcp_ies_custom.c:osmo_pfcp_enc_activate_predefined_rules", "src/libosmo-pfcp/pfcp_ies_custom.c:osmo_pfcp_enc_outer_header_creation", "include/osmocom/pfcp/pfcp_ies_custom.h"]}
{"id": "C107", "title": "Printing an IE struct", "statement": "Each printing function of pfcp_ies_custom.c (osmo_pfcp_enc_to_str_*()), given a struct of its type with any contents at all (strings without NUL included), loads only members of the struct and writes to the buffer, as snprintf() would, the text of the IE that the members stand for; after decoding an IE into a zeroed struct, that is the text of the IE that was received. This is so on every ABI.", "quantifier": "all ABIs, both byte orders, all kinds of IEs, all contents of the struct, all buffers and sizes including NULL and 0", "why_tests_cant": "tests print few structs into buffers that are large enough", "anchors": ["src/libosmo-pfcp/pfcp_ies_custom.c:osmo_pfcp_enc_to_str_node_id", "src/libosmo-pfcp/pfcp_ies_custom.c:osmo_pfcp_enc_to_str_ue_ip_address", "src/libosmo-pfcp/pfcp_ies_custom.c:osmo_pfcp_enc_to_str_outer_header_creation"]}
{"id": "C108", "title": "Messages in memory, octets to octets", "statement": "With the IE functions of pfcp_ies_custom.c as they are (decoders storing to, encoders and printing functions loading from the members of the C structs), for every received message body that can be decoded: osmo_pfcp_ies_decode() into a zeroed union fills it so that osmo_pfcp_ies_encode() of that union puts exactly the octets (or fails exactly as) encoding the decoded IEs does, and osmo_pfcp_ies_encode_to_str() prints their text; no access outside of datagram, union and buffers happens. A union that holds a valid message, however it was filled, is encoded to the octets of that message, and these decode into another zeroed union to the same message. This is so on every ABI.", "quantifier": "all ABIs as in C104, both byte orders, all message types, all message bodies, all rooms in the msgb, all print buffers; for the last sentence all valid messages and all unions that hold them", "why_tests_cant": "tests encode and decode a few messages on one ABI", "anchors": ["src/libosmo-pfcp/pfcp_ies_custom.c", "src/libosmo-gtlv/gtlv_dec_enc.c:osmo_gtlvs_encode", "src/libosmo-gtlv/gtlv_dec_enc.c:osmo_gtlvs_decode", "src/libosmo-pfcp/gen__pfcp_ies_auto.c", "include/osmocom/pfcp/pfcp_ies_custom.h"]}
{"id": "C109", "title": "Helper functions on struct memory", "statement": "On every ABI the helper functions work on the members of the C structs as they do on values: osmo_pfcp_ip_addrs_set() sets the address (port 0) and its presence flag, keeps the other address and changes nothing outside of its struct, also when the given address lies in the memory that is changed, even if it is one of the two addresses of that struct; osmo_pfcp_ip_addrs_get() and osmo_pfcp_ie_f_seid_cmp() read the members only; osmo_pfcp_ie_f_seid_set() with an address in other memory stores SEID and address whatever the F-SEID contained before, while with an address of the same F-SEID the address is lost; osmo_pfcp_ie_node_id_from_osmo_sockaddr() and ..._to_osmo_sockaddr() store the address they are given, or fail and leave their target as it was; osmo_pfcp_bits_set() changes the named bit of an array and no other bit or byte of memory, osmo_pfcp_bits_get() reads it; a position behind the array is not checked.", "quantifier": "all ABIs as in C104, both byte orders, all struct contents, all addresses and pointers (elsewhere, into the memory outside of the struct, to one of its addresses), all array sizes, bit positions and values", "why_tests_cant": "tests call the helpers with distinct objects on one ABI; aliasing, frame conditions and other layouts are not covered by any finite set of calls", "anchors": ["src/libosmo-pfcp/pfcp_msg.c:osmo_pfcp_ip_addrs_set", "src/libosmo-pfcp/pfcp_msg.c:osmo_pfcp_ip_addrs_get", "src/libosmo-pfcp/pfcp_msg.c:osmo_pfcp_ie_node_id_from_osmo_sockaddr", "src/libosmo-pfcp/pfcp_msg.c:osmo_pfcp_ie_node_id_to_osmo_sockaddr", "src/libosmo-pfcp/pfcp_ies_custom.c:osmo_pfcp_ie_f_seid_set", "src/libosmo-pfcp/pfcp_ies_custom.c:osmo_pfcp_ie_f_seid_cmp", "src/libosmo-pfcp/pfcp_ies_custom.c:osmo_pfcp_bits_get", "src/libosmo-pfcp/pfcp_ies_custom.c:osmo_pfcp_bits_set"]}
{"id": "C110", "title": "PFCP header in memory", "statement": "On hosts of either byte order osmo_pfcp_msg_encode() leaves the same octets in the msgb, whatever bytes were in its memory before: those of the 3GPP header (C21) and of the IEs, except that the spare bits of the header's last octet keep the value the memory had; bytes before the message are changed only in the follow-on flag of the previous message, bytes behind the new tail not at all, and success, error or abort do not depend on the contents of the memory. In memory that is zero behind the tail, as msgb_alloc() returns it, the spare bits are zero and stay so for messages appended later. osmo_pfcp_msg_decode_header() reads the same header on hosts of either byte order, for all octets and lengths, so what one host encodes, in any memory, another reads as the same header, and, for valid contents, decodes to the same IEs. In a msgb that is reused after msgb_reset() a spare octet has a byte of the earlier message.", "quantifier": "both byte orders, all contents and sizes of the msgb's memory, all earlier messages in it, all headers and IEs, all received octets and lengths", "why_tests_cant": "tests run on the byte order of one host and with freshly allocated, zeroed buffers; the bit field declarations of the other byte order are never compiled", "anchors": ["src/libosmo-pfcp/pfcp_msg.c:osmo_pfcp_header_common", "src/libosmo-pfcp/pfcp_msg.c:osmo_pfcp_header_no_seid", "src/libosmo-pfcp/pfcp_msg.c:osmo_pfcp_header_seid", "src/libosmo-pfcp/pfcp_msg.c:pfcp_header_set_message_length", "src/libosmo-pfcp/pfcp_msg.c:enc_pfcp_header", "src/libosmo-pfcp/pfcp_msg.c:osmo_pfcp_msg_encode", "src/libosmo-pfcp/pfcp_msg.c:osmo_pfcp_msg_decode_header"]}
{"id": "C111", "title": "Messages from the memory of one host to that of another", "statement": "For every message type with a table, every valid header and every valid contents held by the union osmo_pfcp_ies of a message struct: if the message fits, osmo_pfcp_msg_encode() appends it to the msgb, whatever bytes and whatever earlier messages the msgb's memory had, and a host with another struct layout and byte order that receives these octets decodes them, with osmo_pfcp_msg_decode_header() and osmo_pfcp_msg_decode_tlv(), to the same header and to a union that holds the same message. For any union with ended strings, valid contents or not, osmo_pfcp_msg_encode() succeeds, fails or aborts as it does on the abstract message. For every received datagram of complete messages, with or without a bad header at its end, the receive loop gives the user, in memory, the messages the datagram contains, in order, and drops the same ones.", "quantifier": "all pairs of ABIs (struct layouts as in C104, compiled headers as in C66) and byte orders, all message types with a table, all valid headers and contents, all msgb memory, all datagrams of complete messages", "why_tests_cant": "tests encode and decode on one ABI and byte order, into fresh buffers, for a handful of messages; two hosts that differ cannot be run in one test", "anchors": ["src/libosmo-pfcp/pfcp_msg.c:osmo_pfcp_msg_encode", "src/libosmo-pfcp/pfcp_msg.c:osmo_pfcp_msg_encode_tlv", "src/libosmo-pfcp/pfcp_msg.c:osmo_pfcp_msg_decode_header", "src/libosmo-pfcp/pfcp_msg.c:osmo_pfcp_msg_decode_tlv", "src/libosmo-pfcp/pfcp_endpoint.c:osmo_pfcp_fd_cb", "src/libosmo-pfcp/pfcp_ies_custom.c"]}
{"id": "C112", "title": "File descriptors: each has one holder", "statement": "With any number of endpoints in a process that also opens and closes files of its own, whatever the order of create, bind, close, free, sending and receiving: every descriptor is closed by the endpoint or application part that opened it, once, and before its endpoint is gone; an endpoint has at most one socket, sends and receives through that one only, and without one does not send; the select loop waits for exactly the endpoints' sockets and never calls back a freed endpoint or one without rx_msg_cb; osmo_pfcp_endpoint_close() leaves the descriptors of all others alone; osmo_pfcp_endpoint_bind() returns 0 iff there is a rx_msg_cb and a socket was opened, and otherwise leaves the endpoint without one (EINVAL without rx_msg_cb). (Fails when a socket is opened but cannot be registered with the select loop: the endpoint keeps the number of the closed descriptor, and sends PFCP to whatever file gets that number next. Fails when an endpoint with a socket is released with its talloc context: the socket leaks and the select loop calls back into freed memory. See the _refuted theorems. Holds otherwise.)", "quantifier": "all histories of any number of endpoints and of the application's own descriptors, all choices of descriptor numbers and all failures by the kernel", "why_tests_cant": "histories are unbounded, and a wrong close() shows only when the number was given to somebody else in between", "anchors": ["src/libosmo-pfcp/pfcp_endpoint.c:osmo_pfcp_endpoint_create", "src/libosmo-pfcp/pfcp_endpoint.c:osmo_pfcp_endpoint_bind", "src/libosmo-pfcp/pfcp_endpoint.c:osmo_pfcp_endpoint_close", "src/libosmo-pfcp/pfcp_endpoint.c:osmo_pfcp_endpoint_free", "src/libosmo-pfcp/pfcp_endpoint.c:osmo_pfcp_fd_cb", "src/libosmo-pfcp/pfcp_endpoint.c:osmo_pfcp_endpoint_tx_data_no_logging"]}
