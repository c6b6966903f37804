{"id": "C01", "title": "Name proofs are sound", "statement": "If hsk_proof_verify accepts a proof for a key against a root, and that root is the root hash of an Urkel radix tree, then the reported answer is the tree's answer: 'exists' with exactly the resource stored under that key, or 'does not exist' when no leaf has that key - unless two different strings that were actually hashed collide or one of them hashes to all zeroes.", "quantifier": "every hash function, every well-formed tree, every 256-bit key, every proof (any type, depth, number of nodes, prefixes)", "why_tests_cant": "An attacker chooses the proof; the claim is about every byte string they could send against every tree.", "anchors": ["src/proof-radix.c:hsk_proof_verify", "src/proof-radix.c:hsk_proof_hash_internal", "src/proof-radix.c:hsk_proof_hash_leaf", "src/proof-radix.c:hsk_proof_has"]}
{"id": "C02", "title": "Honest name proofs are accepted", "statement": "For every tree and every key, the proof an honest full node derives by walking the tree is accepted by hsk_proof_verify against the tree's root and yields the tree's answer for that key.", "quantifier": "every well-formed tree, every key, present or absent, every hash function", "why_tests_cant": "Completeness ranges over all tree shapes (prefix lengths, depth up to 256, all three kinds of absence).", "anchors": ["src/proof-radix.c:hsk_proof_verify", "src/proof-radix.c:hsk_proof_read"]}
{"id": "C03", "title": "Two accepted proofs cannot disagree", "statement": "Two proofs accepted for the same root and the same key report the same existence bit and the same data, unless verification of the two hashed two different strings to the same digest (or a string to zero).", "quantifier": "every root, key and pair of proofs, with no reference to any tree", "why_tests_cant": "Equivocation by an adversary is a statement over all pairs of inputs.", "anchors": ["src/proof-radix.c:hsk_proof_verify"]}
{"id": "C04", "title": "Proof decoding is total, bounded and lossless", "statement": "hsk_proof_read is defined on every input (no out-of-bounds read, no assertion failure) and consumes a prefix of it; what it accepts respects the protocol limits (depth, node count and prefix sizes at most 256, value at most 668 bytes); the wire form of every proof within the limits decodes to exactly that proof and consumes exactly its bytes; verifying a decoded proof never trips an assertion and returns one of the documented codes.", "quantifier": "every byte string", "why_tests_cant": "All byte strings, including truncated and hostile ones.", "anchors": ["src/proof-radix.c:hsk_proof_read", "src/proof-radix.c:hsk_proof_verify"]}
{"id": "C05", "title": "Block header serialisation is lossless", "statement": "hsk_header_decode(hsk_header_encode(h)) gives back every consensus field of h, the encoding is always 236 bytes, and every 236-byte string decodes to a header that re-encodes to the same bytes; shorter input is rejected.", "quantifier": "every header and every byte string", "why_tests_cant": "Fields of 32/64 bit width cannot be enumerated.", "anchors": ["src/header.c:hsk_header_read", "src/header.c:hsk_header_write"]}
{"id": "C06", "title": "The header hash preimage commits to every field", "statement": "Two headers with the same share hash (the proof-of-work hash before masking) have the same consensus fields, unless one of the hash functions collides on strings that were actually hashed.", "quantifier": "every pair of headers, every choice of the hash functions", "why_tests_cant": "Injectivity over all pairs.", "anchors": ["src/header.c:hsk_header_hash", "src/header.c:hsk_header_sub_encode", "src/header.c:hsk_header_pre_encode"]}
{"id": "C07", "title": "Compact difficulty conversion is exact", "statement": "hsk_pow_to_target yields mantissa*256^(exponent-3) for every non-negative non-zero compact value whose result fits 256 bits; hsk_pow_to_bits returns the canonical compact form whose target is the greatest representable value not above its input; decoding then encoding a canonical compact value is the identity.", "quantifier": "every 32-bit compact value and every 256-bit target", "why_tests_cant": "2^32 compact values and 2^256 targets; boundary at sign bit and size changes.", "anchors": ["src/header.c:hsk_pow_to_target", "src/header.c:hsk_pow_to_bits"]}
{"id": "C08", "title": "Multi-precision arithmetic is correct", "statement": "hsk_bn add, sub, mul, div, cmp, lshift, increment and array conversion agree with integer arithmetic modulo 2^512; division returns the floor quotient for every non-zero divisor.", "quantifier": "all 512-bit operands", "why_tests_cant": "Carry and borrow chains over 16 limbs cannot be enumerated.", "anchors": ["src/bn.c:hsk_bn_add", "src/bn.c:hsk_bn_sub", "src/bn.c:hsk_bn_mul", "src/bn.c:hsk_bn_div", "src/bn.c:hsk_bn_cmp"]}
{"id": "C09", "title": "Accumulated work is the sum of expected hashes", "statement": "hsk_header_calc_work adds floor(2^256/(target+1)) to the previous work; along any chain the stored work of a header is the genesis work plus the sum over its ancestors, strictly increasing as long as it stays below 2^256.", "quantifier": "every header, every previous work, every chain", "why_tests_cant": "Sum over unbounded chains with 256-bit truncation.", "anchors": ["src/header.c:hsk_header_get_proof", "src/header.c:hsk_header_calc_work"]}
{"id": "C10", "title": "Proof of work is checked exactly", "statement": "hsk_header_verify_pow accepts a header if and only if its compact bits decode and the header hash, read as a big-endian integer, is at most the decoded target.", "quantifier": "every header, every hash function", "why_tests_cant": "Boundary equality over 256-bit values.", "anchors": ["src/header.c:hsk_header_verify_pow"]}
{"id": "C11", "title": "The tip always has the most work", "statement": "After any sequence of hsk_chain_add calls no connected header has more work than the tip, and among equals the first seen stays tip; the tip's work never decreases.", "quantifier": "every sequence of headers in any order (forks, reorganisations, orphans, duplicates), every clock", "why_tests_cant": "Histories are unbounded and adversarial.", "anchors": ["src/chain.c:hsk_chain_add", "src/chain.c:hsk_chain_insert", "src/chain.c:hsk_chain_save", "src/chain.c:hsk_chain_reorganize"]}
{"id": "C12", "title": "The height index is the tip's ancestor path", "statement": "After any history, hsk_chain_get_by_height(h) is, for every h from the initial height to the tip, the tip's ancestor of that height, and nothing is stored above the tip: after a reorganisation no entry of the losing branch remains.", "quantifier": "every history of hsk_chain_add calls, every height", "why_tests_cant": "Depends on the interplay of reorganisations of any depth.", "anchors": ["src/chain.c:hsk_chain_reorganize", "src/chain.c:hsk_chain_get_by_height", "src/chain.c:hsk_chain_get_ancestor"]}
{"id": "C13", "title": "Every connected header obeys the consensus rules", "statement": "Each header reachable through hsk_chain_get beyond the initial ones has its parent also connected, height one more than its parent, time strictly above the median of the up to 11 preceding headers, bits equal to the retarget rule for its parent, valid proof of work and work = parent's work plus its own.", "quantifier": "every history", "why_tests_cant": "Invariant over unbounded histories.", "anchors": ["src/chain.c:hsk_chain_insert", "src/chain.c:hsk_chain_get_mtp", "src/chain.c:hsk_chain_get_target"]}
{"id": "C14", "title": "Rejected headers change nothing", "statement": "When hsk_chain_add returns an error other than 'orphan', the tip, height index and set of connected headers and orphans are exactly what they were; when it returns 'orphan' only the orphan set changed.", "quantifier": "every chain state reachable from start and every header", "why_tests_cant": "All states times all inputs.", "anchors": ["src/chain.c:hsk_chain_add"]}
{"id": "C15", "title": "Orphans are bounded and connected when their parent arrives", "statement": "The orphan pool never exceeds its limit by more than one; when a header connects, every stored orphan descending from it is connected as well.", "quantifier": "every history", "why_tests_cant": "Order of arrival is arbitrary.", "anchors": ["src/chain.c:hsk_chain_add", "src/chain.c:hsk_chain_resolve_orphan"]}
{"id": "C16", "title": "Difficulty retargeting is bounded", "statement": "hsk_chain_retarget(first,last) yields a compact value whose target is the formula 2^256/((work difference)*600/clamped timespan)-1, never above the network's easiest target; timespan is clamped to [1/4,4] of nominal, so timestamps outside cannot move difficulty further.", "quantifier": "all pairs of headers with arbitrary times and works", "why_tests_cant": "64-bit times and 256-bit works.", "anchors": ["src/chain.c:hsk_chain_retarget", "src/chain.c:hsk_chain_get_target", "src/chain.c:hsk_chain_suitable_block"]}
{"id": "C17", "title": "Name roots handed to the resolver are on the best chain and settled", "statement": "hsk_chain_safe_root returns the name root of the tip's ancestor at the tip's own height when the tip is at least 12 above the last tree-interval boundary, and otherwise of the ancestor at that boundary; when blocks of one interval share a root (consensus rule outside this program) that root was committed at least 11 blocks below the tip; it never aborts on a reachable state of the main network or of a chain started at genesis.", "quantifier": "every reachable chain", "why_tests_cant": "All heights and histories.", "anchors": ["src/chain.c:hsk_chain_safe_root"]}
{"id": "C18", "title": "Block locators are bounded and complete", "statement": "hsk_chain_get_locator never produces more than 64 hashes, starts with the tip, is strictly descending in height, ends at the oldest header, and only names ancestors of the tip.", "quantifier": "every reachable chain of any height", "why_tests_cant": "Unbounded height with a fixed-size output array.", "anchors": ["src/chain.c:hsk_chain_get_locator", "src/msg.h:hsk_getheaders_msg_t"]}
{"id": "C19", "title": "A header batch with a bad link or bad work is ignored entirely", "statement": "If any header of a received 'headers' message does not follow its predecessor or fails proof of work, no header of the message is added to the chain.", "quantifier": "every message of up to 2000 headers, every chain state", "why_tests_cant": "Position of the bad header is arbitrary.", "anchors": ["src/pool.c:hsk_peer_handle_headers"]}
{"id": "C20", "title": "Checkpoint files round-trip", "statement": "Reading back a checkpoint written by hsk_store_write gives the same height, work and 150 headers; exactly the files of at least 35441 bytes that start with the network's magic and version 0 are read (trailing bytes are ignored), all others are refused.", "quantifier": "every chain state eligible for flushing, every file content", "why_tests_cant": "All field values and all file contents.", "anchors": ["src/store.c:hsk_store_write", "src/store.c:hsk_store_inject_checkpoint"]}
{"id": "C21", "title": "Checkpoint replacement is crash-atomic", "statement": "Whatever prefix of the file operations of hsk_store_write completed before the process stops (including partially written data), the checkpoint path holds either the complete old or the complete new checkpoint.", "quantifier": "every crash point, every torn write length, every previous directory content", "why_tests_cant": "Crash points cannot be tested exhaustively.", "anchors": ["src/store.c:hsk_store_write"]}
{"id": "C22", "title": "Flushing never misses a header", "statement": "Whenever the chain decides to flush a checkpoint, the 150 headers it writes and the header before them exist, so the assertion in the writer cannot fail.", "quantifier": "every history on a chain with persistence enabled, started from genesis or from a checkpoint", "why_tests_cant": "Depends on initial height and reorganisation history.", "anchors": ["src/chain.c:hsk_chain_checkpoint_flush", "src/chain.c:hsk_chain_save", "src/store.c:hsk_store_write"]}
{"id": "C23", "title": "Adding a header never aborts the process", "statement": "No sequence of headers offered to hsk_chain_add makes an assertion fail.", "quantifier": "every history, including chains started from a checkpoint", "why_tests_cant": "Needs an adversarial header anchored to an old stored header.", "anchors": ["src/chain.c:hsk_chain_get_ancestor", "src/chain.c:hsk_chain_suitable_block", "src/chain.c:hsk_chain_find_fork"]}
{"id": "C24", "title": "Network time samples move the clock boundedly and in the right direction", "statement": "hsk_timedata keeps at most 200 samples, one per address, sorted; after every fifth odd sample the offset is the median if its magnitude is below 70 minutes, else 0; so the adjusted clock never differs from the local one by 70 minutes or more.", "quantifier": "every sequence of samples (address, time) and local clocks", "why_tests_cant": "All orders of insertion.", "anchors": ["src/timedata.c:hsk_timedata_add", "src/timedata.c:hsk_timedata_now"]}
{"id": "C25", "title": "The hash table is a finite map", "statement": "hsk_map set/get/has/del/iteration behave as a finite map for every sequence of operations, whatever the hash function (any collisions), through every resize.", "quantifier": "all operation sequences, all hash functions, all equality-compatible keys", "why_tests_cant": "Collisions, tombstones and rehash orders are unbounded.", "anchors": ["src/map.c:hsk_map_put", "src/map.c:hsk_map_lookup", "src/map.c:hsk_map_resize", "src/map.c:hsk_map_delete"]}
{"id": "C26", "title": "Cached answers expire and the cache is bounded", "statement": "hsk_cache_get never returns an answer inserted six hours ago or more, and never one that was not inserted; the cache never holds more than its limit.", "quantifier": "every sequence of inserts and lookups at every clock", "why_tests_cant": "Histories and clocks are unbounded.", "anchors": ["src/cache.c:hsk_cache_insert", "src/cache.c:hsk_cache_get"]}
{"id": "C27", "title": "A cached answer is the answer to the question asked", "statement": "If hsk_cache_get answers a request from the cache, the message is one computed for a request that the resolver would have answered identically (same name/type, or same top-level name when the answer is a referral).", "quantifier": "all pairs of requests (names, types, classes, letter case)", "why_tests_cant": "Pairs of requests mapping to one key.", "anchors": ["src/cache.c:hsk_cache_key_set", "src/resource.c:hsk_resource_to_dns"]}
{"id": "C28", "title": "DNS name decoding is safe on every input", "statement": "hsk_dns_name_parse terminates on every message (compression loops included), never reads outside the message, never writes more than 255 characters plus terminator, and consumes a positive number of bytes within the message.", "quantifier": "every message and offset", "why_tests_cant": "Hostile compression pointers.", "anchors": ["src/dns.c:hsk_dns_name_parse"]}
{"id": "C29", "title": "DNS names survive encoding and decoding", "statement": "Serialising a valid presentation name and parsing the result gives the same name, with or without compression against names already written; a compressed name always points strictly backwards.", "quantifier": "all valid names and all compression tables built by earlier writes", "why_tests_cant": "All names up to 255 octets and all write histories.", "anchors": ["src/dns.c:hsk_dns_name_serialize", "src/dns.c:hsk_dns_name_parse"]}
{"id": "C30", "title": "DNS messages survive encoding and decoding", "statement": "Decoding an encoded message returns the same header, question and resource records.", "quantifier": "all well-formed messages", "why_tests_cant": "All record types, section sizes and compression histories.", "anchors": ["src/dns.c:hsk_dns_msg_encode", "src/dns.c:hsk_dns_msg_decode"]}
{"id": "C31", "title": "Truncated replies fit and stay parseable", "statement": "hsk_dns_msg_truncate returns a prefix no longer than the limit that ends on a record boundary, with section counts equal to the records kept, and signals truncation.", "quantifier": "every encoded message and every limit", "why_tests_cant": "All cut positions.", "anchors": ["src/dns.c:hsk_dns_msg_truncate"]}
{"id": "C32", "title": "Only well-formed single-question queries are served", "statement": "hsk_dns_req_create accepts exactly messages with opcode QUERY, no error code, one question, empty answer and authority sections and a clean top-level label; the recorded name, type, class, id and flags are those of the message, and the size limit is 512 or the EDNS size within [512,4096].", "quantifier": "every datagram", "why_tests_cant": "All datagrams.", "anchors": ["src/req.c:hsk_dns_req_create"]}
{"id": "C33", "title": "Replies match their query", "statement": "A finalised reply carries the query's id, has QR set, RD and CD copied, exactly one question equal to the query's name/type/class, and its wire form is at most the requester's size limit.", "quantifier": "every request and every answer message", "why_tests_cant": "All combinations.", "anchors": ["src/req.c:hsk_dns_msg_finalize"]}
{"id": "C34", "title": "DNSSEC records are only sent when asked for", "statement": "Unless the query set DO, a reply contains no RRSIG, DNSKEY, DS, NSEC or NSEC3 records beyond the type explicitly asked for; all other records are kept in order.", "quantifier": "every message, every query type", "why_tests_cant": "All record mixes.", "anchors": ["src/dns.c:hsk_dns_msg_clean", "src/req.c:hsk_dns_msg_finalize"]}
{"id": "C35", "title": "Decoding on-chain resource data is memory safe", "statement": "hsk_resource_decode followed by hsk_resource_free never writes outside the record table, never frees twice and never aborts, whatever bytes a name owner put on chain.", "quantifier": "every byte string up to the protocol limit", "why_tests_cant": "Adversarial on-chain bytes.", "anchors": ["src/resource.c:hsk_resource_decode", "src/resource.c:hsk_record_read", "src/resource.c:hsk_txt_record_read"]}
{"id": "C36", "title": "Well-formed resources decode to their records", "statement": "For every list of well-formed records that fits, decoding the serialised resource returns exactly those records in order.", "quantifier": "all record lists", "why_tests_cant": "All record contents and orders.", "anchors": ["src/resource.c:hsk_resource_decode"]}
{"id": "C37", "title": "Referrals versus answers", "statement": "For a name below a top-level name the reply is a non-authoritative referral listing the NS records (with glue) of the resource; for the top-level name itself DS/NS/TXT queries are answered, and queries with no data yield an authoritative empty answer with SOA and NSEC or a referral.", "quantifier": "all resources, names and query types", "why_tests_cant": "All resource/type combinations.", "anchors": ["src/resource.c:hsk_resource_to_dns"]}
{"id": "C38", "title": "Reserved names never reach the network", "statement": "A query whose top-level label is one of bit, eth, exit, gnu, i2p, onion, tor, zkey (any letter case) is answered NXDOMAIN without asking any peer; root-zone and synthesised names are answered locally; node-internal (Hesiod) data is only given to local clients.", "quantifier": "all queries and cache states", "why_tests_cant": "All names and letter cases.", "anchors": ["src/ns.c:hsk_ns_onrecv"]}
{"id": "C39", "title": "No DNS query crashes the daemon", "statement": "Processing an arbitrary UDP datagram never fails an assertion or writes out of bounds.", "quantifier": "every datagram", "why_tests_cant": "Adversarial datagrams.", "anchors": ["src/ns.c:hsk_ns_onrecv", "src/resource.c:pointer_to_ip", "src/cache.c:hsk_cache_key_set"]}
{"id": "C40", "title": "Failures are reported and never cached", "statement": "When the lookup fails (not synced, timeout, bad resource) the client gets SERVFAIL and nothing is cached; a client gets at most one reply.", "quantifier": "all outcomes of the lookup", "why_tests_cant": "All error paths.", "anchors": ["src/ns.c:hsk_ns_respond", "src/ns.c:after_resolve"]}
{"id": "C41", "title": "Each lookup completes exactly once", "statement": "Each hsk_pool_resolve call that returns success leads to exactly one callback invocation, by a proof, a timeout or a peer disconnect; one that returns an error leads to none.", "quantifier": "all interleavings of resolves, proofs, disconnects, timers and write failures", "why_tests_cant": "All schedules.", "anchors": ["src/pool.c:hsk_pool_resolve", "src/pool.c:hsk_peer_handle_proof", "src/pool.c:hsk_peer_timeout_reqs", "src/pool.c:hsk_pool_timer"]}
{"id": "C42", "title": "Peer message framing does not depend on packet boundaries", "statement": "The sequence of messages handled for a byte stream is the same however the stream is cut into reads, and a frame with wrong magic or excessive size ends the connection.", "quantifier": "every byte stream and every way to cut it", "why_tests_cant": "Exponentially many cuts.", "anchors": ["src/pool.c:hsk_peer_on_read", "src/pool.c:hsk_peer_parse_hdr", "src/pool.c:hsk_peer_parse"]}
{"id": "C43", "title": "Peer messages survive encoding and decoding", "statement": "For every message type, decoding the written payload returns the message and the number of bytes written equals hsk_msg_size.", "quantifier": "all messages", "why_tests_cant": "All payloads and counts.", "anchors": ["src/msg.c:hsk_msg_read", "src/msg.c:hsk_msg_write", "src/msg.c:hsk_msg_size"]}
{"id": "C44", "title": "Variable-length integers are read safely and canonically", "statement": "read_varint never reads beyond the buffer, accepts only the shortest encoding, and inverts write_varint.", "quantifier": "every 64-bit value and every buffer", "why_tests_cant": "All buffers, including empty ones at the end of a message.", "anchors": ["src/bio.h:read_varint", "src/bio.h:write_varint", "src/bio.h:size_varint"]}
{"id": "C45", "title": "The encrypted transport delivers exactly what was sent", "statement": "Whatever messages one end writes after the handshake, and however the ciphertext stream is cut into reads, the other end delivers exactly those messages in order, across any number of key rotations; any prefix of the stream delivers a prefix.", "quantifier": "every message sequence, every fragmentation, every AEAD satisfying decrypt(encrypt(m))=m", "why_tests_cant": "Rotation happens only after 1000 uses; cuts are exponential.", "anchors": ["src/brontide.c:hsk_brontide_write", "src/brontide.c:hsk_brontide_on_read", "src/brontide.c:hsk_brontide_parse", "src/brontide.c:hsk_cs_rotate_key"]}
{"id": "C46", "title": "Nonces are never reused under one key", "statement": "Between two key changes each encryption uses a different nonce, and a key is used for at most 1000 encryptions.", "quantifier": "every sequence of encryptions", "why_tests_cant": "Unbounded sequences.", "anchors": ["src/brontide.c:hsk_cs_encrypt", "src/brontide.c:hsk_cs_update", "src/brontide.c:hsk_cs_init_key"]}
{"id": "C47", "title": "Tampered ciphertext is never delivered", "statement": "If the received stream deviates from what the peer sent, no message after the deviation is delivered unless an authentication tag was forged; the connection ends.", "quantifier": "every modified stream", "why_tests_cant": "All modifications at all positions.", "anchors": ["src/brontide.c:hsk_brontide_parse", "src/brontide.c:hsk_cs_verify"]}
{"id": "C48", "title": "The handshake gives both ends matching keys", "statement": "When initiator and responder complete the three acts, the initiator's sending key/salt/nonce equal the responder's receiving ones and vice versa, and the initiator only completes against the static key it dialled.", "quantifier": "all key pairs and any Diffie-Hellman with commutativity", "why_tests_cant": "All keys.", "anchors": ["src/brontide.c:hsk_brontide_gen_act_one", "src/brontide.c:hsk_brontide_recv_act_one", "src/brontide.c:hsk_brontide_gen_act_two", "src/brontide.c:hsk_brontide_recv_act_two", "src/brontide.c:hsk_brontide_gen_act_three", "src/brontide.c:hsk_brontide_recv_act_three", "src/brontide.c:hsk_brontide_split"]}
{"id": "C49", "title": "The address table is bounded and consistent", "statement": "After any sequence of operations the address manager holds at most 2000 entries, each address at most once, and lookups return the entry of that address.", "quantifier": "all operation sequences and random choices", "why_tests_cant": "Eviction is random.", "anchors": ["src/addrmgr.c:hsk_addrman_add_entry", "src/addrmgr.c:hsk_addrman_alloc_entry"]}
{"id": "C50", "title": "Dialled addresses are eligible", "statement": "hsk_addrman_pick only returns addresses that are valid, not already connected, not removed, full-node, not onion and not banned.", "quantifier": "all table states and random choices", "why_tests_cant": "Randomised selection.", "anchors": ["src/addrmgr.c:hsk_addrman_pick", "src/addrmgr.c:hsk_addrman_is_banned"]}
{"id": "C51", "title": "Base32 is lossless and bounded", "statement": "Decoding the (padded or unpadded) base32 encoding of any bytes returns them; reported sizes equal bytes written; decoding never writes more than 5/8 of the input length.", "quantifier": "every byte string and every character string", "why_tests_cant": "All lengths modulo 5.", "anchors": ["src/base32.c:hsk_base32_encode2", "src/base32.c:hsk_base32_decode2"]}
{"id": "C52", "title": "Hexadecimal is lossless", "statement": "hsk_hex_decode inverts hsk_hex_encode; decode accepts exactly even-length strings of hex digits.", "quantifier": "every byte string and every character string", "why_tests_cant": "All strings.", "anchors": ["src/utils.c:hsk_hex_encode", "src/utils.c:hsk_hex_decode"]}
{"id": "C53", "title": "SOA serials are calendar dates and never run backwards", "statement": "hsk_resource_root's SOA serial is year*10^6+month*10^4+day*100+hour of the current UTC time in the proleptic Gregorian calendar, hence non-decreasing in time.", "quantifier": "every time from 1970 until the int range ends", "why_tests_cant": "Leap-year rules over centuries.", "anchors": ["src/utils.c:hsk_date", "src/resource.c:hsk_resource_root_to_soa"]}
{"id": "C54", "title": "Message signatures cover the whole message", "statement": "hsk_sig0_sign appends one 94-byte record, bumps the additional count and leaves everything else unchanged; hsk_sig0_verify accepts it under the signer's key within the validity window; the signed digest preimage determines every byte of the message except the signature.", "quantifier": "every wire message", "why_tests_cant": "All messages.", "anchors": ["src/sig0.c:hsk_sig0_sign", "src/sig0.c:hsk_sig0_verify", "src/sig0.c:hsk_sig0_sighash"]}
{"id": "C55", "title": "Recursive lookups are answered exactly once across threads", "statement": "For every interleaving of the event loop and the resolver worker thread, each accepted recursive request's callback runs exactly once, in completion order, and the worker only stops when none is outstanding.", "quantifier": "all interleavings", "why_tests_cant": "Thread schedules.", "anchors": ["src/rs_worker.c:hsk_rs_worker_resolve", "src/rs_worker.c:after_resolve_onthread", "src/rs_worker.c:after_resolve_async", "src/rs_worker.c:hsk_rs_pending_wait"]}
{"id": "C56", "title": "Every valid seed on the command line is used", "statement": "hsk_pool_set_seeds adds each valid address of the comma separated list, whatever the other items are.", "quantifier": "all seed strings", "why_tests_cant": "All lists.", "anchors": ["src/pool.c:hsk_pool_set_seeds"]}
{"id": "C57", "title": "The AEAD is the RFC 8439 construction and its tag input is unambiguous", "statement": "Encryption xors the ChaCha20 stream from block 1, the tag is Poly1305 keyed by block 0 over padded additional data, padded ciphertext and both lengths; decryption inverts encryption, and the authenticated byte string determines additional data and ciphertext.", "quantifier": "all keys, nonces, additional data and texts, for any stream cipher and any MAC", "why_tests_cant": "Test vectors cover a few lengths modulo 16; unambiguity is a statement about all pairs of inputs.", "anchors": ["src/aead.c:hsk_aead_aad", "src/aead.c:hsk_aead_encrypt", "src/aead.c:hsk_aead_final"]}
{"id": "C58", "title": "How the encrypted stream is cut into reads does not matter", "statement": "For every connection state (handshake included) and every sequence of reads, the outcome is that of a single read of the concatenation, as long as no read has ended the connection.", "quantifier": "all states, all byte streams, all cuts, any callbacks", "why_tests_cant": "All cuts of all streams in all states.", "anchors": ["src/brontide.c:hsk_brontide_on_read", "src/brontide.c:hsk_brontide_parse"]}
{"id": "C59", "title": "Signatures cover exactly the canonical record set", "statement": "When a section of a reply is signed for a record type, one RRSIG record is appended whose signature is over the RRSIG data without the signature followed by every record of that type once, in canonical form (owner and listed data names in lower case, original TTL) and canonical order. The signed bytes depend only on the set of records, not on their order, repetitions or case of names. Key tags are those of RFC 4034 appendix B, the published keys and DS digest match the signing keys. If there is no record of the type or no room nothing changes, and signing never aborts.", "quantifier": "all sections of well-formed records, all record types the library can hold, all times, all hash, signature and sort functions meeting their contract", "why_tests_cant": "canonical order and duplicate removal depend on arbitrary data and on which order qsort leaves equal records in; tests check single sample sets", "anchors": ["src/dns.c:2884-2910", "src/dns.c:2912-2931", "src/dns.c:2933-3030", "src/dns.c:3032-3283", "src/dns.c:3374-3421", "src/dnssec.c:12-63"]}
{"id": "C60", "title": "What the node tells of itself", "statement": "A local question of class HS and type TXT is answered with exactly the facts (tip hash, height, name root, time, synced, progress, pool size) whose names are at or below the name asked for, each under its own name with its exact text, in a fixed order; the facts of the peers, numbered from zero, are added if the peers name is at or below the name asked for. The question for the own name of a fact of a peer gives nothing (refuted claim that every fact can be asked for).", "quantifier": "all names, all states of the chain and up to 49 peers", "why_tests_cant": "Every name at every depth relative to every fact, every number and hash.", "anchors": ["src/hesiod.c:11-110", "src/hesiod.c:112-194", "src/dns.c:3353-3372"]}
{"id": "C61", "title": "The table of ICANN names is searched exactly", "statement": "When a lookup proves that a name has no data, the built-in table of ICANN names is asked. For every name (any letter case) the search ends and finds the entry of that name exactly if there is one, with the data of that entry, and nothing otherwise; it never reads outside the table. The 1481 built-in names are in strictly increasing order of their letters, as the search needs.", "quantifier": "all names and all ordered tables of any length", "why_tests_cant": "A binary search over 1481 names: every name present, absent, between, before and after.", "anchors": ["src/ns.c:808-837", "src/tld.h:8-1490"]}
{"id": "C62", "title": "The chain counts as synced only when settled", "statement": "hsk_chain_synced becomes true only when a connected header is no older than the network's maximal tip age by the clock of that moment and its branch has at least the network's minimum chain work; it becomes true as soon as such a header becomes the tip, and it never becomes false again. Whenever it is true the best chain has at least the minimum work.", "quantifier": "every start, every sequence of headers offered, every clock reading", "why_tests_cant": "The flag gates all name resolution; a test sees a few chains, while the claim is about every history, including reorganisations and waiting headers connected in one call.", "anchors": ["src/chain.c:244-264", "src/chain.c:280-282", "src/chain.c:726-754"]}
{"id": "C63", "title": "The text of an address reads back as the same address", "statement": "Writing any address that is not a Tor address with its key and a fallback port gives a text of less than 128 bytes, and reading that text gives the same IP, the same key and the port (the fallback port if the address had none; the reader's choice if no port was written). Reading an arbitrary string never overflows a buffer or fails an assertion and gives only well formed addresses; an IPv4 host is accepted exactly in its canonical form.", "quantifier": "all addresses (16 bytes of IP, port, 33 bytes of key), all fallback ports, all input strings", "why_tests_cant": "There are 2^128 IPs, and the compression of zero runs and embedded IPv4 forms makes many shapes of text; tests see a few of them.", "anchors": ["src/addr.c:305-496 hsk_addr_from_string, hsk_addr_to_string, hsk_addr_to_full", "uv/src/inet.c:53-309"]}
{"id": "C64", "title": "Which addresses are routable and which are the same", "statement": "An address is routable exactly if it lies in none of the special blocks (unspecified, broadcast, private, benchmarking, link local, shared, documentation, 127.0/16, ::1, ORCHID, garbled) and in fc00::/7 only as a Tor address. Two addresses are equal exactly if type, IP and port agree, and then their hashes agree.", "quantifier": "all addresses", "why_tests_cant": "The exact border of each block over 2^128 addresses cannot be enumerated.", "anchors": ["src/addr.c:633-933"]}
{"id": "C65", "title": "What the address table does to one address", "statement": "Adding a new address takes a new slot or the first stale one of ten random slots; adding a known one, or marking an attempt, a success or an acknowledgement, changes exactly the fields it should of exactly that entry; an entry is stale exactly under the documented ages and counts.", "quantifier": "all table states, addresses, times and random choices", "why_tests_cant": "Random draws, unsigned time arithmetic and the interplay of counters.", "anchors": ["src/addrmgr.c:hsk_addrman_add_entry", "src/addrmgr.c:hsk_addrman_mark_ack", "src/addrmgr.c:hsk_addrentry_is_stale"]}
{"id": "C66", "title": "Bans last a day", "statement": "An address is reported banned exactly when it was banned, not cleared since, and at most 86400 seconds have passed since the last ban; bans of other addresses are unaffected.", "quantifier": "all sequences of bans, questions and clears", "why_tests_cant": "Every interleaving and every clock.", "anchors": ["src/addrmgr.c:hsk_addrman_add_ban", "src/addrmgr.c:hsk_addrman_is_banned"]}
{"id": "C67", "title": "Built-in seeds and told addresses", "statement": "On each network the built-in seeds are all in the table after the start and no assertion fails; of the addresses told by a peer exactly the routable ones of full nodes with a port and no key are added, implausible times replaced.", "quantifier": "all clocks, random choices and addr messages", "why_tests_cant": "Every clock and every message.", "anchors": ["src/addrmgr.c:hsk_addrman_init", "src/seeds.h:hsk_seeds", "src/pool.c:hsk_peer_handle_addr"]}
{"id": "C68", "title": "Answers to lookups are proved", "statement": "A lookup's callback is told a timeout, or exactly what a Urkel proof says that was accepted for the hash of the looked-up name under a root the chain gave to some lookup of that name; nothing else is ever reported.", "quantifier": "all sequences of lookups, messages, connections and timers", "why_tests_cant": "Every schedule and every peer.", "anchors": ["src/pool.c:hsk_peer_handle_proof", "src/pool.c:hsk_peer_timeout_reqs"]}
{"id": "C69", "title": "Peers of the pool are consistent", "statement": "At every moment the pool has at most its maximum of peers, its counter is the length of its list, no two peers share an address or identifier, and removing a peer never fails an assertion.", "quantifier": "all sequences of events", "why_tests_cant": "All interleavings of connects, closes and timers.", "anchors": ["src/pool.c:hsk_peer_push", "src/pool.c:hsk_peer_remove", "src/pool.c:hsk_pool_refill"]}
{"id": "C70", "title": "The timer closes exactly the peers that are late", "statement": "hsk_pool_timer closes a peer exactly if it is silent, owes headers, a verack, a pong or a proof beyond the limits of the protocol, and leaves every other peer and its lookups as they were; a peer whose handshake stalls is never closed.", "quantifier": "all peers, clocks and outcomes of writes", "why_tests_cant": "Boundary times.", "anchors": ["src/pool.c:hsk_pool_timer", "src/pool.c:hsk_peer_is_overdue"]}
{"id": "C71", "title": "Each message has exactly its effect", "statement": "Version is answered by verack, sendheaders, getaddr and getheaders; ping by pong with its nonce; verack and pong end their waits; headers ask for more, end the wait, close or ban the peer as their result says; nothing else of the peer or of other peers changes.", "quantifier": "all states and messages", "why_tests_cant": "Every state of every other peer.", "anchors": ["src/pool.c:hsk_peer_handle_version", "src/pool.c:hsk_peer_handle_ping", "src/pool.c:hsk_peer_handle_pong", "src/pool.c:hsk_peer_handle_headers"]}
{"id": "C72", "title": "Connections go through their states in order", "statement": "A peer hears and is told nothing before its connection and (with a key) its handshake are complete; a failed step closes it; the version is sent once connected; an address is dialled only below the maximum of peers.", "quantifier": "all states and outcomes of the network", "why_tests_cant": "All failure points.", "anchors": ["src/pool.c:on_connect", "src/pool.c:after_brontide_connect", "src/pool.c:hsk_pool_refill"]}
{"id": "C73", "title": "The recursive server relays what libunbound found, and nothing more", "statement": "For every answer and error of libunbound and every admitted request, the reply carries the id and question of the request; on an error or an unreadable answer it is an empty SERVFAIL; otherwise it has the response code and records of the answer (name servers and additional records only when there is no answer record), recursion available, never authority, and the authentic-data bit only if libunbound found the answer secure and not bogus and the client asked.", "quantifier": "all requests, statuses, answer packets, response codes and signing keys", "why_tests_cant": "Every packet libunbound could return, every combination of flags and sizes.", "anchors": ["src/rs.c:hsk_rs_respond", "src/rs.c:hsk_rs_onrecv"]}
{"id": "C74", "title": "Each request to the recursive server lives exactly once", "statement": "In every interleaving of datagrams, the resolver thread, its completions, and closing: a datagram is admitted exactly if it is a query; each admitted request is asked at most once, with its own name, type and class, receives at most one reply at the address it came from, computed from its own completion, and is freed exactly once after it; no freed request is touched; when the server is closed or at rest none is left.", "quantifier": "all finite interleavings of loop and thread, all datagrams and completions", "why_tests_cant": "Unboundedly many interleavings of two threads.", "anchors": ["src/rs.c:hsk_rs_onrecv", "src/rs.c:after_resolve", "src/rs.c:after_worker_stop", "src/rs.c:hsk_rs_close", "src/rs_worker.c"]}
{"id": "C75", "title": "SHA-256, HMAC and HKDF are the published functions", "statement": "For every message of any length, cut into chunks in any way, lying aligned or not in memory, and whatever the memory of the context held, the digest is that of FIPS 180-4, with round constants and initial value as defined there from roots of primes; HMAC is RFC 2104 for keys of every length; the two outputs of HKDF are the first two blocks of RFC 5869, and an info of more than 512 bytes aborts.", "quantifier": "all messages, chunkings, alignments, keys, salts and infos; all prior contents of memory", "why_tests_cant": "Test vectors cover a few lengths; padding and buffering errors hide at particular lengths and chunkings.", "anchors": ["src/sha256.c:hsk_sha256_init", "src/sha256.c:hsk_sha256_update", "src/sha256.c:hsk_sha256_final", "src/sha256.c:hsk_sha256_process_block", "src/hash.c:hsk_hash_sha256_hmac", "src/hash.c:hsk_hash_hkdf"]}
{"id": "C76", "title": "BLAKE2b is the published function", "statement": "For every digest length of 1 to 64 bytes, every key of up to 64 bytes, every message of any length and every way of cutting it into chunks, the digest is that of RFC 7693; digest lengths and keys outside these bounds are refused, a too small output is refused, and a context gives a digest once only.", "quantifier": "all digest lengths, keys, messages and chunkings", "why_tests_cant": "The buffer is emptied one block late, so errors appear only at particular lengths and chunkings.", "anchors": ["src/blake2b.c:hsk_blake2b_init_key", "src/blake2b.c:hsk_blake2b_update", "src/blake2b.c:hsk_blake2b_final", "src/blake2b.c:hsk_blake2b_compress", "src/hash.c:hsk_hash_blake2b_key"]}
{"id": "C77", "title": "SHA-3 and KMAC are the published functions", "statement": "For the four digest lengths, every message and every way of cutting it into chunks, aligned or not, the digest is that of FIPS 202 (and of the first submission for the Keccak variant), and once given it stays the same whatever is fed afterwards; the keyed hash of 208 bytes under a key of 32 bytes is KMAC256 of SP 800-185 whatever the stack held, and other lengths abort; the hash of a name is its SHA3-256.", "quantifier": "all messages, chunkings, alignments, data, keys and prior contents of memory", "why_tests_cant": "Padding errors hide at the last byte of a block; the permutation has 2^1600 inputs.", "anchors": ["src/sha3.c:hsk_sha3_update", "src/sha3.c:hsk_sha3_final", "src/sha3.c:hsk_cshake_final", "src/sha3.c:hsk_sha3_permutation", "src/hash.c:hsk_hash_sha3_key", "src/hash.c:hsk_hash_name"]}
{"id": "C78", "title": "ChaCha20 is the published cipher", "statement": "Whatever a cipher context held before: after setting a key of 32 bytes, a nonce of 12 (or 8) bytes and a block counter, the bytes given for every sequence of pieces of a message are, joined, the cipher of RFC 8439 from that counter on; each piece keeps its length, the counter read back is the number of the next block (wrapping in its 32 or 64 bits), and applying the cipher again from the same counter gives the message back.", "quantifier": "all keys, nonces, counters below 2^64, prior contexts, messages and pieces", "why_tests_cant": "Keystream left over between pieces of odd lengths and the wrap of the counter are rarely hit; a block has 2^512 inputs.", "anchors": ["src/chacha20/chacha20.c:hsk_chacha20_setup", "src/chacha20/chacha20.c:hsk_chacha20_counter_set", "src/chacha20/chacha20.c:hsk_chacha20_block", "src/chacha20/chacha20.c:hsk_chacha20_encrypt"]}
{"id": "C79", "title": "Poly1305 is the published authenticator", "statement": "Whatever a context held before: for every key of 32 bytes, every message and every way of cutting it into pieces, the tag is that of RFC 8439, and afterwards the key and the accumulator are wiped; the comparison of two tags of 16 bytes gives 1 when they are equal and 0 otherwise.", "quantifier": "all keys, messages, pieces, prior contexts and tags", "why_tests_cant": "The carries between the limbs that matter are met with probability about 2^-40 per block; lengths around multiples of 16 in every cut are many.", "anchors": ["src/poly1305/poly1305-64.h:hsk_poly1305_init", "src/poly1305/poly1305-64.h:hsk_poly1305_blocks", "src/poly1305/poly1305-64.h:hsk_poly1305_finish", "src/poly1305/poly1305.c:hsk_poly1305_update", "src/poly1305/poly1305.c:hsk_poly1305_verify"]}
{"id": "C80", "title": "The sealed box is the published AEAD, and the transport runs on it", "statement": "Whatever a context was used for before: for every key, nonce, additional data and text, cut into any pieces, sealing gives the ciphertext and the tag of AEAD_CHACHA20_POLY1305 (RFC 8439 2.8), opening gives the text back with the same tag, no assertion fails and the context can be used again; additional data after text is refused by the assertion; each use of a transport cipher state is one such box under its key and nonce. So delivery and the detection of tampering hold for the transport with the real cipher, authenticator and hash.", "quantifier": "all keys, nonces, additional data, texts, pieces and prior contexts; all transports that completed the handshake, messages and received pieces", "why_tests_cant": "Errors in padding and length fields depend on both lengths modulo 16 and on the cut; a finite set of vectors fixes a few lengths only.", "anchors": ["src/aead.c:hsk_aead_setup", "src/aead.c:hsk_aead_aad", "src/aead.c:hsk_aead_encrypt", "src/aead.c:hsk_aead_decrypt", "src/aead.c:hsk_aead_auth", "src/aead.c:hsk_aead_final", "src/aead.c:hsk_aead_verify", "src/brontide.c:hsk_cs_encrypt", "src/brontide.c:hsk_cs_decrypt"]}
{"id": "C81", "title": "The command line means what the help says", "statement": "For every sequence of options with any arguments: the first option that asks for the version or the help ends the program with code 0, the first that is refused (no or an empty argument, an address that is none, a pool size outside 1..1000, a key that is not 64 hexadecimal digits, an unknown letter) with code 1, whichever comes first; otherwise words that are no options are refused; otherwise the daemon starts with the last argument of each option, the documented default for each that is missing, and the address of its records equal to that of its server unless given. Long names are accepted as written in the help. The options can be released unless a key was given.", "quantifier": "all sequences of options, all arguments that are byte strings (a pool size that is an int), all networks", "why_tests_cant": "Order and repetition of options give unboundedly many command lines; memory errors at the exit do not show in an exit code.", "anchors": ["src/daemon.c:parse_arg", "src/daemon.c:hsk_options_init", "src/daemon.c:hsk_options_uninit", "src/addr.c:hsk_sa_from_string", "src/addr.c:hsk_sa_copy"]}
{"id": "C82", "title": "The daemon frees what it made, once, however it ends", "statement": "For every combination of options and of results of the calls that can fail: the first failing call decides the exit code, and everything made before is closed and freed, nothing twice, nothing used before it is initialised or after it is freed. When nothing fails, the daemon serves under every sequence of datagrams, lookups, timer events and signals; after a signal, when the resolver thread and the loop are through, it exits with code 0 and everything is freed, and nothing else ends it.", "quantifier": "all options, all results of the fallible calls, all sequences of events", "why_tests_cant": "There are more than fifty calls that can fail and unboundedly many orders of events; the failures (no memory, no descriptor) are not met in tests.", "anchors": ["src/daemon.c:hsk_daemon_init", "src/daemon.c:hsk_daemon_uninit", "src/daemon.c:hsk_daemon_open", "src/daemon.c:hsk_daemon_close", "src/daemon.c:hsk_daemon_after_close", "src/daemon.c:main", "src/signals.c:hsk_signals_init", "src/signals.c:hsk_signals_uninit", "src/pool.c:hsk_pool_alloc", "src/pool.c:hsk_pool_open", "src/pool.c:hsk_pool_close", "src/ns.c:hsk_ns_open", "src/ns.c:hsk_ns_close", "src/rs.c:hsk_rs_open", "src/rs.c:hsk_rs_close"]}
{"id": "C83", "title": "P-256 arithmetic is exact", "statement": "For all numbers of 256 bits: products and squares are the exact products; sum, difference, product and square modulo p of numbers below p, the reduction of any 512-bit number modulo p, the product modulo n of any two numbers and the inverse modulo p or n of any number below it are exact and always end; p and n are prime.", "quantifier": "all numbers of the sizes the functions take", "why_tests_cant": "Carries that are lost for one input in 2^64 or rarer (as without 128-bit integers) are never met by random tests.", "anchors": ["src/ecc.c:vli_mult", "src/ecc.c:vli_sqr", "src/ecc.c:vli_mod_add", "src/ecc.c:vli_mod_sub", "src/ecc.c:vli_mmod_fast", "src/ecc.c:vli_mod_mult_fast", "src/ecc.c:vli_mod_inv", "src/ecc.c:vli_mod_mult"]}
{"id": "C84", "title": "The public key is the key times the base point", "statement": "For every private key of 32 bytes hsk_ecc_make_pubkey ends; it returns the 64 bytes of the coordinates of the key times the base point of P-256, by the published addition law, for every key from 1 to n - 1, and refuses 0 and keys from n on.", "quantifier": "all keys of 32 bytes", "why_tests_cant": "The exceptional cases of the ladder are a handful of keys among 2^256.", "anchors": ["src/ecc.c:hsk_ecc_make_pubkey", "src/ecc.c:ecc_point_mult", "src/ecc.c:xycz_add", "src/ecc.c:xycz_addc", "src/ecc.c:ecc_point_double_jacobian"]}
{"id": "C85", "title": "A signature is the ECDSA signature of the hash", "statement": "For every key, hash and sequence of random numbers hsk_ecc_sign ends; it fails only when the source of random numbers fails or sixteen of them cannot be used, and otherwise returns r and s with r the first coordinate of k times the base point modulo n, s k = e + r d modulo n, r and s not 0, k being the first random number that can be used.", "quantifier": "all keys and hashes of 32 bytes, all sequences of random numbers and failures", "why_tests_cant": "A wrong signature for one random number in 2^256 does not show; undefined behaviour on the first number 0 neither.", "anchors": ["src/ecc.c:hsk_ecc_sign", "src/ecc.c:vli_mod_mult", "src/ecc.c:vli_mod_inv", "src/dnssec.c:hsk_dnssec_sign_rrset"]}
{"id": "C86", "title": "SipHash is the published function", "statement": "For every message of less than 2^35 bytes and every key of 16 bytes hsk_siphash returns the SipHash-2-4 of the message; hsk_siphash64 and hsk_siphash32 hash their number as one word without the length, under the same start; with a key of 32 bytes the four words of the key are the start. The hash of longer messages depends on their bytes as well.", "quantifier": "all messages, numbers and keys", "why_tests_cant": "Messages of 32 GiB are not tested, and a wrong rotation of a carry shows for few inputs.", "anchors": ["src/siphash.c:_siphash", "src/siphash.c:_siphash64", "src/siphash.c:_siphash64k256", "src/siphash.c:hsk_siphash", "src/siphash.c:hsk_siphash32", "src/siphash.c:hsk_siphash64", "src/siphash.c:hsk_siphash32k256", "src/siphash.c:hsk_siphash64k256"]}
{"id": "C87", "title": "The daemon's own keys and signatures", "statement": "The public keys in the DNSKEY records of the daemon are its two private keys times the base point of P-256, and the DS record is the SHA-256 of the key signing key; every signature that the daemon adds to a section of a reply is the ECDSA signature, under one of these keys, of the SHA-256 of the data that RFC 4034 says is signed, when the number drawn is at least 2 modulo the order.", "quantifier": "all record sets but RP and SIG, all times, all sources of random numbers, all lists with room for the signature", "why_tests_cant": "Tests verify a few signatures; a wrong carry, digest padding or order of records shows in few of them.", "anchors": ["src/dnssec.c:hsk_dnssec_get_ksk", "src/dnssec.c:hsk_dnssec_get_zsk", "src/dnssec.c:hsk_dnssec_get_ds", "src/dnssec.c:hsk_dnssec_sign_zsk", "src/dnssec.c:hsk_dnssec_sign_ksk", "src/dns.c:hsk_dns_sign_rrset", "src/dns.c:hsk_dns_dnskey_create"]}
{"id": "C88", "title": "Names, headers and the chain with the real hash functions", "statement": "With the daemon's own BLAKE2b and SHA-3, after any offered headers the root that answers are checked against is in a header of the chain with the most work, at the height of the last update of the tree; every value or absence accepted for a name is what the tree with this root holds under the SHA3-256 of the name, or two different strings among those hashed for this tree and this proof have the same BLAKE2b digest (or one has the digest 0); two accepted answers for one name and root agree up to the same exception; and an honest node's proof is always accepted. The hash of a header is the published combination of BLAKE2b and SHA-3 and fixes its fields, unless two of the strings hashed for the two headers collide.", "quantifier": "all networks, all sequences of headers, all trees, all received bytes, all names", "why_tests_cant": "Tests replay a few blocks and proofs; they cannot show that no bytes at all make the daemon accept a wrong answer short of a collision of the actual hash function.", "anchors": ["src/proof-radix.c:hsk_proof_verify", "src/header.c:hsk_header_verify_pow", "src/hash.c:hsk_hash_name", "src/chain.c:hsk_chain_safe_root", "src/pool.c:hsk_pool_resolve"]}
{"id": "C89", "title": "Random numbers, private keys and names of errors", "statement": "A request for random bytes succeeds only if every byte of the buffer comes from the system, whatever errors and short reads occur. A private key that is made is the first valid one of at most 1001 draws; if a draw fails before or none is valid, no key is made. The first handshake message is well defined whenever random bytes fail to come. A 32-bit random number takes every value equally often, and a 64-bit one is the pair of two of them. Every error code has as text the name of its constant, and no code reads outside the table.", "quantifier": "all results of the system calls, all draws, all buffers, all codes", "why_tests_cant": "Tests never see the system run out of random bytes, nor a key that is rejected; a test of a few values does not show a bias or a bit that is never set.", "anchors": ["src/random.c:hsk_randombytes", "src/ec.c:hsk_ec_create_privkey", "src/ec.c:hsk_ec_pubkey_to_hash", "src/brontide.c:hsk_brontide_gen_act_one", "src/utils.c:hsk_random", "src/utils.c:hsk_nonce", "src/error.c:hsk_strerror"]}
{"id": "C90", "title": "Lists of records and texts", "statement": "The tables of 255 records or texts behave as lists of at most 255 members under every sequence of adding at the end or the front, removing at either end, reading and replacing: no call leaves the table, the answers are those of the list, a full table refuses, negative indexes count from the end, and releasing the table frees every member exactly once.", "quantifier": "all sequences of calls, all indexes of type int", "why_tests_cant": "The front insertion, the 255th member and negative indexes beyond the start are not reached by tests of ordinary messages.", "anchors": ["src/dns.c:hsk_dns_rrs_push", "src/dns.c:hsk_dns_rrs_pop", "src/dns.c:hsk_dns_rrs_shift", "src/dns.c:hsk_dns_rrs_unshift", "src/dns.c:hsk_dns_rrs_get", "src/dns.c:hsk_dns_rrs_set", "src/dns.c:hsk_dns_rrs_uninit", "src/dns.c:hsk_dns_txts_push"]}
{"id": "C91", "title": "Socket addresses and the text for the resolver", "statement": "A socket address converts to an address and back to the same host and port, an IPv4-mapped IPv6 address becoming the IPv4 address it stands for; an address converted to a socket address and back loses its key and nothing else. A wildcard address becomes the loopback of its family and every other address is left alone. The text with which the recursive server names its root server to the resolver is an IP that reads back as that host, '@' and the port, the default port in place of 0; different hosts or ports have different texts. An address given as family, bytes and port is accepted like the same socket address.", "quantifier": "all IPv4 and IPv6 socket addresses, all ports, all default ports", "why_tests_cant": "The spellings of IPv6, mapped wildcards and Tor prefixes cannot be enumerated; the wrong result of one conversion is only visible to a caller nobody tests.", "anchors": ["src/addr.c:hsk_addr_from_sa", "src/addr.c:hsk_addr_to_sa", "src/addr.c:hsk_addr_from_ip", "src/addr.c:hsk_addr_to_at", "src/addr.c:hsk_addr_localize", "src/addr.c:hsk_sa_localize", "src/addr.c:hsk_sa_to_at", "src/rs.c:hsk_rs_init", "src/ns.c:hsk_ns_set_ip", "src/addrmgr.c:hsk_addrman_add_ip"]}
{"id": "C92", "title": "Remainder, bitwise operations and text of big numbers", "statement": "Remainder, and, exclusive or and complement of 512-bit numbers are exact; a remainder by zero never returns. A number is written as its hexadecimal digits without leading zeros, inside the memory whose size is given, and different numbers have different texts. The text of a number reads back as that number.", "quantifier": "all pairs of 512-bit numbers, all contents of the memory, all sizes", "why_tests_cant": "There are 2^1024 pairs of operands; a write one byte behind the memory is invisible to a test that only reads the text.", "anchors": ["src/bn.c:hsk_bn_mod", "src/bn.c:hsk_bn_and", "src/bn.c:hsk_bn_xor", "src/bn.c:hsk_bn_neg", "src/bn.c:hsk_bn_to_string", "src/bn.c:hsk_bn_from_string"]}
{"id": "C93", "title": "Remaining address classes", "statement": "The tests for the transition and multicast classes answer yes for exactly the addresses of the block of the standard: 2002::/16, 64:ff9b::/96, 2001::/32, ::ffff:0:0:0/96, and 224.0.0.0/4 or ff00::/8. No multicast address counts as routable.", "quantifier": "all addresses", "why_tests_cant": "There are 2^128 addresses; a test tries a few per block and misses a wrong boundary.", "anchors": ["src/addr.c:hsk_addr_is_rfc3964", "src/addr.c:hsk_addr_is_rfc6052", "src/addr.c:hsk_addr_is_rfc4380", "src/addr.c:hsk_addr_is_rfc6145", "src/addr.c:hsk_addr_is_multicast", "src/addr.c:hsk_addr_is_routable"]}
{"id": "C94", "title": "Reported progress of the chain", "statement": "The progress reported for the chain is always a number from 0 to 1, and it is 1 exactly if the time of the tip is at most 40 minutes before the adjusted time.", "quantifier": "all times of the genesis block, of the tip and of the clock", "why_tests_cant": "The unsigned differences wrap around and the quotient is rounded twice; the cases that go wrong are single seconds out of 2^64.", "anchors": ["src/chain.c:hsk_chain_progress", "src/hesiod.c:hsk_hesiod_txt_push_float"]}
