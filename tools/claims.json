{
"C01": [
"proved",
[
"name_proof_sound",
"name_proof_strings_complete",
"tree_answer_unique"
],
"hash function is a parameter; hypothesis restricted to strings hashed in the run"
],
"C02": [
"proved",
[
"honest_name_proof_accepted"
],
"stored values must carry a resource (name length, name, data length, data) of at most 668 bytes"
],
"C03": [
"proved",
[
"accepted_name_proofs_agree"
],
""
],
"C04": [
"proved",
[
"proof_decoding_total",
"proof_decoding_lossless",
"proof_verification_never_aborts",
"proof_encoding_unique_refuted"
],
"the wire format is not canonical (refutation included)"
],
"C05": [
"proved",
[
"header_codec_lossless"
],
""
],
"C06": [
"proved",
[
"header_share_hash_exact",
"header_share_hash_strings_complete",
"header_share_hash_commits"
],
"hash functions are parameters; collision hypotheses only on the strings hashed for the two headers"
],
"C07": [
"proved",
[
"compact_decoding_exact",
"compact_encoding_greatest",
"compact_canonical_roundtrip",
"compact_overflow_rejected_refuted"
],
"the extra claim that overflowing exponents are rejected is refuted (exponent taken modulo 32)"
],
"C08": [
"proved",
[
"bn_arithmetic_correct",
"bn_compare_correct",
"bn_division_correct",
"bn_division_by_zero_never_returns",
"bn_conversions_correct",
"bn_right_shift_refuted"
],
"hsk_bn_rshift, which nothing calls, is refuted"
],
"C09": [
"proved",
[
"work_of_header_exact",
"work_along_chain_is_sum",
"work_strictly_increases"
],
""
],
"C10": [
"proved",
[
"proof_of_work_exact"
],
""
],
"C11": [
"proved",
[
"tip_has_most_work",
"tip_changes_only_for_more_work"
],
"any sequence of hsk_chain_add calls from genesis or from a checkpoint"
],
"C12": [
"proved",
[
"height_index_is_best_chain"
],
"below the initial height (checkpoint start) the index keeps what it was started with"
],
"C13": [
"proved",
[
"connected_headers_obey_rules"
],
"checkpoint and genesis headers are the initial ones"
],
"C14": [
"partial",
[
"rejected_header_changes_nothing_partial",
"rejected_header_changes_nothing_refuted"
],
"false for the codes 24/25: the header can be connected while a bad orphan child makes the call report its error (Finding)"
],
"C15": [
"partial",
[
"orphans_bounded_and_connected_partial",
"waiting_headers_connected_or_kept",
"orphans_bounded_and_connected_refuted"
],
"false when two orphans share a parent: only the later one is connected (Finding)"
],
"C16": [
"proved",
[
"retarget_exact",
"retarget_bounded",
"networks_ok"
],
"all pairs of headers"
],
"C17": [
"proved",
[
"safe_root_on_best_chain",
"safe_root_is_settled"
],
"on networks other than main a checkpoint start needs a tip at least 11 above the checkpoint"
],
"C18": [
"proved",
[
"locator_bounded_and_complete",
"locator_entries_on_best_chain"
],
"names are ancestors of the tip at or above the initial height; below it only headers indexed at start"
],
"C19": [
"proved",
[
"bad_batch_changes_nothing",
"good_batch_is_offered_in_order",
"offers_are_runs"
],
""
],
"C20": [
"proved",
[
"checkpoint_roundtrip",
"checkpoint_file_read_exact",
"stale_checkpoint_ignored"
],
"round trip assumes total work does not wrap at 2^256"
],
"C21": [
"partial",
[
"checkpoint_replacement_atomic_partial",
"checkpoint_replacement_windows_refuted",
"checkpoint_replacement_height_zero_refuted"
],
"proved for POSIX and positive height; Windows (remove before rename) refuted; height 0 is never flushed (flush_height_positive)"
],
"C22": [
"proved",
[
"flush_never_misses_a_header",
"flush_height_positive",
"add_has_no_undefined_behaviour"
],
""
],
"C23": [
"partial",
[
"add_never_aborts_partial",
"add_has_no_undefined_behaviour",
"add_never_aborts_refuted"
],
"proved from genesis; false from a checkpoint: a fork near the checkpoint fails an assertion (Finding)"
],
"C24": [
"partial",
[
"network_time_partial",
"adjusted_clock_bounded",
"one_sample_per_address",
"clock_moves_toward_peers_refuted",
"offset_is_median_refuted",
"sample_overflow_refuted"
],
"the offset loses its sign, the shifting loop loses samples (so the median is not that of the received samples), and extreme peer times overflow: all three refuted with witnesses"
],
"C25": [
"proved",
[
"table_is_a_map",
"hashes_are_words",
"cache_keys_fit",
"shrink_refuted"
],
"Every sequence of operations with at most 2^30 insertions, every hash function, out-of-memory at any allocation. The model has the packed flag words, the triangular probing, the in-place rehash and the bit trick for powers of two. A shrinking realloc that fails is not noticed (shrink_refuted; the program never shrinks a table)."
],
"C26": [
"proved",
[
"never_stale",
"never_full",
"lookup_exact",
"insertion_exact",
"no_place",
"fresh_answer_found"
],
"For every history of insertions and lookups at arbitrary clock readings. The hash map is an association list under the cache's own key equality (C25)."
],
"C27": [
"partial",
[
"shared_place",
"shared_answer_partial",
"key_exact",
"letter_case_refuted",
"class_refuted"
],
"shared_place: exactly which questions share an entry. Their answers are equal for every resource when the letters have the same case; with other letter case the answer can lack addresses (letter_case_refuted). The class is not part of the key: a question of class HS gets the answer kept for class IN (class_refuted)."
],
"C28": [
"proved",
[
"parse_exact",
"parse_inside"
],
"Exact characterisation against an independent inductive wire format; never out of bounds, never out of fuel."
],
"C29": [
"partial",
[
"serialize_fits",
"serialize_plain",
"plain_roundtrip",
"serialize_accepts",
"compressed_name",
"compressed_roundtrip_partial",
"decoded_reencodes",
"labels_counted",
"label_at",
"labels_from",
"name_cmp_eq",
"long_chain_refuted",
"leading_dot_refuted",
"stand_in_refuted",
"name_verified_exactly",
"record_named"
],
"Round trip proved for all valid names without compression and, with compression against any table built by earlier writes, for names of at most 10 labels and for each of the first 11 names of a message whatever their labels; pointers strictly backwards. Longer names later can need more than the 10 pointers the decoder follows: refuted by long_chain_refuted."
],
"C30": [
"proved",
[
"msg_roundtrip",
"decode_layout",
"encode_header",
"decode_total",
"decode_encode",
"record_roundtrip",
"extended_code_refuted"
],
"Every message the library can hold (all 22 record layouts and unknown types, four sections of up to 255 records, EDNS, compression) decodes to itself, encoding stays within the measured size, and the decoder reads the RFC layout. Any bytes decode without fault to a message of that shape. Side finding refuted: an extended error code with EDNS off is lost."
],
"C31": [
"partial",
[
"truncate_total",
"truncate_exact_partial",
"truncate_flag_refuted"
],
"Exact result for every encoded message and limit: the encoding of the longest prefix of items that fits, which decodes to it; any bytes stay within the limit. The last part of the statement is false: the TC flag is never set (truncate_flag_refuted)."
],
"C32": [
"proved",
[
"req_exact",
"query_served",
"recorded_ok"
],
"Every datagram, exactly; the wire form of every query is served. A message whose sections end early counts with the records present (msg_decode)."
],
"C33": [
"partial",
[
"reply_exact_partial",
"reply_matches_partial",
"signed_reply_fits_partial",
"finalize_bits",
"dirty_question_refuted"
],
"Every request and answer, with and without signature: the whole reply is determined; its header bits and size without any restriction (finalize_bits). Not for answers whose names need more than ten compression pointers or with an extended error code without EDNS. A name with unusual characters below a clean top-level name is answered with question \".\": refuted by dirty_question_refuted."
],
"C34": [
"proved",
[
"clean_exact",
"clean_none",
"reply_exact_partial",
"reply_matches_partial"
],
"Section filtering for all messages; in replies the sections are exactly the filtered ones unless DO was set, or the query was ANY and the answer is from the recursive resolver (everything was asked for)."
],
"C35": [
"partial",
[
"decode_safe_partial",
"free_exact",
"resource_frees",
"table_overflow_refuted",
"double_free_refuted"
],
"Decoding is memory safe for data with at most 255 records and freeing is exact when no TXT read failed; the 256th record writes past the table and a cut TXT record is freed twice, both refuted with a witness."
],
"C36": [
"proved",
[
"resource_decodes",
"resource_roundtrip",
"unknown_rejected",
"version_rejected",
"cut_accepted_refuted"
],
"Every well-formed resource decodes to its records in order; unknown types and versions are rejected. That a cut record is rejected is refuted."
],
"C37": [
"partial",
[
"resource_answered_partial",
"any_resource_answered",
"cases_covered",
"root_is_answered",
"root_without_address",
"nx_exact",
"failures_exact",
"synth_name_exact",
"empty_authoritative_refuted",
"empty_server_aborts_refuted",
"freed_strings_refuted",
"glue_owner_refuted"
],
"Exact contents of every section for every complete resource, name and type. The claim that an empty answer is authoritative is false and refuted: the AA flag is set only when the answer section is not empty. any_resource_answered: for every resource that decodes, exactly which abort, which read freed memory, and the exact answer of the others."
],
"C38": [
"proved",
[
"query_handled",
"no_other_crash_partial",
"every_run_answers",
"replied_sent",
"node_facts_stay"
],
"query_handled gives for every query the one way it is handled; a name below a reserved name is denied, and the root and _synth names are answered, without asking a peer. node_facts_stay: no fact of the node leaves to a client that is not local, in every run."
],
"C39": [
"partial",
[
"no_other_crash_partial",
"query_handled",
"result_handled",
"any_resource_answered",
"cases_covered",
"query_crash_refuted",
"result_crash_refuted",
"synth_bitmap_refuted"
],
"The claim is false: single datagrams (_a.x, long or 28-digit names below _synth, NS of the root when no address is set) and resources cut short end the process or write out of bounds (refuted with witnesses). no_other_crash_partial: in every reachable state an event crashes exactly if it is one of the listed ones."
],
"C40": [
"proved",
[
"result_handled",
"every_run_answers",
"replied_sent",
"sig0_meets"
],
"result_handled: every way a lookup ends gives the exact reply and cache; every_run_answers: over all runs, replies and questions waiting add up: one reply at most for each query."
],
"C41": [
"partial",
[
"lookups_end_once_partial",
"resolve_exact",
"prover_chosen",
"proof_answers_all",
"bad_proof_ends_peer",
"timer_ends_lookups",
"failed_lookup_not_called_refuted",
"lookup_on_connected_peer_refuted",
"pending_lookup_never_answered",
"asked_proof_accepted_refuted",
"prover_by_name",
"prover_best"
],
"Over every sequence of events each accepted lookup is called back at most once, and those not called back are still waiting; after the timer no connected peer has one older than five seconds. Not proved because false: a lookup accepted without a connected peer is never answered (pending_lookup_never_answered); one given to an unconnected peer waits without limit; when the write of getproof fails the call returns an error and calls back too."
],
"C42": [
"partial",
[
"framing_exact_partial",
"chunking_irrelevant_partial",
"closed_peer_keeps_handling_refuted"
],
"Holds for any message handler that leaves the peer open when it reports success; the real version handler does not when a write fails (refutation)."
],
"C43": [
"partial",
[
"message_decoding_exact_partial",
"message_round_trip_partial",
"frame_exact_partial",
"empty_payload_refuted",
"proof_message_written_without_proof_refuted",
"frame_large_refuted"
],
"Exact decoding for non-empty payloads, round trip for all messages but proof messages, frames of messages with fewer than 253 entries; the remaining cases are refuted (empty list payload crashes, proofs are not written, sizes are announced too small)."
],
"C44": [
"partial",
[
"varint_exact_partial",
"varint_empty_refuted",
"varint_size_refuted"
],
"Exact on non-empty buffers; reading an empty buffer and the size function are refuted."
],
"C45": [
"proved",
[
"transport_delivery",
"transport_delivers_all"
],
"Any chunking, any prefix, any number of rotations; messages up to the code's size limit 8000009. Cipher, MAC and hash are parameters."
],
"C46": [
"proved",
[
"nonces_unique",
"nonces_unique_handshake"
],
"Use number i has nonce i mod 1000 under the key of epoch i/1000, for every sequence of uses; a (key, nonce) pair can only repeat if the HKDF chain yields the same key twice."
],
"C47": [
"proved",
[
"transport_tampering"
],
"For arbitrary received bytes, in any chunks: either they contain a valid tag for something the sender did not seal, or a prefix of what was sent was delivered and the first complete differing frame closes the connection."
],
"C48": [
"proved",
[
"handshake_agrees",
"initiator_completes_only",
"wrong_static_key_refused",
"early_write_silent",
"invalid_encoding_refuted",
"responder_key_abort_refuted",
"early_write_refuted"
],
"For all keys and any curve operations with commuting key exchange. Nothing is sent before the handshake is complete. The refuted side claims: an invalid key encoding in act one or two is used uninitialised; a responder aborts on a key off the curve; writing before the handshake is complete reports success."
],
"C49": [
"proved",
[
"table_always_consistent",
"lookup_exact",
"one_slot_per_address_refuted",
"attempts_never_overflow_refuted"
],
"With memory; fewer than 2^31 attempts. Without memory for the hash table a slot taken over is lost to lookups (one_slot_per_address_refuted); the int32 counter overflows after 2^31-1 failed attempts."
],
"C50": [
"partial",
[
"picked_address_eligible",
"dialled_peer_eligible",
"picked_not_banned_partial",
"picked_not_banned_refuted",
"some_address_is_picked",
"untried_taken_at_once"
],
"Everything but the bans holds for every choice, also for the peer that is then dialled; bans are respected in the first 95 tries only (picked_not_banned_refuted)."
],
"C51": [
"proved",
[
"alphabets_ok",
"base32_encoding_exact",
"base32_padded_decoding_exact",
"base32_unpadded_decoding_exact",
"base32_decoding_within_size",
"base32_round_trip"
],
"char is taken to be signed; lengths fit int"
],
"C52": [
"proved",
[
"hex_encoding_exact",
"hex_decoding_exact"
],
"the NULL string case (accepted) is outside the model"
],
"C53": [
"proved",
[
"date_is_gregorian",
"calendar_functional",
"serial_is_date",
"serial_monotone",
"serial_monotone_after_2038_refuted"
],
"until the int range ends; the wrap in 2038 is refuted separately"
],
"C54": [
"proved",
[
"has_sig_exact",
"digest_covers",
"sign_exact",
"resign_exact",
"verify_exact",
"signed_accepted"
],
"For every wire message; hash and ECDSA are parameters. With 65535 additional records signing fails."
],
"C55": [
"proved",
[
"worker_never_fails",
"callbacks_in_completion_order",
"callbacks_at_most_once",
"resolve_refused_exactly",
"stopped_has_none_outstanding",
"destroyed_has_called_all",
"at_rest_all_called",
"own_steps_end",
"worker_start"
],
"For every interleaving of the loop and the thread, with the lists as nodes in a heap: no assertion fails and no freed node is touched; callbacks run in completion order, each at most once; a stopped worker has nothing outstanding; a destroyed one has called every accepted request; the loop and the thread left alone take boundedly many steps and at rest everything was called. Assumes that the caller keeps the contract of the header and that memory does not run out (resolve_without_memory_refuted, init_failure_frees_garbage_refuted, refused_request_leaks show what is wrong there)."
],
"C56": [
"partial",
[
"all_seeds_added_partial",
"good_seeds_added_refuted",
"repeated_seed_harmless_refuted"
],
"False as stated: an item that cannot be read or added is joined with the next one. Proved when every item can be read and is new."
],
"C57": [
"proved",
[
"aead_rfc8439",
"mac_input_injective"
],
"ChaCha20 and Poly1305 themselves are parameters."
],
"C58": [
"proved",
[
"transport_chunking"
],
"Every state, including during the handshake."
],
"C59": [
"proved",
[
"signed_exact",
"signed_unique",
"signs",
"signs_nothing",
"sign_total",
"keytag_exact",
"keys_exact",
"ds_exact",
"rp_canonical_refuted"
],
"All record types but RP, whose data names keep their case (refuted for RP; the library never signs RP or SIG records)."
],
"C60": [
"proved",
[
"node_told",
"peer_alone_refuted"
],
"Exact list of the facts for every name. peer_alone_refuted: the own name of a fact of a peer is told nothing."
],
"C61": [
"proved",
[
"table_searched",
"names_in_order"
],
"The data of the built-in table are a parameter; the theorem is for every ordered table, and the built-in names are proved ordered."
],
"C62": [
"proved",
[
"synced_only_when_settled",
"synced_has_the_work"
],
"The flag per call, for chains started from genesis or any checkpoints; for chains from genesis also its history. The clock is given by its readings."
],
"C63": [
"proved",
[
"address_text_round_trip",
"ip4_accepted_exactly",
"reading_an_address_is_safe",
"writing_an_address_is_safe",
"onion_text_round_trip_refuted",
"accepted_forms"
],
"Tor addresses are excluded: their text is the text of other bytes (onion_text_round_trip_refuted). A port above 65535 with five digits is cut to 16 bits by the reader."
],
"C64": [
"proved",
[
"routable_exactly",
"same_address_exactly",
"same_address_same_hash",
"loopback_not_routable_refuted"
],
"Exact set of blocks as in the code; that the whole of 127/8 is excluded is refuted."
],
"C65": [
"proved",
[
"adding_exact",
"seen_again_exact",
"marking_exact",
"stale_exactly",
"fresh_not_stale_refuted"
],
"Times of entries ahead of the clock wrap around and count as stale (fresh_not_stale_refuted)."
],
"C66": [
"proved",
[
"bans_last_a_day"
],
""
],
"C67": [
"proved",
[
"builtin_seeds_load",
"told_address_kept_exactly",
"told_addresses_added"
],
"With memory for the entries."
],
"C68": [
"proved",
[
"answers_are_proved",
"proof_answers_all",
"bad_proof_ends_peer"
],
"What hsk_proof_verify says is an input here; that it is right is C01."
],
"C69": [
"partial",
[
"peers_always_consistent_partial",
"peer_removed_without_map_refuted"
],
"Holds whenever there is memory for the map of peers; without it the removal of the peer aborts (peer_removed_without_map_refuted)."
],
"C70": [
"proved",
[
"timer_closes_exactly",
"timer_keeps_the_rest",
"half_open_peer_kept",
"timer_ends_lookups",
"headers_asked_when_due"
],
"half_open_peer_kept is a finding: the timer skips peers that are not connected."
],
"C71": [
"proved",
[
"version_answered",
"verack_and_ping_answered",
"headers_outcomes",
"pong_ends_wait",
"all_asked_for_headers_refuted"
],
"all_asked_for_headers_refuted is a side finding about hsk_pool_send_getheaders."
],
"C72": [
"proved",
[
"connection_steps",
"unconnected_peer_not_heard",
"dialled_peer_eligible"
],
"libuv's outcomes are inputs."
],
"C73": [
"partial",
[
"respond_exact",
"unsigned_replied",
"respond_wire",
"authentic_only",
"respond_content_partial"
],
"Exact relation between libunbound's result and the reply for every request and result (respond_exact), the header bits on the wire, when authentic data is claimed. What a client decodes is proved where the records of the answer are well-formed and short of the ten-pointer limit (respond_content_partial); for the rest only header, size and absence of failures."
],
"C74": [
"proved",
[
"rs_never_fails",
"every_request_lives",
"closed_all_over",
"at_rest_all_over",
"recv_exact",
"not_running_refuses",
"delivery_recorded"
],
"For every interleaving of the loop and the resolver thread. Assumes malloc succeeds and that libunbound gives bytes and a 12-bit code. A completion whose result is NULL gets no reply, as in the code."
],
"C75": [
"proved",
[
"sha256_exact",
"hash_sha256_exact",
"hash_hash256_exact",
"hmac_exact",
"hkdf_exact"
],
"Little endian machine. The constants are compared with the roots of primes by computation."
],
"C76": [
"proved",
[
"blake2b_exact",
"begin_refused",
"key_wanted",
"blake2b_call",
"hash_blake_exact",
"hash_key_exact"
],
"Equal to RFC 7693 for all digest lengths, keys, messages and chunkings."
],
"C77": [
"proved",
[
"sha3_exact",
"keccak_exact",
"hash_sha3_exact",
"hash_name_exact",
"hash_sha3_key_exact"
],
"Equal to FIPS 202 and to KMAC256 of SP 800-185 for all messages and chunkings."
],
"C78": [
"proved",
[
"chacha20_exact",
"counter_exact",
"chacha20_involutive"
],
"Keys of 16 bytes, which the code also accepts, are not used by hnsd and not covered."
],
"C79": [
"proved",
[
"poly1305_exact",
"poly_auth_exact",
"poly_verify_exact",
"poly1305_tag"
],
""
],
"C80": [
"proved",
[
"seal_exact",
"unseal_exact",
"auth_exact",
"late_aad_aborts",
"unseal_sealed",
"aead_verify_exact",
"cs_encrypt_seals",
"cs_decrypt_unseals",
"delivery_real",
"tampering_real"
],
"The curve stays a parameter of the transport."
],
"C81": [
"partial",
[
"command_line_exact",
"accepted_options",
"long_names_found",
"long_find_exact",
"unknown_long_option_refuted",
"release_undefined_iff_key",
"ipv6_scope_unset_refuted",
"release_refuted"
],
"The meaning of every accepted command line is exact. Refuted: an unknown long option is reported (the table has no end), the options can always be released (not with a key), the addresses are determined (the IPv6 scope is not)."
],
"C82": [
"partial",
[
"failed_start_exact",
"served_exact",
"no_events_harm",
"missing_prefix_refuted",
"failed_part_refuted",
"failed_stop_refuted"
],
"Exact for every first failure and every event sequence, provided that stopping a handle succeeds. Refuted for seventeen of the calls, whose failure is undefined behaviour (table fate_of), and when stopping a handle fails. The peers and their sockets are in C68-C72."
],
"C83": [
"proved",
[
"product_exact",
"field_exact",
"reduction_exact",
"primes",
"inverse_exact",
"order_product_exact",
"product_without_int128_refuted"
],
"Exact with 128-bit integers, as on every 64-bit target; the code for compilers without them is refuted."
],
"C84": [
"partial",
[
"public_key_partial",
"public_key_is_multiple",
"base_multiple_unique",
"key_one_refuted",
"key_order_refuted"
],
"Exact for every key relative to the existence of the multiple (and its odd neighbour) as a point; that the base point has order n is not proved. Keys 1 and n are refuted."
],
"C85": [
"partial",
[
"signature_partial",
"signature_is_ecdsa",
"signature_zero_refuted",
"signature_one_refuted",
"signature_unset_refuted"
],
"Exact for every key, hash and sequence of random numbers, relative to the existence of the multiple; random numbers 0, 1 and n refuted."
],
"C86": [
"partial",
[
"siphash_exact",
"siphash_number_exact",
"siphash_number_long_key",
"siphash_long_refuted"
],
"Exact for messages below 2^35 bytes; from there on the counter of blocks wraps and messages collide (siphash_long_refuted). The daemon does not call these functions."
],
"C87": [
"proved",
[
"daemon_keys",
"daemon_meets_hypotheses",
"daemon_published",
"daemon_signature"
],
"No assumption about keys, digests or signatures is left: qsort must sort (C standard), and the random numbers are arbitrary but from 2 on modulo n (for the others see C85). That the signature verifies under the public key by the verification equation is not proved (it needs the group law)."
],
"C88": [
"proved",
[
"real_name_answer",
"real_answers_agree",
"real_honest_accepted",
"real_header_hash",
"real_header_commits",
"real_resolution"
],
"The hash functions are the models of blake2b.c and sha3.c, proved equal to the published ones in C76 and C77; the exception is a collision among the named strings hashed for the tree, the proof or the headers."
],
"C89": [
"partial",
[
"getrandom_exact",
"fread_exact",
"read_exact",
"privkey_exact",
"privkey_valid",
"act_one_exact",
"act_one_random_refuted",
"random_uniform",
"nonce_exact",
"random_windows_partial",
"random_windows_refuted",
"strerror_partial",
"strerror_refuted"
],
"Refuted parts: the handshake message when the draw of entropy fails (uninitialised bytes) or that of the key fails (abort); 32 random bits with a 15-bit rand; the texts of three error codes. The calls of libsecp256k1 are parameters."
],
"C90": [
"partial",
[
"table_is_list",
"table_released",
"unshift_actual",
"unshift_refuted"
],
"Exact for every sequence of push, pop, shift, get and set and for the release. Insertion at the front is refuted, with its exact effect for every table; the daemon does not call it."
],
"C91": [
"partial",
[
"socket_address_round_trip",
"address_round_trip",
"wildcard_to_loopback",
"resolver_text_partial",
"stub_names_root_server_partial",
"socket_text_round_trip_partial",
"resolver_text_injective_partial",
"stub_onion_refuted",
"add_by_ip_never",
"add_by_ip_refuted"
],
"False for Tor addresses (stub_onion_refuted: the resolver is sent to another host) and for addresses given as bytes (add_by_ip_refuted: hsk_addr_from_ip always reports failure); everything else is proved."
],
"C92": [
"partial",
[
"bn_more_arithmetic",
"bn_text_partial",
"bn_text_overruns",
"bn_text_refuted",
"bn_from_text_partial",
"bn_text_round_trip_refuted"
],
"The arithmetic is proved. The text is exact with the size 128 and memory for 129 bytes; memory of the given size is overrun (bn_text_overruns), 0 is the empty text and smaller sizes give the upper digits (bn_text_refuted). Reading takes groups of eight digits from the end and ignores the rest, so what is written is not read back (bn_text_round_trip_refuted). The daemon calls neither."
],
"C93": [
"partial",
[
"classes_exactly",
"multicast_not_routable_refuted"
],
"The blocks are proved exactly. Multicast addresses count as routable (multicast_not_routable_refuted)."
],
"C94": [
"partial",
[
"progress_in_range_partial",
"progress_caught_up_partial",
"progress_in_range_refuted",
"progress_one_refuted",
"progress_young_refuted"
],
"From 0 to 1 except at the one second where 0 is divided by 0 (progress_in_range_refuted). A tip of at most 40 minutes gives 1 (progress_caught_up_partial) unless the chain itself is younger than 40 minutes (progress_young_refuted). Seconds are lost in the float, so 1 does not mean a tip of at most 40 minutes (progress_one_refuted)."
]
}