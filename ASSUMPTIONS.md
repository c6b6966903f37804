# Print Assumptions of every theorem in MANIFEST.json

| theorem | file | assumptions |
|---|---|---|
| name_proof_sound | ProofTheorems.v | none (closed under the global context) |
| name_proof_strings_complete | ProofTheorems.v | none (closed under the global context) |
| tree_answer_unique | ProofTheorems.v | none (closed under the global context) |
| honest_name_proof_accepted | ProofTheorems.v | none (closed under the global context) |
| accepted_name_proofs_agree | ProofTheorems.v | none (closed under the global context) |
| proof_decoding_total | ProofTheorems.v | none (closed under the global context) |
| proof_decoding_lossless | ProofTheorems.v | none (closed under the global context) |
| proof_verification_never_aborts | ProofTheorems.v | none (closed under the global context) |
| proof_encoding_unique_refuted | ProofTheorems.v | none (closed under the global context) |
| header_codec_lossless | HeaderTheorems.v | none (closed under the global context) |
| header_share_hash_exact | HeaderTheorems.v | none (closed under the global context) |
| header_share_hash_strings_complete | HeaderTheorems.v | none (closed under the global context) |
| header_share_hash_commits | HeaderTheorems.v | none (closed under the global context) |
| compact_decoding_exact | HeaderTheorems.v | none (closed under the global context) |
| compact_encoding_greatest | HeaderTheorems.v | none (closed under the global context) |
| compact_canonical_roundtrip | HeaderTheorems.v | none (closed under the global context) |
| compact_overflow_rejected_refuted | HeaderTheorems.v | none (closed under the global context) |
| bn_arithmetic_correct | BnTheorems.v | none (closed under the global context) |
| bn_compare_correct | BnTheorems.v | none (closed under the global context) |
| bn_division_correct | BnTheorems.v | none (closed under the global context) |
| bn_division_by_zero_never_returns | BnTheorems.v | none (closed under the global context) |
| bn_conversions_correct | BnTheorems.v | none (closed under the global context) |
| bn_right_shift_refuted | BnTheorems.v | none (closed under the global context) |
| work_of_header_exact | HeaderTheorems.v | none (closed under the global context) |
| work_along_chain_is_sum | HeaderTheorems.v | none (closed under the global context) |
| work_strictly_increases | HeaderTheorems.v | none (closed under the global context) |
| proof_of_work_exact | HeaderTheorems.v | none (closed under the global context) |
| tip_has_most_work | ChainTheorems.v | none (closed under the global context) |
| tip_changes_only_for_more_work | ChainTheorems.v | none (closed under the global context) |
| height_index_is_best_chain | ChainTheorems.v | none (closed under the global context) |
| connected_headers_obey_rules | ChainTheorems.v | none (closed under the global context) |
| rejected_header_changes_nothing_partial | ChainTheorems.v | none (closed under the global context) |
| rejected_header_changes_nothing_refuted | ChainExamples.v | none (closed under the global context) |
| orphans_bounded_and_connected_partial | ChainTheorems.v | none (closed under the global context) |
| waiting_headers_connected_or_kept | ChainTheorems.v | none (closed under the global context) |
| orphans_bounded_and_connected_refuted | ChainExamples.v | none (closed under the global context) |
| retarget_exact | ChainTheorems.v | none (closed under the global context) |
| retarget_bounded | ChainTheorems.v | none (closed under the global context) |
| networks_ok | ChainTheorems.v | none (closed under the global context) |
| safe_root_on_best_chain | ChainTheorems.v | none (closed under the global context) |
| safe_root_is_settled | ChainTheorems.v | none (closed under the global context) |
| locator_bounded_and_complete | ChainTheorems.v | none (closed under the global context) |
| locator_entries_on_best_chain | ChainTheorems.v | none (closed under the global context) |
| bad_batch_changes_nothing | BatchTheorems.v | none (closed under the global context) |
| good_batch_is_offered_in_order | BatchTheorems.v | none (closed under the global context) |
| offers_are_runs | BatchTheorems.v | none (closed under the global context) |
| checkpoint_roundtrip | ChainTheorems.v | none (closed under the global context) |
| checkpoint_file_read_exact | ChainTheorems.v | none (closed under the global context) |
| stale_checkpoint_ignored | ChainTheorems.v | none (closed under the global context) |
| checkpoint_replacement_atomic_partial | StoreTheorems.v | none (closed under the global context) |
| checkpoint_replacement_windows_refuted | StoreTheorems.v | none (closed under the global context) |
| checkpoint_replacement_height_zero_refuted | StoreTheorems.v | none (closed under the global context) |
| flush_never_misses_a_header | ChainTheorems.v | none (closed under the global context) |
| flush_height_positive | ChainTheorems.v | none (closed under the global context) |
| add_has_no_undefined_behaviour | ChainTheorems.v | none (closed under the global context) |
| add_never_aborts_partial | ChainTheorems.v | none (closed under the global context) |
| add_never_aborts_refuted | ChainExamples.v | none (closed under the global context) |
| network_time_partial | TimeTheorems.v | none (closed under the global context) |
| adjusted_clock_bounded | TimeTheorems.v | none (closed under the global context) |
| one_sample_per_address | TimeTheorems.v | none (closed under the global context) |
| clock_moves_toward_peers_refuted | TimeTheorems.v | none (closed under the global context) |
| offset_is_median_refuted | TimeTheorems.v | none (closed under the global context) |
| sample_overflow_refuted | TimeTheorems.v | none (closed under the global context) |
| table_is_a_map | MapTheorems.v | none (closed under the global context) |
| hashes_are_words | MapTheorems.v | none (closed under the global context) |
| cache_keys_fit | MapTheorems.v | none (closed under the global context) |
| shrink_refuted | MapTheorems.v | none (closed under the global context) |
| never_stale | CacheTheorems.v | none (closed under the global context) |
| never_full | CacheTheorems.v | none (closed under the global context) |
| lookup_exact | CacheTheorems.v | none (closed under the global context) |
| insertion_exact | CacheTheorems.v | none (closed under the global context) |
| no_place | CacheTheorems.v | none (closed under the global context) |
| fresh_answer_found | CacheTheorems.v | none (closed under the global context) |
| shared_place | CacheTheorems.v | none (closed under the global context) |
| shared_answer_partial | CacheTheorems.v | none (closed under the global context) |
| key_exact | CacheTheorems.v | none (closed under the global context) |
| letter_case_refuted | CacheTheorems.v | none (closed under the global context) |
| class_refuted | NsExamples.v | none (closed under the global context) |
| parse_exact | DnsNameTheorems.v | none (closed under the global context) |
| parse_inside | DnsNameTheorems.v | none (closed under the global context) |
| serialize_fits | DnsNameTheorems.v | none (closed under the global context) |
| serialize_plain | DnsNameTheorems.v | none (closed under the global context) |
| plain_roundtrip | DnsNameTheorems.v | none (closed under the global context) |
| serialize_accepts | DnsNameTheorems.v | none (closed under the global context) |
| compressed_name | DnsNameTheorems.v | none (closed under the global context) |
| compressed_roundtrip_partial | DnsNameTheorems.v | none (closed under the global context) |
| decoded_reencodes | DnsNameTheorems.v | none (closed under the global context) |
| labels_counted | DnsNameTheorems.v | none (closed under the global context) |
| label_at | DnsNameTheorems.v | none (closed under the global context) |
| labels_from | DnsNameTheorems.v | none (closed under the global context) |
| name_cmp_eq | DnsNameTheorems.v | none (closed under the global context) |
| long_chain_refuted | DnsNameTheorems.v | none (closed under the global context) |
| leading_dot_refuted | DnsNameTheorems.v | none (closed under the global context) |
| stand_in_refuted | DnsNameTheorems.v | none (closed under the global context) |
| name_verified_exactly | NameVerify.v | none (closed under the global context) |
| record_named | NameVerify.v | none (closed under the global context) |
| msg_roundtrip | DnsMsgTheorems.v | none (closed under the global context) |
| decode_layout | DnsMsgTheorems.v | none (closed under the global context) |
| encode_header | DnsMsgTheorems.v | none (closed under the global context) |
| decode_total | DnsMsgTheorems.v | none (closed under the global context) |
| decode_encode | DnsMsgTheorems.v | none (closed under the global context) |
| record_roundtrip | DnsMsgTheorems.v | none (closed under the global context) |
| extended_code_refuted | DnsMsgTheorems.v | none (closed under the global context) |
| truncate_total | DnsMsgTheorems.v | none (closed under the global context) |
| truncate_exact_partial | DnsMsgTheorems.v | none (closed under the global context) |
| truncate_flag_refuted | DnsMsgTheorems.v | none (closed under the global context) |
| req_exact | ReqTheorems.v | none (closed under the global context) |
| query_served | ReqTheorems.v | none (closed under the global context) |
| recorded_ok | ReqTheorems.v | none (closed under the global context) |
| reply_exact_partial | ReqTheorems.v | none (closed under the global context) |
| reply_matches_partial | ReqTheorems.v | none (closed under the global context) |
| signed_reply_fits_partial | ReqTheorems.v | none (closed under the global context) |
| finalize_bits | DnsMsgTotal.v | none (closed under the global context) |
| dirty_question_refuted | ReqTheorems.v | none (closed under the global context) |
| clean_exact | DnsMsgTheorems.v | none (closed under the global context) |
| clean_none | DnsMsgTheorems.v | none (closed under the global context) |
| decode_safe_partial | ResourceTheorems.v | none (closed under the global context) |
| free_exact | ResourceTheorems.v | none (closed under the global context) |
| resource_frees | ResourceTheorems.v | none (closed under the global context) |
| table_overflow_refuted | ResourceTheorems.v | none (closed under the global context) |
| double_free_refuted | ResourceTheorems.v | none (closed under the global context) |
| resource_decodes | ResourceTheorems.v | none (closed under the global context) |
| resource_roundtrip | ResourceTheorems.v | none (closed under the global context) |
| unknown_rejected | ResourceTheorems.v | none (closed under the global context) |
| version_rejected | ResourceTheorems.v | none (closed under the global context) |
| cut_accepted_refuted | ResourceTheorems.v | none (closed under the global context) |
| resource_answered_partial | AnswerTheorems.v | none (closed under the global context) |
| any_resource_answered | AnswerTotal.v | none (closed under the global context) |
| cases_covered | AnswerTotal.v | none (closed under the global context) |
| root_is_answered | AnswerTheorems.v | none (closed under the global context) |
| root_without_address | AnswerTheorems.v | none (closed under the global context) |
| nx_exact | AnswerTheorems.v | none (closed under the global context) |
| failures_exact | AnswerTheorems.v | none (closed under the global context) |
| synth_name_exact | AnswerTheorems.v | none (closed under the global context) |
| empty_authoritative_refuted | AnswerTheorems.v | none (closed under the global context) |
| empty_server_aborts_refuted | AnswerTheorems.v | none (closed under the global context) |
| freed_strings_refuted | AnswerTheorems.v | none (closed under the global context) |
| glue_owner_refuted | AnswerTheorems.v | none (closed under the global context) |
| query_handled | NsTheorems.v | none (closed under the global context) |
| no_other_crash_partial | NsRunTheorems.v | none (closed under the global context) |
| every_run_answers | NsRunTheorems.v | none (closed under the global context) |
| replied_sent | NsRunTheorems.v | none (closed under the global context) |
| node_facts_stay | NsRunTheorems.v | none (closed under the global context) |
| result_handled | NsRunTheorems.v | none (closed under the global context) |
| query_crash_refuted | NsExamples.v | none (closed under the global context) |
| result_crash_refuted | NsExamples.v | none (closed under the global context) |
| synth_bitmap_refuted | NsExamples.v | none (closed under the global context) |
| sig0_meets | NsRunTheorems.v | none (closed under the global context) |
| lookups_end_once_partial | PoolRun.v | none (closed under the global context) |
| resolve_exact | PoolTheorems.v | none (closed under the global context) |
| prover_chosen | PoolTheorems.v | none (closed under the global context) |
| proof_answers_all | PoolTheorems.v | none (closed under the global context) |
| bad_proof_ends_peer | PoolTheorems.v | none (closed under the global context) |
| timer_ends_lookups | PoolTimer.v | none (closed under the global context) |
| failed_lookup_not_called_refuted | PoolExamples.v | none (closed under the global context) |
| lookup_on_connected_peer_refuted | PoolExamples.v | none (closed under the global context) |
| pending_lookup_never_answered | PoolExamples.v | none (closed under the global context) |
| asked_proof_accepted_refuted | PoolExamples.v | none (closed under the global context) |
| prover_by_name | PoolChoice.v | none (closed under the global context) |
| prover_best | PoolChoice.v | none (closed under the global context) |
| framing_exact_partial | FrameTheorems.v | none (closed under the global context) |
| chunking_irrelevant_partial | FrameTheorems.v | none (closed under the global context) |
| closed_peer_keeps_handling_refuted | FrameTheorems.v | none (closed under the global context) |
| message_decoding_exact_partial | MsgTheorems.v | none (closed under the global context) |
| message_round_trip_partial | MsgTheorems.v | none (closed under the global context) |
| frame_exact_partial | MsgTheorems.v | none (closed under the global context) |
| empty_payload_refuted | MsgTheorems.v | none (closed under the global context) |
| proof_message_written_without_proof_refuted | MsgTheorems.v | none (closed under the global context) |
| frame_large_refuted | MsgTheorems.v | none (closed under the global context) |
| varint_exact_partial | MsgTheorems.v | none (closed under the global context) |
| varint_empty_refuted | MsgTheorems.v | none (closed under the global context) |
| varint_size_refuted | MsgTheorems.v | none (closed under the global context) |
| transport_delivery | BrontideTheorems.v | none (closed under the global context) |
| transport_delivers_all | BrontideTheorems.v | none (closed under the global context) |
| nonces_unique | BrontideTheorems.v | none (closed under the global context) |
| nonces_unique_handshake | BrontideTheorems.v | none (closed under the global context) |
| transport_tampering | BrontideTheorems.v | none (closed under the global context) |
| handshake_agrees | BrontideTheorems.v | none (closed under the global context) |
| initiator_completes_only | BrontideTheorems.v | none (closed under the global context) |
| wrong_static_key_refused | BrontideTheorems.v | none (closed under the global context) |
| early_write_silent | BrontideExamples.v | none (closed under the global context) |
| invalid_encoding_refuted | BrontideExamples.v | none (closed under the global context) |
| responder_key_abort_refuted | BrontideExamples.v | none (closed under the global context) |
| early_write_refuted | BrontideExamples.v | none (closed under the global context) |
| table_always_consistent | AddrmanPick.v | none (closed under the global context) |
| one_slot_per_address_refuted | AddrmanTheorems.v | none (closed under the global context) |
| attempts_never_overflow_refuted | AddrmanPick.v | none (closed under the global context) |
| picked_address_eligible | AddrmanPick.v | none (closed under the global context) |
| dialled_peer_eligible | PoolPeer.v | none (closed under the global context) |
| picked_not_banned_partial | AddrmanPick.v | none (closed under the global context) |
| picked_not_banned_refuted | AddrmanPick.v | none (closed under the global context) |
| some_address_is_picked | AddrmanPick.v | none (closed under the global context) |
| untried_taken_at_once | AddrmanPick.v | none (closed under the global context) |
| alphabets_ok | UtilTheorems.v | none (closed under the global context) |
| base32_encoding_exact | UtilTheorems.v | none (closed under the global context) |
| base32_padded_decoding_exact | UtilTheorems.v | none (closed under the global context) |
| base32_unpadded_decoding_exact | UtilTheorems.v | none (closed under the global context) |
| base32_decoding_within_size | UtilTheorems.v | none (closed under the global context) |
| base32_round_trip | UtilTheorems.v | none (closed under the global context) |
| hex_encoding_exact | UtilTheorems.v | none (closed under the global context) |
| hex_decoding_exact | UtilTheorems.v | none (closed under the global context) |
| date_is_gregorian | DateTheorems.v | none (closed under the global context) |
| calendar_functional | DateTheorems.v | none (closed under the global context) |
| serial_is_date | DateTheorems.v | none (closed under the global context) |
| serial_monotone | DateTheorems.v | none (closed under the global context) |
| serial_monotone_after_2038_refuted | DateTheorems.v | none (closed under the global context) |
| has_sig_exact | Sig0Theorems.v | none (closed under the global context) |
| digest_covers | Sig0Theorems.v | none (closed under the global context) |
| sign_exact | Sig0Theorems.v | none (closed under the global context) |
| resign_exact | Sig0Theorems.v | none (closed under the global context) |
| verify_exact | Sig0Theorems.v | none (closed under the global context) |
| signed_accepted | Sig0Theorems.v | none (closed under the global context) |
| worker_never_fails | WorkerTheorems.v | none (closed under the global context) |
| callbacks_in_completion_order | WorkerTheorems.v | none (closed under the global context) |
| callbacks_at_most_once | WorkerTheorems.v | none (closed under the global context) |
| resolve_refused_exactly | WorkerTheorems.v | none (closed under the global context) |
| stopped_has_none_outstanding | WorkerTheorems.v | none (closed under the global context) |
| destroyed_has_called_all | WorkerTheorems.v | none (closed under the global context) |
| at_rest_all_called | WorkerTheorems.v | none (closed under the global context) |
| own_steps_end | WorkerTheorems.v | none (closed under the global context) |
| worker_start | WorkerStart.v | none (closed under the global context) |
| all_seeds_added_partial | AddrmanSeeds.v | none (closed under the global context) |
| good_seeds_added_refuted | AddrmanSeeds.v | none (closed under the global context) |
| repeated_seed_harmless_refuted | AddrmanSeeds.v | none (closed under the global context) |
| aead_rfc8439 | BrontideTheorems.v | none (closed under the global context) |
| mac_input_injective | BrontideTheorems.v | none (closed under the global context) |
| transport_chunking | BrontideTheorems.v | none (closed under the global context) |
| signed_exact | DnssecTheorems.v | none (closed under the global context) |
| signed_unique | DnssecTheorems.v | none (closed under the global context) |
| signs | RsTheorems.v | none (closed under the global context) |
| signs_nothing | DnssecTheorems.v | none (closed under the global context) |
| sign_total | DnssecTheorems.v | none (closed under the global context) |
| keytag_exact | DnssecTheorems.v | none (closed under the global context) |
| keys_exact | DnssecTheorems.v | none (closed under the global context) |
| ds_exact | DnssecTheorems.v | none (closed under the global context) |
| rp_canonical_refuted | DnssecTheorems.v | none (closed under the global context) |
| node_told | HesiodTheorems.v | none (closed under the global context) |
| peer_alone_refuted | HesiodTheorems.v | none (closed under the global context) |
| table_searched | NsTable.v | none (closed under the global context) |
| names_in_order | NsTable.v | none (closed under the global context) |
| synced_only_when_settled | ChainTheorems.v | none (closed under the global context) |
| synced_has_the_work | ChainTheorems.v | none (closed under the global context) |
| address_text_round_trip | AddrTheorems.v | none (closed under the global context) |
| ip4_accepted_exactly | AddrTheorems.v | none (closed under the global context) |
| reading_an_address_is_safe | AddrTheorems.v | none (closed under the global context) |
| writing_an_address_is_safe | AddrTheorems.v | none (closed under the global context) |
| onion_text_round_trip_refuted | AddrTheorems.v | none (closed under the global context) |
| accepted_forms | AddrForms.v | none (closed under the global context) |
| routable_exactly | AddrTheorems.v | none (closed under the global context) |
| same_address_exactly | AddrTheorems.v | none (closed under the global context) |
| same_address_same_hash | AddrTheorems.v | none (closed under the global context) |
| loopback_not_routable_refuted | AddrTheorems.v | none (closed under the global context) |
| adding_exact | AddrmanTheorems.v | none (closed under the global context) |
| seen_again_exact | AddrmanTheorems.v | none (closed under the global context) |
| marking_exact | AddrmanTheorems.v | none (closed under the global context) |
| stale_exactly | AddrmanTheorems.v | none (closed under the global context) |
| fresh_not_stale_refuted | AddrmanTheorems.v | none (closed under the global context) |
| bans_last_a_day | AddrmanTheorems.v | none (closed under the global context) |
| builtin_seeds_load | AddrmanSeeds.v | none (closed under the global context) |
| told_address_kept_exactly | AddrmanPick.v | none (closed under the global context) |
| told_addresses_added | AddrmanSeeds.v | none (closed under the global context) |
| answers_are_proved | PoolRun.v | none (closed under the global context) |
| peers_always_consistent_partial | PoolRun.v | none (closed under the global context) |
| peer_removed_without_map_refuted | PoolExamples.v | none (closed under the global context) |
| timer_closes_exactly | PoolTimer.v | none (closed under the global context) |
| timer_keeps_the_rest | PoolTimer.v | none (closed under the global context) |
| half_open_peer_kept | PoolExamples.v | none (closed under the global context) |
| headers_asked_when_due | PoolChoice.v | none (closed under the global context) |
| version_answered | PoolPeer.v | none (closed under the global context) |
| verack_and_ping_answered | PoolPeer.v | none (closed under the global context) |
| headers_outcomes | PoolPeer.v | none (closed under the global context) |
| pong_ends_wait | PoolExamples.v | none (closed under the global context) |
| all_asked_for_headers_refuted | PoolExamples.v | none (closed under the global context) |
| connection_steps | PoolPeer.v | none (closed under the global context) |
| unconnected_peer_not_heard | PoolPeer.v | none (closed under the global context) |
| respond_exact | RsTheorems.v | none (closed under the global context) |
| unsigned_replied | RsTheorems.v | none (closed under the global context) |
| respond_wire | RsTheorems.v | none (closed under the global context) |
| authentic_only | RsTheorems.v | none (closed under the global context) |
| respond_content_partial | RsTheorems.v | none (closed under the global context) |
| rs_never_fails | RsRun.v | none (closed under the global context) |
| every_request_lives | RsRun.v | none (closed under the global context) |
| closed_all_over | RsRun.v | none (closed under the global context) |
| at_rest_all_over | RsRun.v | none (closed under the global context) |
| recv_exact | RsRun.v | none (closed under the global context) |
| not_running_refuses | RsRun.v | none (closed under the global context) |
| delivery_recorded | RsRun.v | none (closed under the global context) |
| sha256_exact | Sha256Theorems.v | none (closed under the global context) |
| hash_sha256_exact | Sha256Theorems.v | none (closed under the global context) |
| hash_hash256_exact | Sha256Theorems.v | none (closed under the global context) |
| hmac_exact | Sha256Theorems.v | none (closed under the global context) |
| hkdf_exact | Sha256Theorems.v | none (closed under the global context) |
| blake2b_exact | Blake2bTheorems.v | none (closed under the global context) |
| begin_refused | Blake2bTheorems.v | none (closed under the global context) |
| key_wanted | Blake2bTheorems.v | none (closed under the global context) |
| blake2b_call | Blake2bTheorems.v | none (closed under the global context) |
| hash_blake_exact | Blake2bTheorems.v | none (closed under the global context) |
| hash_key_exact | Blake2bTheorems.v | none (closed under the global context) |
| sha3_exact | Sha3Theorems.v | none (closed under the global context) |
| keccak_exact | Sha3Theorems.v | none (closed under the global context) |
| hash_sha3_exact | Sha3Theorems.v | none (closed under the global context) |
| hash_name_exact | Sha3Theorems.v | none (closed under the global context) |
| hash_sha3_key_exact | Sha3Theorems.v | none (closed under the global context) |
| chacha20_exact | ChaChaTheorems.v | none (closed under the global context) |
| counter_exact | ChaChaTheorems.v | none (closed under the global context) |
| chacha20_involutive | ChaChaTheorems.v | none (closed under the global context) |
| poly1305_exact | PolyTheorems.v | none (closed under the global context) |
| poly_auth_exact | PolyTheorems.v | none (closed under the global context) |
| poly_verify_exact | PolyTheorems.v | none (closed under the global context) |
| poly1305_tag | PolyTheorems.v | none (closed under the global context) |
| seal_exact | AeadTheorems.v | none (closed under the global context) |
| unseal_exact | AeadTheorems.v | none (closed under the global context) |
| auth_exact | AeadTheorems.v | none (closed under the global context) |
| late_aad_aborts | AeadTheorems.v | none (closed under the global context) |
| unseal_sealed | AeadTheorems.v | none (closed under the global context) |
| aead_verify_exact | AeadTheorems.v | none (closed under the global context) |
| cs_encrypt_seals | AeadTheorems.v | none (closed under the global context) |
| cs_decrypt_unseals | AeadTheorems.v | none (closed under the global context) |
| delivery_real | AeadTheorems.v | none (closed under the global context) |
| tampering_real | AeadTheorems.v | none (closed under the global context) |
| command_line_exact | OptTheorems.v | none (closed under the global context) |
| accepted_options | OptTheorems.v | none (closed under the global context) |
| long_names_found | OptTheorems.v | none (closed under the global context) |
| long_find_exact | OptTheorems.v | none (closed under the global context) |
| unknown_long_option_refuted | OptTheorems.v | none (closed under the global context) |
| release_undefined_iff_key | OptTheorems.v | none (closed under the global context) |
| ipv6_scope_unset_refuted | OptTheorems.v | none (closed under the global context) |
| release_refuted | OptTheorems.v | none (closed under the global context) |
| failed_start_exact | DaemonTheorems.v | none (closed under the global context) |
| served_exact | DaemonTheorems.v | none (closed under the global context) |
| no_events_harm | DaemonTheorems.v | none (closed under the global context) |
| missing_prefix_refuted | DaemonTheorems.v | none (closed under the global context) |
| failed_part_refuted | DaemonTheorems.v | none (closed under the global context) |
| failed_stop_refuted | DaemonTheorems.v | none (closed under the global context) |
| product_exact | EccTheorems.v | none (closed under the global context) |
| field_exact | EccTheorems.v | none (closed under the global context) |
| reduction_exact | EccTheorems.v | none (closed under the global context) |
| primes | Sha256Spec.v | none (closed under the global context) |
| inverse_exact | EccTheorems.v | none (closed under the global context) |
| order_product_exact | EccTheorems.v | none (closed under the global context) |
| product_without_int128_refuted | EccTheorems.v | none (closed under the global context) |
| public_key_partial | EccTheorems.v | none (closed under the global context) |
| public_key_is_multiple | EccTheorems.v | none (closed under the global context) |
| base_multiple_unique | EccTheorems.v | none (closed under the global context) |
| key_one_refuted | EccTheorems.v | none (closed under the global context) |
| key_order_refuted | EccTheorems.v | none (closed under the global context) |
| signature_partial | EccTheorems.v | none (closed under the global context) |
| signature_is_ecdsa | EccTheorems.v | none (closed under the global context) |
| signature_zero_refuted | EccTheorems.v | none (closed under the global context) |
| signature_one_refuted | EccTheorems.v | none (closed under the global context) |
| signature_unset_refuted | EccTheorems.v | none (closed under the global context) |
| siphash_exact | SipTheorems.v | none (closed under the global context) |
| siphash_number_exact | SipTheorems.v | none (closed under the global context) |
| siphash_number_long_key | SipTheorems.v | none (closed under the global context) |
| siphash_long_refuted | SipTheorems.v | none (closed under the global context) |
| daemon_keys | KeyTheorems.v | none (closed under the global context) |
| daemon_meets_hypotheses | DnssecReal.v | none (closed under the global context) |
| daemon_published | DnssecReal.v | none (closed under the global context) |
| daemon_signature | DnssecReal.v | none (closed under the global context) |
| real_name_answer | HashReal.v | none (closed under the global context) |
| real_answers_agree | HashReal.v | none (closed under the global context) |
| real_honest_accepted | HashReal.v | none (closed under the global context) |
| real_header_hash | HashReal.v | none (closed under the global context) |
| real_header_commits | HashReal.v | none (closed under the global context) |
| real_resolution | HashChain.v | none (closed under the global context) |
| getrandom_exact | EcTheorems.v | none (closed under the global context) |
| fread_exact | EcTheorems.v | none (closed under the global context) |
| read_exact | EcTheorems.v | none (closed under the global context) |
| privkey_exact | EcTheorems.v | none (closed under the global context) |
| privkey_valid | EcTheorems.v | none (closed under the global context) |
| act_one_exact | EcTheorems.v | none (closed under the global context) |
| act_one_random_refuted | EcTheorems.v | none (closed under the global context) |
| random_uniform | EcTheorems.v | none (closed under the global context) |
| nonce_exact | EcTheorems.v | none (closed under the global context) |
| random_windows_partial | EcTheorems.v | none (closed under the global context) |
| random_windows_refuted | EcTheorems.v | none (closed under the global context) |
| strerror_partial | EcTheorems.v | none (closed under the global context) |
| strerror_refuted | EcTheorems.v | none (closed under the global context) |
| table_is_list | RrsTheorems.v | none (closed under the global context) |
| table_released | RrsTheorems.v | none (closed under the global context) |
| unshift_actual | RrsTheorems.v | none (closed under the global context) |
| unshift_refuted | RrsTheorems.v | none (closed under the global context) |
| socket_address_round_trip | SaTheorems.v | none (closed under the global context) |
| address_round_trip | SaTheorems.v | none (closed under the global context) |
| wildcard_to_loopback | SaTheorems.v | none (closed under the global context) |
| resolver_text_partial | SaTheorems.v | none (closed under the global context) |
| stub_names_root_server_partial | SaTheorems.v | none (closed under the global context) |
| resolver_text_injective_partial | SaTheorems.v | none (closed under the global context) |
| stub_onion_refuted | SaTheorems.v | none (closed under the global context) |
| add_by_ip_never | SaTheorems.v | none (closed under the global context) |
| add_by_ip_refuted | SaTheorems.v | none (closed under the global context) |
| socket_text_round_trip_partial | SaTheorems.v | none (closed under the global context) |
| bn_more_arithmetic | BnTextTheorems.v | none (closed under the global context) |
| bn_text_partial | BnTextTheorems.v | none (closed under the global context) |
| bn_text_overruns | BnTextTheorems.v | none (closed under the global context) |
| bn_text_refuted | BnTextTheorems.v | none (closed under the global context) |
| bn_from_text_partial | BnTextTheorems.v | none (closed under the global context) |
| bn_text_round_trip_refuted | BnTextTheorems.v | none (closed under the global context) |
| classes_exactly | ClassTheorems.v | none (closed under the global context) |
| multicast_not_routable_refuted | ClassTheorems.v | none (closed under the global context) |
| progress_in_range_partial | ProgressTheorems.v | none (closed under the global context) |
| progress_in_range_refuted | ProgressTheorems.v | none (closed under the global context) |
| progress_one_refuted | ProgressTheorems.v | none (closed under the global context) |
| progress_young_refuted | ProgressTheorems.v | none (closed under the global context) |
| progress_caught_up_partial | ProgressValue.v | none (closed under the global context) |
