# hnsd in Rocq: design

## Scope and method

The source under study is `/repo/src` (C). It is read as text; nothing is compiled or run.
`/verif/rocq/theories` holds, per area,

* `XxxModel.v`    – executable Gallina model, function by function, each definition citing file:lines;
* `XxxSpec.v`     – a small, independent specification (no reference to the model's helpers);
* `XxxFacts.v`    – lemmas and proofs;
* `XxxTheorems.v` – the property theorems only: statement, `exact lemma`, `Print Assumptions`, and
  `Example`s showing that the hypotheses are met by concrete non-trivial cases.

Conventions

* every C integer is a `Z`; wrap-around (`mod 2^n`) is written explicitly wherever the code can reach it;
* a byte string is `list Z` with the predicate "all elements in [0,256)";
* a C function that can fail an `assert`, read/write out of bounds, free twice, ... returns an
  outcome type in which these are *distinct* results (`Abort`, `Ub`), never assumed away;
* hash functions, AEAD, ECDH, signatures, random numbers, clocks are explicit parameters
  (section variables discharged into the theorem statements). No `Axiom` is used.
* collision resistance is never "assumed": theorems that need it take the hypothesis
  "no two different strings *among the finite list of strings actually hashed in this run*
  have the same digest", which is meaningful for real 32-byte hashes.
* a claim that the faithful model violates is stated and refuted (`..._refuted`, with witness), and the
  strongest true part is proved (`..._partial`). Refutations are listed under Findings.

## Plan per property

| id | modelled | proof idea |
|----|----------|-----------|
| C01 | proof-radix.c read/verify/hash functions, H a parameter | spec: radix tree, its hash, lookup; induction on the node list/tree depth |
| C02 | same | spec prover on the tree; induction on tree |
| C03 | same | simultaneous induction on the two node lists from the root side |
| C04 | hsk_proof_read on byte lists | case analysis; encoder in the spec; asserts are outcomes |
| C05 | header.c read/write | little-endian codec lemmas |
| C06 | header.c pre/sub encode + hash | injectivity of concatenations of fixed-width fields |
| C07 | hsk_pow_to_target/to_bits (with the 5-bit shift mask) | arithmetic on powers of 256 |
| C08 | bn.c limb loops over 16 32-bit limbs | value function on limb lists, loop invariants |
| C09 | get_proof, calc_work on top of bn | arithmetic; chain sum by induction |
| C10 | verify_pow | big-endian compare = integer compare |
| C11-C15 | chain.c as a state machine (maps as finite maps) | invariant by induction over operations |
| C16 | retarget / get_target / suitable_block | arithmetic; case analysis |
| C17 | safe_root | from the index invariant |
| C18 | get_locator loop | loop invariant + doubling argument |
| C19 | handle_headers | list induction |
| C20 | store.c encode/inject | codec lemmas |
| C21 | store.c write as a sequence of file-system steps with crash points | case analysis on crash point |
| C22 | chain_save flush condition | from the index invariant |
| C23 | chain.c with assertion outcomes | from-genesis part proved; from-checkpoint part refuted by witness |
| C24 | timedata.c | sortedness invariant; median |
| C25 | map.c (khash) bit-level tables | probe-sequence coverage, refinement to association function |
| C26,C27 | cache.c | invariant over operations; key analysis |
| C28,C29 | dns.c name parse/serialize | fuel-free recursion on jumps; round trip |
| C30,C31 | dns.c message codec, truncate | codec lemmas |
| C32-C34 | req.c, dns_msg_clean | case analysis |
| C35,C36 | resource.c decode | outcome model; refutation witnesses; round trip |
| C37-C40 | resource_to_dns, ns.c decision logic | case analysis |
| C41 | pool.c request life-cycle | multiset invariant over operations |
| C42 | peer_on_read framing | confluence of chunked state machine |
| C43,C44 | msg.c, bio.h | codec lemmas; refutation of the end-of-buffer check |
| C45-C48 | brontide.c with abstract AEAD/DH | simulation of sender/receiver; induction over writes |
| C49,C50 | addrmgr.c with random oracle | invariant over operations |
| C51,C52 | base32.c, utils.c hex | 5-byte-group induction |
| C53 | utils.c date | calendar spec, arithmetic |
| C54 | sig0.c with abstract signature | byte-list lemmas |
| C55 | rs_worker.c as two-thread transition system | invariant over all interleavings |
| C56 | pool_set_seeds | list lemmas; refutation |
| C57 | aead.c around the cipher and MAC | the layout of RFC 8439 written independently |
| C58 | brontide.c buffering | the state after any split of the bytes is the same |
| C59 | dnssec.c, dns.c sighash/sort/keytag/DS | canonical form of RFC 4034 written independently |
| C60 | hesiod.c | exact list of facts per name |
| C61 | ns.c table lookup | binary search on an ordered table, the order of the built-in names by computation |
| C62 | chain.c sync flag | invariant over operations |
| C63,C64 | addr.c text, blocks, equality | grammar of the text; block membership on bytes |
| C65,C66 | addrmgr.c entries and bans | exact effect of each call |
| C67 | seeds.h, handle_addr | computation over the built-in list; exact rule for told addresses |
| C68-C72 | pool.c peers, timer, messages, connections | exact effect per event; invariant over event sequences |
| C73 | rs.c replies over dns.c and req.c | exact relation between answer and reply; flag bits |
| C74 | rs.c composed with the model of rs_worker.c | invariant over all interleavings; each request's events form one life |
| C75 | sha256.c, HMAC and HKDF of hash.c, with the buffer and its word masking | refinement to FIPS 180-4, RFC 2104 and 5869 written with lists; constants computed from primes; induction over chunks |
| C76 | blake2b.c and the BLAKE2b functions of hash.c, with the lazily emptied buffer, keys and refusals | refinement to RFC 7693 (its message schedule, counter and final flag); induction over chunks |
| C77 | sha3.c, hsk_hash_sha3, hsk_hash_sha3_key and hsk_hash_name | refinement to FIPS 202 written on bit strings (offsets and round constants computed as the standard does) and to KMAC256 of SP 800-185; induction over chunks |
| C78 | chacha20.c: key, nonce and counter set-up, block, encrypt with its left-over keystream | refinement to RFC 8439 2.1-2.4 written with lists; invariant of the position in the stream; induction over pieces |
| C79 | poly1305.c and poly1305-64.h with 64- and 128-bit wrap-around | refinement to arithmetic modulo 2^130 - 5 (RFC 8439 2.5): bounds on the limbs, value of the limbs modulo p as invariant; induction over pieces |
| C80 | aead.c over the models of C78 and C79 | refinement to RFC 8439 2.8 with pieces by induction; the cipher state of brontide.c equals it, and C45/C47 are instantiated with the published functions |
| C81 | the options of daemon.c: defaults, each option with its check, the release; the search for a long name | exact meaning of any sequence of options by induction (the first refusal decides, otherwise the last argument counts); refutations for the release with a key, the unended table and the unset scope |
| C82 | daemon.c from main to the exit, signals.c, and the making, opening, closing and freeing of the parts in pool.c, ns.c, rs.c and rs_worker.c; each call that can fail asks an oracle | exact result for the first failing call by case analysis per stage; for a daemon that started, induction over all event sequences through four phases |
| C83 | the multi-digit arithmetic of ecc.c (four 64-bit digits), with 128-bit integers and without | carry invariants per column; the reduction as an identity modulo p with bounds; binary extended gcd with the invariant u = x a; primality by Fermat and Pocklington with checked certificates (`tools/ecccert.py` writes EccCert.v) |
| C84 | ecc.c from the Jacobian doubling to hsk_ecc_make_pubkey | the ladder keeps (m P, (m+1) P) up to a common scale; addition law of the specification on affine points; the cubic has no root (cube argument), so no point of order two. Partial: exact for every key, relative to the existence of the multiple (that the base point has order n is not proved); key 1, n and n - 1 refuted |
| C85 | hsk_ecc_sign with the source of random numbers as a list of numbers and failures | refinement to the ECDSA equations over C83 and C84, induction over the tries. Partial for the same reason; numbers 0, 1 and n refuted |
| C86 | siphash.c, all functions | equality with the published function (words of the padded message, rotations as arithmetic) by induction over the blocks and over the tail. Partial: false from 2^35 bytes on, where the 32-bit counter of blocks wraps |
| C87 | the open functions of the signing model (C59) filled in with the models of SHA-256 (C75) and ECDSA (C84, C85) and with the keys of dnssec.h | composition of C59, C75, C85; the two public keys by a checked certificate of the ladder (slopes and quotients from `tools/keycert.py` in KeyCert.v, checker and its soundness in KeySteps.v and KeyTheorems.v). qsort stays a parameter that sorts; the source of random numbers is an arbitrary list per key and hash |
| C88 | the open hash functions of the proof (C01–C04), header (C06, C10) and chain (C11–C17) models filled in with the models of blake2b.c, sha3.c and hash.c (C76, C77) | composition; the abstract collision-freeness of C01 becomes an explicit disjunct: a pair of different strings with one digest in the named finite list of strings hashed (the bare existence of a collision would say nothing, by counting). HashReal.v has names and headers, HashChain.v the chain. The model computes the genuine hash of the first block of the main network and of regtest, and accepts a block with real work on regtest |
| C89 | random.c (getrandom, fread and read variants), hsk_ec_create_privkey, the draws of the handshake, hsk_random and hsk_nonce, hsk_strerror | induction over the reads and the draws; bit arithmetic. Refuted: a failing draw of entropy in the handshake sends 64 uninitialised bytes, and a failing draw of the key aborts (`act_one_random_refuted`); 15-bit `rand` never sets bits 15 and 31 (`random_windows_refuted`); two error texts are misspelt (`strerror_refuted`) |
| C90 | the record and text tables of dns.c, with slots, bounds, asserts and frees | refinement to lists by induction over the calls and the copying loops. Refuted: insertion at the front (`unshift_refuted`, exact effect in `unshift_actual`) |
| C91 | the socket address conversions, the loopback for the wildcard and the `ip@port` text of addr.c, and their use in rs.c, ns.c and addrmgr.c | case analysis on the family and the mapped prefix, over the text theorems of C63. Refuted: Tor addresses (`stub_onion_refuted`), addresses given as bytes (`add_by_ip_refuted`) |
| C92 | hsk_bn_mod, and, xor, neg and hsk_bn_to_string with its memory | bit by bit and limb by limb, induction over the limbs; the text by induction over the writing loop. Refuted: memory of the given size (`bn_text_overruns`), the text of 0 and of cut numbers (`bn_text_refuted`), reading back (`bn_text_round_trip_refuted`; exact reading in `bn_from_text_partial`) |
| C93 | the five address classes of addr.c that nothing calls | byte by byte against the blocks of C64. Refuted: multicast is not routable (`multicast_not_routable_refuted`) |
| C94 | hsk_chain_progress with 32-bit floats (`SpecFloat` of the standard library, no axioms) | mantissa and exponent through shifting and rounding; case analysis of the division; rounding keeps the order, so a tip of at most 40 minutes gives 1 (`progress_caught_up_partial`). Refuted: always a number (`progress_in_range_refuted`), 1 only for a young tip (`progress_one_refuted`), 1 for every young tip (`progress_young_refuted`) |

Properties are numbered as in `properties.jsonl`.

## Trusted base

* Coq 8.16.1's kernel (with its `vm_compute`), and the meaning of the statements.
* No axioms: `Print Assumptions` answers "Closed under the global context" for every theorem named in
  MANIFEST.json. `ASSUMPTIONS.md` lists the answer for each (written by `tools/assumptions.py`).
* The model is a hand translation of the C text. Nothing checks it against a compiler. The comments cite
  the lines; simplifications are stated there. The general ones are:
  * memory is modelled where the code's safety is at stake (buffers with sizes, table slots, nodes of the
    queues of the resolver thread, slots of the hash table); elsewhere values are immutable records;
  * `char` is signed, `int` has 32 bits, `size_t` has 64 bits; POSIX unless Windows is named;
  * the C library (string functions, malloc, strtol, inet_pton, localtime), libuv and libunbound appear
    through their documented results. malloc failure is modelled where a comment says so;
  * logging is not modelled.
* Parameters of the theorems (so: any function): Blake2b, SHA-3, SHA-256, the cipher and the MAC, elliptic
  curve operations and ECDSA, random numbers, the clock, the hash seed, libuv's results.

## What is modelled

| source | modelled | not modelled |
|--------|----------|--------------|
| proof-radix.c (proof.c) | all | the trie variant proof-trie.c, which the build does not select |
| header.c, bn.c | all, with limbs and wrap-around; text of big numbers (C92) | none |
| chain.c, store.c, timedata.c | all: add, orphans, reorganisation, retarget, locator, save, load, sync flag, progress (C94) | logging |
| msg.c, bio.h | all message readers, writers and sizes | |
| pool.c | peers, requests, timer, framing, handlers, dialling | the unused resend and merge functions; encoding of log lines |
| addr.c, addrmgr.c, seeds.h | all that is called; socket addresses and the `ip@port` text (C91), unused classes (C93) | other families of sockaddr |
| brontide.c | all, with abstract curve, cipher and hash; cipher and hash instantiated in C80 | the curve |
| aead.c | all (C80) | |
| map.c | all table operations, murmur3 | the unused `each` macros |
| dns.c | names, messages, records, truncation, cleaning, sighash, keytag, DS, NSEC bitmaps | printing of records |
| req.c, sig0.c, resource.c, dnssec.c, cache.c, hesiod.c | all that is called | |
| ns.c | datagram handling, answers, cache use, results of lookups; set up and end (C82) | |
| rs_worker.c | all | libunbound itself |
| base32.c, utils.c | codecs, dates | paths, logging |
| rs.c | datagrams, replies, completion, open, close | configuration of libunbound |
| daemon.c, signals.c | options (C81), life of the parts (C82) | getopt_long itself, help text, log file, detaching |
| random.c, error.c | all but the macOS and Windows calls (C89) | |
| sha256.c, HMAC and HKDF of hash.c | all, for a little endian machine | clearing of memory |
| blake2b.c, sha3.c, and all of hash.c | all, for a little endian machine | clearing of memory |
| chacha20.c | all | keys of 16 bytes not in the theorems |
| poly1305.c, poly1305-64.h | all but the self test | the other word sizes are not selected on 64-bit targets |
| ecc.c | arithmetic, public key, signature | hsk_ecc_make_key, compressed keys, ECDH and verification (not used by the daemon); clearing of memory |
| siphash.c | all | nothing (the daemon does not call it) |
| ec.c | hsk_ec_create_privkey and the draw in hsk_ec_pubkey_to_hash (C89) | the calls of libsecp256k1, which stay parameters |

## Findings

Each was found by trying to prove the claim. Where a theorem is named the finding is proved on the model.

Remote or local crashes and memory errors
* An `addr`, `getheaders` or `headers` message with an empty payload reads past the buffer (`empty_payload_refuted`; bio.h read_varint).
* A query for `_a.x` aborts in the cache key (`query_crash_refuted`). A name of 56 or more characters below `_synth` overruns `synth[64]`, a 28-digit pointer writes 17 bytes into `ip[16]`, and an NS query of the root aborts when no address is set.
* A resource with more than 255 records writes past its table (`table_overflow_refuted`); a cut TXT record is freed twice (`double_free_refuted`).
* A write that fails while a proof is requested completes the lookup twice (`failed_lookup_not_called_refuted`).
* A fork near the checkpoint aborts (`add_never_aborts_refuted`).
* A peer added while the map has no memory aborts at its removal (`peer_removed_without_map_refuted`).
* Extreme peer times overflow an int (`sample_overflow_refuted`). The attempts counter of an address overflows (`attempts_never_overflow_refuted`).
* A responder aborts on a key off the curve (`responder_key_abort_refuted`); an invalid encoding is used uninitialised (`invalid_encoding_refuted`).
* `hsk_rs_worker_resolve` does not test malloc (`resolve_without_memory_refuted`); `hsk_rs_worker_init` frees an unset pointer when it fails (`init_failure_frees_garbage_refuted`).
* Calls with effects sit inside `assert` (BLAKE2b contexts in hash.c, header.c and proof-radix.c; keys and ECDH in brontide.c; seeds in addrmgr.c; the genesis block in chain.c): a build with NDEBUG would skip them.
* With `-k` the clean exit frees a pointer into the options structure (`release_refuted`, exactly then: `release_undefined_iff_key`). The table of long options has no last entry, so an unknown long option is searched past its end (`unknown_long_option_refuted`). The scope of an IPv6 host given by an option is never written (`ipv6_scope_unset_refuted`).
* A start that fails before the timer of the pool is set up (missing or too long prefix, bad checkpoint) stops a NULL timer (`missing_prefix_refuted`); failures of the first signal handle, of the pool's curve or of its agent use memory that was never written, a failed uv_udp_init closes a handle that is none (`failed_part_refuted`; the full table is `fate_of`, exact by `failed_start_exact`). A handle that cannot be stopped is used after its owner is freed (`failed_stop_refuted`). hsk_signals_uninit clears sigterm twice and sigint never. A failed hsk_daemon_init leaves its closed handles unfreed.
* store.c:58 prints a path into itself. handle_version may write one byte past `agent[255]`. hsk_bn division by zero never returns (`bn_division_by_zero_never_returns`).

Wrong behaviour
* An honest peer is banned when a bad orphan child of its header is stored (`rejected_header_changes_nothing_refuted`). Of two orphans of one parent only one is connected (`orphans_bounded_and_connected_refuted`).
* Compact targets with exponent 35 or more are accepted modulo 32 (`compact_overflow_rejected_refuted`). `hsk_bn_rshift` is wrong (unused) (`bn_right_shift_refuted`).
* The time offset loses its sign and samples are lost (`clock_moves_toward_peers_refuted`, `offset_is_median_refuted`).
* Replacing the checkpoint on Windows is not atomic (`checkpoint_replacement_windows_refuted`); there is no fsync.
* The cache ignores the class (`class_refuted`); letter case can lose addresses (`letter_case_refuted`). Cached TTLs do not decrease.
* Truncation never sets TC (`truncate_flag_refuted`). Names with a leading dot are accepted, bytes 0xfe/0xff are replaced, more than ten pointers are not read back (`leading_dot_refuted`, `stand_in_refuted`, `long_chain_refuted`). An OPT record is not counted for extended codes without EDNS (`extended_code_refuted`).
* A question with unusual characters is answered for `.` (`dirty_question_refuted`). Empty answers are not authoritative (`empty_authoritative_refuted`). Glue with such a name is owned by `.` (`glue_owner_refuted`). `_synth` answers for AAAA claim type 24 (`synth_bitmap_refuted`). RP names are not lowered before signing (`rp_canonical_refuted`).
* A lookup with no peer waits for ever (`pending_lookup_never_answered`); lookups chained under a changed root destroy an honest peer (`asked_proof_accepted_refuted`); a peer that is not connected can be chosen (`lookup_on_connected_peer_refuted`); a half-open brontide handshake never times out (`half_open_peer_kept`); the request for headers stops at the first peer whose write fails (`all_asked_for_headers_refuted`); a closed peer goes on handling (`closed_peer_keeps_handling_refuted`); a write before the handshake reports success (`early_write_refuted`).
* Bans are ignored in the last five of a hundred tries (`picked_not_banned_refuted`). Only 127.0/16 counts as loopback (`loopback_not_routable_refuted`). Onion text does not read back (`onion_text_round_trip_refuted`). An entry time in the future counts as stale (`fresh_not_stale_refuted`). The same slot can be lost without memory (`one_slot_per_address_refuted`).
* A bad seed is joined with the next one (`good_seeds_added_refuted`, `repeated_seed_harmless_refuted`).
* Sizes of messages with 253 or more entries are under-counted (`frame_large_refuted`, `varint_size_refuted`); proof messages are written without the proof (`proof_message_written_without_proof_refuted`).
* ecc.c: without 128-bit integers a carry is lost and products are wrong (`product_without_int128_refuted`). The private key 1 gives three times the base point (`key_one_refuted`), the key n is accepted and gives twice the base point (`key_order_refuted`), the key n - 1 is refused. A random number n gives a signature with s = 0 and success (`signature_zero_refuted`), 1 gives the r of three times the base point (`signature_one_refuted`), 0 as the first one reads a coordinate that was never written (`signature_unset_refuted`). All are out of reach in practice (chance about 2^-256), except the products on machines without 128-bit integers.
* siphash.c: the number of blocks is cut to 32 bits, so all messages of 2^35 bytes have the same hash under every key (`siphash_long_refuted`). The daemon does not call it.
* A request refused by libunbound leaks in the worker (`refused_request_leaks`). A completion without a result gets no reply at all (the client waits; `every_request_lives`, case l_over). Serial numbers go back after 2038 (`serial_monotone_after_2038_refuted`). The own name of a peer fact is told nothing (`peer_alone_refuted`).
* A failing draw of random bytes in the handshake is ignored by `hsk_ec_pubkey_to_hash`'s caller, so 64 uninitialised stack bytes go to the peer; a failing draw of the ephemeral key aborts the daemon (`act_one_random_refuted`).
* `random()` is never seeded (there is no call of `srandom` in the source): on Linux every run draws the same nonces and makes the same random choices. With the 15-bit `rand` of Windows, bits 15 and 31 of `hsk_random` are never set, against the comment there (`random_windows_refuted`).
* `hsk_dns_rrs_unshift` and `hsk_dns_txts_unshift` never put the record in front: all members become the first one, the new record is lost behind the end, releasing the table frees the first member twice (or fails an assertion if the table was empty), and with 254 members the record is written behind the table (`unshift_actual`, `unshift_refuted`). The daemon does not call them.
* `hsk_bn_from_string` reads eight digits at a time from the end and ignores what is left in front: "beef" is 0, and the text of `hsk_bn_to_string` is not read back (`bn_text_round_trip_refuted`).
* `hsk_bn_to_string` writes a 0 behind memory of the size it is given, for every size up to 128 (`bn_text_overruns`); it prints 0 as the empty string and cuts the lower digits when the size is smaller (`bn_text_refuted`). Nothing in the daemon calls it.
* `hsk_addr_from_ip` (addr.c:264-280) ends in `return false` on every path, so `hsk_addrman_add_ip` never adds an address (`add_by_ip_never`, `add_by_ip_refuted`). Nothing in the daemon calls it.
* `hsk_addr_is_routable` (addr.c:898-933) never asks `hsk_addr_is_multicast`: 224.0.0.1 and ff02::1 count as routable, so they are accepted from peers and may be dialled (`multicast_not_routable_refuted`).
* `hsk_chain_progress` (chain.c:266-277) divides 0 by 0 if the tip is the genesis block and the clock shows exactly 40 minutes after it; before that second its end wraps around and a chain with the newest block shows a progress near 0; seconds are lost in the float, so a tip of more than 40 minutes can show 1 (`progress_in_range_refuted`, `progress_young_refuted`, `progress_one_refuted`).
* `hsk_addr_to_at` writes a Tor address (fd87:d87e:eb43::/48) as bytes 12 to 27 of the field: a recursive server whose root server has such an address tells the resolver to ask another host (`stub_onion_refuted`).
* The texts of HSK_EDUPLICATEORPHAN and HSK_EBADDIFFBITS are misspelt (`strerror_refuted`).

## Testing the theorems

`tools/mutate.py` applies an edit to a copy of the model, rebuilds and reports which files fail.
`seeded/LOG.jsonl` has one line per edit: the definition, the edit, the claim it breaks, what failed and
what was tightened as a result.
