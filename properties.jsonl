{"id": "C01", "title": "Partial transcript reveals exactly the selected bytes", "statement": "Turning a transcript into a partial transcript for a pair of in-bounds index sets yields data of the same length per direction, in which every selected byte equals the original byte and every other byte is zero, with the authenticated indices equal to the selection. The result depends only on the selected bytes: two transcripts of equal lengths that agree on the selection give identical partial transcripts, so nothing about redacted bytes leaks.", "quantifier": "all transcripts (any content and length), all pairs of index sets", "why_tests_cant": "Tests fix a few transcripts and ranges; non-leakage compares pairs of transcripts over every selection.", "anchors": ["crates/core/src/transcript.rs: Transcript::to_partial", "crates/core/src/transcript.rs: PartialTranscript"]}
{"id": "C02", "title": "Partial transcript compression is lossless", "statement": "Serializing a partial transcript (compressing it to the authenticated bytes plus indices) and deserializing it gives back a transcript with the same lengths, the same authenticated indices and the same authenticated bytes, and zeros in every unauthenticated position; transcripts whose hidden bytes are zero round trip exactly.", "quantifier": "all well-formed partial transcripts", "why_tests_cant": "Lossless round trip has to hold for every index layout, including empty, adjacent and full ranges.", "anchors": ["crates/core/src/transcript.rs: From<PartialTranscript> for CompressedPartialTranscript", "crates/core/src/transcript.rs: From<CompressedPartialTranscript> for PartialTranscript"]}
{"id": "C03", "title": "Untrusted serialized partial transcripts cannot crash or corrupt the verifier", "statement": "A compressed partial transcript received from a peer is accepted exactly when its data lengths match its indices and its indices lie inside the declared lengths; every accepted one expands without panicking into a well-formed partial transcript, and every rejected one yields an error rather than a panic.", "quantifier": "all compressed transcripts, honest or adversarial", "why_tests_cant": "Adversarial inputs are unbounded; tests only try a few malformed ones.", "anchors": ["crates/core/src/transcript.rs: validation::CompressedPartialTranscriptUnchecked::try_from"]}
{"id": "C04", "title": "Index lookup returns exactly the indexed bytes", "statement": "Reading a subsequence of a transcript returns nothing when the index reaches past the end of that direction; otherwise it returns precisely the bytes at the indexed positions, in increasing order of position, and writing that subsequence back at its index restores the same bytes and touches no other position.", "quantifier": "all transcripts, directions and index sets", "why_tests_cant": "Order and exactness must hold for every multi-range index.", "anchors": ["crates/core/src/transcript.rs: Transcript::get", "crates/core/src/transcript.rs: Subsequence::new", "crates/core/src/transcript.rs: Subsequence::copy_to"]}
{"id": "C05", "title": "Merging partial transcripts keeps every authenticated byte", "statement": "Merging a second partial transcript of the same lengths into a first leaves every byte authenticated by the first unchanged, takes every byte authenticated only by the second from the second, leaves every other byte unchanged, and authenticates exactly the union; merging is idempotent, and commutative and associative when the transcripts come from the same plaintext. Merging transcripts of different lengths is refused (panic).", "quantifier": "all pairs and triples of well-formed partial transcripts", "why_tests_cant": "Algebraic laws quantify over all interleavings of ranges.", "anchors": ["crates/core/src/transcript.rs: PartialTranscript::union_transcript", "crates/core/src/transcript.rs: PartialTranscript::union_subsequence"]}
{"id": "C06", "title": "Filling hidden bytes never alters authenticated bytes", "statement": "Setting the unauthenticated bytes of a partial transcript (globally or within a range) changes exactly the unauthenticated positions (within the range) to the chosen value, leaves all authenticated bytes and the authenticated indices untouched, and never makes an incomplete transcript complete.", "quantifier": "all partial transcripts, fill values, directions and ranges", "why_tests_cant": "A single aliasing mistake between ranges would corrupt authenticated data for some layout not in tests.", "anchors": ["crates/core/src/transcript.rs: PartialTranscript::set_unauthed", "crates/core/src/transcript.rs: PartialTranscript::set_unauthed_range", "crates/core/src/transcript.rs: PartialTranscript::is_complete"]}
{"id": "C07", "title": "Commitment configuration never references data outside the transcript", "statement": "Whatever sequence of commit calls is made on a commitment configuration builder, every index in the finished configuration lies inside the transcript of its direction, every accepted call's index appears with its kind, repeated identical calls appear once, a rejected call leaves the configuration unchanged, and the wire request lists exactly the configured commitments.", "quantifier": "all transcripts and all finite sequences of builder calls", "why_tests_cant": "Quantifies over call histories.", "anchors": ["crates/core/src/transcript/commit.rs: TranscriptCommitConfigBuilder", "crates/core/src/transcript/commit.rs: TranscriptCommitConfig::to_request"]}
{"id": "C08", "title": "Only committed data can be revealed, and reveal is cumulative", "statement": "In the transcript proof builder, a reveal call succeeds only if the range lies inside the transcript and inside the union of committed indices of that direction; a failed call leaves the builder unchanged; the final proof's authenticated indices are exactly the union of the ranges of the successful calls.", "quantifier": "all transcripts, commitment secrets and sequences of reveal calls", "why_tests_cant": "Quantifies over call histories and index layouts.", "anchors": ["crates/core/src/transcript/proof.rs: TranscriptProofBuilder::new", "crates/core/src/transcript/proof.rs: TranscriptProofBuilder::reveal", "crates/core/src/transcript/proof.rs: TranscriptProofBuilder::build"]}
{"id": "C09", "title": "Transcript proof soundness", "statement": "If a transcript proof verifies against a connection length and a set of attested commitments that were honestly computed over a real transcript, then the transcript lengths agree with the connection and every authenticated byte of the returned partial transcript equals the corresponding byte of the real transcript, unless two different (message, blinder) strings with the same hash under some supported algorithm have been exhibited.", "quantifier": "all proofs (adversarial), all commitment sets, all hash providers", "why_tests_cant": "Soundness is about every adversarial proof; no test enumerates forgeries.", "anchors": ["crates/core/src/transcript/proof.rs: TranscriptProof::verify_with_provider", "crates/core/src/transcript/hash.rs: hash_plaintext"]}
{"id": "C10", "title": "A verified proof authenticates exactly what its commitments cover", "statement": "Verification accepts only if the authenticated indices of each direction are exactly the union of the indices of the opened commitments of that direction, each opened commitment is among the attested ones (direction, index, algorithm and hash all equal), every index is in bounds and both lengths match the connection information; any violation gives an error, never a panic.", "quantifier": "all proofs, lengths and attested commitment lists", "why_tests_cant": "Needs every index layout and malformed proof.", "anchors": ["crates/core/src/transcript/proof.rs: TranscriptProof::verify_with_provider"]}
{"id": "C11", "title": "Honest transcript proofs verify", "statement": "Whenever the proof builder succeeds on a transcript and secrets whose commitments were computed honestly, the resulting proof verifies against those commitments and the transcript's length, and the returned transcript shows exactly the revealed bytes (for transcripts shorter than 4 GiB per direction).", "quantifier": "all transcripts, secrets, reveal sequences, commitment-kind preferences", "why_tests_cant": "Completeness across all cover selections cannot be sampled.", "anchors": ["crates/core/src/transcript/proof.rs: TranscriptProofBuilder::build", "crates/core/src/transcript/proof.rs: TranscriptProof::verify_with_provider"]}
{"id": "C12", "title": "Reveal succeeds whenever the commitments cover the query", "statement": "If the revealed ranges are a union of committed indices of the default commitment kinds, building the proof succeeds.", "quantifier": "all transcripts, mixed-algorithm commitment sets and queries", "why_tests_cant": "Failure needs overlapping commitments in different algorithms, a corner not in tests.", "anchors": ["crates/core/src/transcript/proof.rs: TranscriptProofBuilder::build"]}
{"id": "C13", "title": "Merkle inclusion proofs are complete", "statement": "For every tree and every non-empty strictly increasing list of in-range leaf indices, the generated inclusion proof verifies against the tree's root with the corresponding leaves given in any order; requests with unsorted, duplicate or out-of-range indices are refused.", "quantifier": "all trees of any size, all index subsets, all leaf orders", "why_tests_cant": "Sizes and index subsets are unbounded; unbalanced trees have special cases.", "anchors": ["crates/core/src/merkle.rs: MerkleTree::proof", "crates/core/src/merkle.rs: MerkleProof::verify"]}
{"id": "C14", "title": "Merkle inclusion proofs are sound", "statement": "If an inclusion proof verifies against the root of a tree with the same leaf count, then each claimed (index, leaf) pair is the actual leaf at that index, unless a hash collision is exhibited; a claim with a repeated index is always rejected.", "quantifier": "all trees, all adversarial proofs", "why_tests_cant": "Soundness quantifies over adversarial proofs.", "anchors": ["crates/core/src/merkle.rs: MerkleProof::verify"]}
{"id": "C15", "title": "Attestation fields are uniquely numbered and all bound to the root", "statement": "Every attestation body built by the notary numbers its fields 0,1,2,… without gaps or repeats, and two bodies with the same number of fields and the same root have identical fields, unless a hash or serialization-domain collision is exhibited.", "quantifier": "all request/config combinations, any number of extensions and commitments", "why_tests_cant": "Covers every number of fields and every pair of bodies.", "anchors": ["crates/attestation/src/builder.rs: AttestationBuilder::build", "crates/attestation/src/lib.rs: Body::root", "crates/attestation/src/lib.rs: FieldId::next"]}
{"id": "C16", "title": "Presentation soundness", "statement": "If a presentation verifies, then its header was signed by the verifying key contained in its body, and every body field it presents is the field at that position in the body whose root was signed (or a collision is exhibited); the reported server name, when present, matches the certificate commitment in the attested body, and the reported transcript verifies against the attested commitments and length.", "quantifier": "all presentations (adversarial)", "why_tests_cant": "Adversarial inputs are unbounded.", "anchors": ["crates/attestation/src/presentation.rs: Presentation::verify", "crates/attestation/src/proof.rs: AttestationProof::verify", "crates/attestation/src/proof.rs: BodyProof::verify_with_provider"]}
{"id": "C17", "title": "Honest presentations verify", "statement": "For every attestation built by the notary from an accepted request, the holder's presentation verifies and reports the connection info, server name, transcript and extensions that were attested.", "quantifier": "all honest attestations, any subset of optional parts", "why_tests_cant": "Completeness across all field counts and selections.", "anchors": ["crates/attestation/src/presentation.rs: PresentationBuilder", "crates/attestation/src/proof.rs: AttestationProof::new"]}
{"id": "C18", "title": "Request validation accepts only the requested attestation", "statement": "An attestation passes the requester's validation only if it uses the requested signature and hash algorithms, contains the requested certificate commitment and every requested extension, and its body is the one covered by the notary's signature.", "quantifier": "all requests and attestations", "why_tests_cant": "An attacker in the middle can supply any attestation.", "anchors": ["crates/attestation/src/request.rs: Request::validate"]}
{"id": "C19", "title": "Server identity cannot be swapped", "statement": "A server identity proof verifies only for the certificate data that was committed (or a hash collision is exhibited), and connection verification accepts only when the ephemeral key equals the one used in the connection, the chain is non-empty and valid for the name at the connection time, and the leaf key signed client random, server random and key-exchange parameters.", "quantifier": "all identity proofs and handshake data", "why_tests_cant": "Adversarial openings are unbounded.", "anchors": ["crates/attestation/src/connection.rs: ServerIdentityProof::verify_with_provider", "crates/core/src/connection.rs: HandshakeData::verify"]}
{"id": "C20", "title": "Custom algorithm identifiers cannot shadow built-in ones", "statement": "Creating a custom hash, key or signature algorithm identifier below 128 is refused, so a registered custom algorithm never replaces a built-in identifier, and a provider returns exactly the algorithm last registered for an identifier.", "quantifier": "all identifiers and registration histories", "why_tests_cant": "Quantifies over histories of registrations.", "anchors": ["crates/core/src/hash.rs: HashAlgId::new", "crates/core/src/hash.rs: HashProvider", "crates/attestation/src/signing.rs: SignatureAlgId::new"]}
{"id": "C21", "title": "Raw TLS record parsing loses and invents nothing", "statement": "Parsing a raw record stream after the handshake yields records with consecutive sequence numbers starting at 0, the first being the encrypted Finished message right after ChangeCipherSpec; concatenating nonce, ciphertext and tag of each record reproduces the wire payloads in order, and application plaintext is split so that the pieces concatenate to a prefix of the supplied plaintext with each piece as long as its ciphertext.", "quantifier": "all record streams and plaintexts", "why_tests_cant": "Streams of any number of records and sizes.", "anchors": ["crates/core/src/transcript/tls/builder.rs: parse_records", "crates/core/src/transcript/tls/builder.rs: split_into_record"]}
{"id": "C22", "title": "TLS transcripts are well sequenced", "statement": "Building a TLS transcript succeeds only if in each direction the record sequence numbers strictly increase, the first record is the handshake Finished record and version and certificate binding are present.", "quantifier": "all record lists and builder inputs", "why_tests_cant": "Needs all malformed sequences.", "anchors": ["crates/core/src/transcript/tls/builder.rs: TlsTranscriptBuilder::build", "crates/core/src/transcript/tls/builder.rs: validate_finished_record", "crates/core/src/transcript/tls/builder.rs: validate_seq"]}
{"id": "C23", "title": "Handshake hashes follow the TLS 1.2 message order", "statement": "When handshake messages are recovered from the two directions of a connection in which the peers exchanged a full TLS 1.2 handshake, the session hash, client-finished hash and server-finished hash inputs are exactly the chronological concatenation of handshake messages that TLS 1.2 prescribes, however the messages were fragmented into records.", "quantifier": "all handshakes of the full-handshake shape, all message contents and record fragmentations", "why_tests_cant": "Fragmentation and contents are unbounded.", "anchors": ["crates/core/src/transcript/tls/builder.rs: compute_handshake_hashes", "crates/core/src/transcript/tls/builder.rs: scan_handshake_messages", "crates/core/src/transcript/tls.rs: sf_hash"]}
{"id": "C24", "title": "The application transcript is the in-order concatenation of application records", "statement": "Converting a TLS transcript to an application transcript yields, per direction, the in-order concatenation of the plaintexts of application-data records only; it fails exactly when some application record's plaintext is unknown, naming the first such record.", "quantifier": "all TLS transcripts", "why_tests_cant": "Any number and mix of records.", "anchors": ["crates/core/src/transcript/tls.rs: TlsTranscript::to_transcript"]}
{"id": "C25", "title": "Wire codec round trip", "statement": "Decoding the encoding of any integer or length-prefixed byte string that fits its prefix returns the value and leaves exactly the following bytes unread; decoding never reads past the buffer, and truncated input is an error, never a panic. Values longer than the prefix can express do not round trip.", "quantifier": "all values and all trailing buffers", "why_tests_cant": "Every length including boundaries 2^8, 2^16, 2^24.", "anchors": ["crates/tls-core/src/msgs/codec.rs: Codec", "crates/tls-core/src/msgs/codec.rs: encode_vec_u8", "crates/tls-core/src/msgs/base.rs: PayloadU8", "crates/tls-core/src/msgs/base.rs: PayloadU16", "crates/tls-core/src/msgs/base.rs: PayloadU24"]}
{"id": "C26", "title": "Record framing is unambiguous", "statement": "Decoding an encoded record with any suffix returns the same record and leaves exactly the suffix; a proper prefix of a record asks for more data and is never accepted; zero-length non-application records, oversized lengths and unknown content types are rejected.", "quantifier": "all records, suffixes and prefixes", "why_tests_cant": "All byte streams.", "anchors": ["crates/tls-core/src/msgs/message.rs: OpaqueMessage::read", "crates/tls-core/src/msgs/message.rs: OpaqueMessage::encode"]}
{"id": "C27", "title": "Only TLS record versions are accepted", "statement": "A record whose header version does not have major version 3 is rejected as having an illegal protocol version.", "quantifier": "all record headers", "why_tests_cant": "65536 versions times all lengths.", "anchors": ["crates/tls-core/src/msgs/message.rs: OpaqueMessage::read", "crates/tls-core/src/msgs/enums.rs: ProtocolVersion"]}
{"id": "C28", "title": "Deframing is independent of how bytes arrive", "statement": "Feeding a byte stream to the deframer in any sequence of reads, and popping frames in between at any time, yields the same sequence of records as parsing the whole stream, the same desynchronization verdict and the same pending remainder; the internal buffer never overflows.", "quantifier": "all streams and all ways of splitting it into reads", "why_tests_cant": "Exponentially many schedules.", "anchors": ["crates/tls-core/src/msgs/deframer.rs: MessageDeframer::read", "crates/tls-core/src/msgs/deframer.rs: MessageDeframer::try_deframe_one"]}
{"id": "C29", "title": "Fragmentation preserves the payload and respects the limit", "statement": "Fragmenting a message yields fragments of the same type and version whose payloads concatenate to the original and none of which exceeds the configured limit; the configured limit always leaves wire packets within the requested size, and invalid limits are refused without changing the configuration.", "quantifier": "all messages and limits", "why_tests_cant": "All sizes and limits.", "anchors": ["crates/tls-core/src/msgs/fragmenter.rs: MessageFragmenter"]}
{"id": "C30", "title": "Handshake reassembly is independent of fragmentation", "statement": "Splitting a stream of handshake messages into handshake records in any way and feeding these to the joiner yields the same messages in order, ends empty exactly on a message boundary, and never yields a message before its last byte arrived.", "quantifier": "all handshake message lists and all fragmentations", "why_tests_cant": "Exponentially many fragmentations.", "anchors": ["crates/tls-core/src/msgs/hsjoiner.rs: HandshakeJoiner"]}
{"id": "C31", "title": "Transcript reference maps return the memory that was recorded", "statement": "Looking up a byte range in a reference map returns the references of exactly those bytes when the range lies inside one recorded piece and nothing otherwise, and indexing by a set of ranges returns a map whose entries point at the same bytes.", "quantifier": "all maps and ranges", "why_tests_cant": "Binary search correctness for every layout.", "anchors": ["crates/tlsn/src/map.rs: RangeMap::get", "crates/tlsn/src/map.rs: RangeMap::index"]}
{"id": "C32", "title": "Selective disclosure binds plaintext to the right keystream bytes", "statement": "For every transcript split into encrypted records and every in-range set of disclosed or committed positions, the proof system associates each position with exactly the AES-CTR keystream byte (record nonce, block counter starting at 2, offset in block) with which that position was encrypted; an out-of-range position is an error.", "quantifier": "all record layouts (including empty records) and index sets", "why_tests_cant": "Alignment bugs appear only for particular range/record/block boundaries.", "anchors": ["crates/tlsn/src/transcript_internal/auth.rs: alloc_keystream", "crates/tlsn/src/transcript_internal/auth.rs: alloc_block", "crates/tlsn/src/transcript_internal/auth.rs: verify_plaintext"]}
{"id": "C33", "title": "Disclosed plaintext must be what was encrypted", "statement": "If plaintext verification succeeds then every disclosed byte, and every value bound to a committed byte, is the decryption of the recorded ciphertext byte at that position; conversely the true plaintext always passes. Revealing everything with the key and proving in zero knowledge accept the same disclosed plaintexts.", "quantifier": "all records, keys, claimed plaintexts and index sets", "why_tests_cant": "Adversarial plaintexts and layouts unbounded.", "anchors": ["crates/tlsn/src/transcript_internal/auth.rs: verify_plaintext", "crates/tlsn/src/transcript_internal/auth.rs: PlaintextProof::verify", "crates/tlsn/src/transcript_internal/auth.rs: verify_plaintext_with_key"]}
{"id": "C34", "title": "A prover's request cannot crash the verifier", "statement": "Whatever reveal and commitment indices a prover requests, plaintext verification returns a result or an error; it never panics.", "quantifier": "all prover requests", "why_tests_cant": "Adversarial indices unbounded.", "anchors": ["crates/tlsn/src/transcript_internal/auth.rs: verify_plaintext", "crates/tlsn/src/verifier/verify.rs: verify"]}
{"id": "C35", "title": "The verifier outputs exactly the requested disclosure", "statement": "The verifier's output contains a transcript only if the prover's request revealed something, its lengths equal the lengths of the authenticated application ciphertext, its authenticated indices equal the requested ones, and its hash commitments correspond one to one to the requested ones.", "quantifier": "all requests, messages and TLS transcripts", "why_tests_cant": "Adversarial messages unbounded.", "anchors": ["crates/tlsn/src/verifier/verify.rs: verify"]}
{"id": "C36", "title": "Authentication tags bind every record", "statement": "Tag verification succeeds only if each record's tag equals the GHASH of the unambiguous encoding of (sequence number, type, version, length, ciphertext) masked with that record's own counter block; different (additional data, ciphertext) pairs always give different GHASH inputs, and no record is skipped.", "quantifier": "all record lists", "why_tests_cant": "Adversarial records unbounded.", "anchors": ["crates/tlsn/src/tag.rs: verify_tags", "crates/tlsn/src/tag.rs: TagProof::verify", "crates/tlsn/src/ghash.rs: build_ghash_data", "crates/tls-core/src/cipher.rs: make_tls12_aad"]}
{"id": "C37", "title": "Record sequence numbers and nonces are never reused", "statement": "In every history of record-layer operations, the records accepted for encryption get sequence numbers 0,1,2,… and pairwise distinct explicit nonces, likewise received records are numbered consecutively in arrival order.", "quantifier": "all operation histories", "why_tests_cant": "Quantifies over histories, including failing operations.", "anchors": ["crates/mpc-tls/src/record_layer.rs: RecordLayer::push_encrypt", "crates/mpc-tls/src/record_layer.rs: RecordLayer::push_decrypt", "crates/mpc-tls/src/record_layer.rs: RecordLayer::next_write", "crates/mpc-tls/src/record_layer.rs: RecordLayer::next_read"]}
{"id": "C38", "title": "Data limits agreed at setup are enforced", "statement": "In every history the total length of records accepted for sending never exceeds the sent limit, the total accepted for receiving never exceeds the receive limit, and buffers never hold more than the buffer limit.", "quantifier": "all operation histories", "why_tests_cant": "Quantifies over histories.", "anchors": ["crates/mpc-tls/src/record_layer.rs: RecordLayer::push_encrypt", "crates/mpc-tls/src/record_layer.rs: RecordLayer::push_decrypt", "crates/mpc-tls/src/record_layer.rs: RecordLayer::flush"]}
{"id": "C39", "title": "Application data is withheld until traffic starts", "statement": "No application-data record is handed out by the record layer, in either direction, before traffic was started; records come out in the order in which they went in and each at most once.", "quantifier": "all operation histories", "why_tests_cant": "Quantifies over schedules.", "anchors": ["crates/mpc-tls/src/record_layer.rs: RecordLayer::next_encrypted", "crates/mpc-tls/src/record_layer.rs: RecordLayer::next_decrypted", "crates/mpc-tls/src/record_layer.rs: RecordLayer::start_traffic"]}
{"id": "C40", "title": "Committed record log equals the traffic", "statement": "After a successful commit, the records handed to the transcript are exactly the accepted records of each direction, in sequence order, each once, with the ciphertext produced or received; both parties following the same operation sequence obtain logs that agree in sequence numbers, types, nonces and ciphertexts.", "quantifier": "all operation histories", "why_tests_cant": "Quantifies over histories and over both parties.", "anchors": ["crates/mpc-tls/src/record_layer.rs: RecordLayer::flush", "crates/mpc-tls/src/record_layer.rs: RecordLayer::commit"]}
{"id": "C41", "title": "Traffic within the agreed limit can always be encrypted", "statement": "Any sequence of records whose total plaintext length is at most the agreed sent limit and whose number is at most the agreed number of records can be encrypted.", "quantifier": "all record length sequences within limits", "why_tests_cant": "Only particular length sequences expose block-padding accounting.", "anchors": ["crates/mpc-tls/src/record_layer/aead/aes_gcm.rs: MpcAesGcm::alloc", "crates/mpc-tls/src/record_layer/aead/aes_gcm.rs: MpcAesGcm::apply_keystream", "crates/mpc-tls/src/config.rs: ConfigBuilder::build"]}
{"id": "C42", "title": "Encrypted record splitting is exact", "statement": "Splitting an encrypted record payload gives nonce, ciphertext and tag that concatenate to the payload with lengths 8, n and 16, fails exactly when the payload is shorter than 24 bytes, and joining the three parts of an outgoing record inverts it.", "quantifier": "all payloads", "why_tests_cant": "All lengths.", "anchors": ["crates/mpc-tls/src/utils.rs: opaque_into_parts", "crates/mpc-tls/src/leader.rs: next_outgoing"]}
{"id": "C43", "title": "Connections close cleanly", "statement": "The transcript check on closing accepts exactly those record lists that are empty after the handshake, or end in application data, or end with a visible close-notify alert.", "quantifier": "all record lists", "why_tests_cant": "All endings.", "anchors": ["crates/mpc-tls/src/utils.rs: check_close_notify"]}
{"id": "C44", "title": "Secret sharing through one-time pads is correct", "statement": "For every value and all pads, the leader's and follower's shares XOR to the value, the value opened to the follower is masked by the leader's pad, and private decryption returns to the leader the exact plaintext and to the follower none.", "quantifier": "all values and pads", "why_tests_cant": "All pads.", "anchors": ["crates/mpc-tls/src/decode.rs: OneTimePadShared", "crates/mpc-tls/src/record_layer/decrypt.rs: DecryptPrivate"]}
{"id": "C45", "title": "Shared GHASH equals GHASH", "statement": "For additive shares of the hash key's powers, the two parties' locally computed tag shares add up to the standard GHASH of the padded data for every input of at most 1026 blocks, and longer inputs are refused; the local squaring of shares yields correct shares of all even powers.", "quantifier": "all keys, sharings and inputs", "why_tests_cant": "All inputs and share splits.", "anchors": ["crates/mpc-tls/src/record_layer/aead/ghash.rs: compute_shares", "crates/mpc-tls/src/record_layer/aead/ghash.rs: MpcGhash::compute"]}
{"id": "C46", "title": "Configuration invariants survive every construction path", "statement": "Every MPC-TLS configuration obtained by the builder or by deserializing an arbitrary peer message satisfies online-receive ≤ total-receive, and translating it to the protocol layer never panics, with protocol overhead added to each limit.", "quantifier": "all builder calls and all peer messages", "why_tests_cant": "Adversarial messages unbounded.", "anchors": ["crates/core/src/config/tls_commit/mpc.rs: MpcTlsConfig", "crates/mpc-tls/src/config.rs: ConfigBuilder::build", "crates/tlsn/src/deps.rs: build_mpc_tls_config"]}
{"id": "C47", "title": "Finished-message check cannot be skipped or repeated", "statement": "The verify-data check succeeds only after allocation and assignment in that order, and only if both directions' decrypted Finished contents equal the recomputed values; in any other state it errors.", "quantifier": "all operation sequences", "why_tests_cant": "Quantifies over call orders.", "anchors": ["crates/tlsn/src/proxy.rs: VerifyDataCheck"]}
{"id": "C48", "title": "Dual-execution memory translation is faithful", "statement": "After any sequence of paired allocations, translating a slice of the first machine's memory succeeds exactly when it lies inside one recorded allocation and yields the slice at the same offset of the paired allocation; distinct slices translate to distinct slices when the paired allocations are disjoint.", "quantifier": "all allocation histories and slices", "why_tests_cant": "Binary search over all layouts.", "anchors": ["crates/components/deap/src/map.rs: MemoryMap"]}
{"id": "C49", "title": "TLS key derivation follows RFC 5246", "statement": "For every pre-master secret, randoms and handshake hashes, the derived master secret, session keys, IVs and verify data are those of RFC 5246 (or RFC 7627 for the extended master secret), in both network modes, whatever the number of flushes.", "quantifier": "all secrets, seeds and modes", "why_tests_cant": "All inputs and flush schedules.", "anchors": ["crates/components/hmac-sha256/src/prf.rs: Prf", "crates/components/hmac-sha256/src/prf/function/normal.rs", "crates/components/hmac-sha256/src/prf/function/reduced.rs"]}
{"id": "C50", "title": "Two-party key exchange yields the shared secret", "statement": "For all private keys and server keys, the two parties' pre-master-secret shares add up to the x-coordinate of the sum of the parties' EC points in both evaluations, and the equality check passes for honest parties.", "quantifier": "all field elements and sharings", "why_tests_cant": "All inputs.", "anchors": ["crates/components/key-exchange/src/point_addition.rs", "crates/components/key-exchange/src/exchange.rs"]}
{"id": "C51", "title": "Hash-only handlers never reveal", "statement": "The reveal computed from handler configurations contains exactly the ranges extracted by reveal handlers and the commitments exactly those extracted by hash handlers, per direction; a byte matched only by hash handlers is never revealed.", "quantifier": "all handler lists and extraction results", "why_tests_cant": "All handler combinations.", "anchors": ["crates/sdk-core/src/handler/mod.rs: compute_reveal", "crates/sdk-core/src/handler/extract.rs: extract_ranges"]}
{"id": "C52", "title": "Follower accepts only a consistent connection", "statement": "In every message sequence a leader may send, the follower completes only if exactly one client random, one server hello within the time tolerance, and one verify-data computation per direction were processed, and the transcript it outputs carries those values.", "quantifier": "all message sequences", "why_tests_cant": "Adversarial leader; unbounded sequences.", "anchors": ["crates/mpc-tls/src/follower.rs: MpcTlsFollower::run"]}
{"id": "C53", "title": "Connection data is taken from the right handshake messages", "statement": "When a TLS transcript is built from the raw bytes of both directions, every field the caller did not supply has the value the handshake gives it: protocol version and server random from the first ServerHello, client random from the first ClientHello, certificate chain from the first Certificate message of the server, and ephemeral public key, signature and signature algorithm from its first ServerKeyExchange message, whose group must be secp256r1 and whose body must be exactly one well formed ECDHE parameter block; ECDSA schemes are resolved with the curve of the end entity certificate. Every full handshake whose messages parse and satisfy these conditions is accepted, however it is fragmented into records.", "quantifier": "all handshakes, all fragmentations into records, all values of the supplied fields, all record sequences after the handshake", "why_tests_cant": "Tests use one recorded handshake; swapped randoms, a wrong scheme table entry or a dependence on fragmentation show only for other inputs.", "anchors": ["crates/core/src/transcript/tls/builder.rs:113-219 build, parse_handshake_components", "crates/core/src/transcript/tls/builder.rs:397-581 extract_handshake, map_signature_scheme", "crates/tls-core/src/msgs/handshake.rs ECDHEServerKeyExchange"]}
{"id": "C54", "title": "SDK verifier's limits bind the prover", "statement": "If the SDK's verifier goes on with a prover's proposed configuration, the protocol it runs stays within each of the limits (bytes sent and received, records sent and received online) that the verifier was configured with, and a proposal within all configured limits is accepted; no proposal makes it panic.", "quantifier": "all verifier limits and all proposals", "why_tests_cant": "Adversarial proposals; omitted fields interact with defaults.", "anchors": ["crates/sdk-core/src/verifier.rs: SdkVerifier::setup", "crates/sdk-core/src/config.rs: VerifierConfig", "crates/mpc-tls/src/config.rs: ConfigBuilder::build"]}
{"id": "C55", "title": "A proxy verifier sees exactly the traffic it forwarded", "statement": "In proxy mode, the bytes the verifier parses as the connection's traffic are, for each direction, exactly the bytes it forwarded between prover and server, in order and up to the end of the stream, however the traffic was cut into reads; the connection time is the time of the prover's first bytes; and no behaviour of the prover or the server makes the verifier panic.", "quantifier": "all read schedules, stream endings and errors in both directions", "why_tests_cant": "Quantifies over all ways of cutting streams into reads and of ending them.", "anchors": ["crates/tlsn/src/proxy.rs: InspectReader", "crates/tlsn/src/verifier.rs: Verifier::run (proxy)"]}
{"id": "C56", "title": "Handlers extract what they name and hide what they hide", "statement": "For every parsed message and handler, the bytes extracted are exactly those of the part that the handler names; with the option to hide values no byte of a named header's or JSON value is extracted, with the option to hide keys only bytes of the value are.", "quantifier": "all messages, handlers, paths and options", "why_tests_cant": "All combinations of parts, paths, options and document shapes.", "anchors": ["crates/sdk-core/src/handler/extract.rs: extract_ranges, extract_json_body, append_header_ranges"]}
{"id": "C57", "title": "Openings match the ranges asked for", "statement": "The openings that the SDK's prover returns after a reveal correspond to the ranges to be committed: for each direction, the opening at each index opens the range at the same index of the request (hash of its bytes and the returned blinder under the requested algorithm).", "quantifier": "all transcripts and commitment requests, any iteration order of hash sets", "why_tests_cant": "The iteration order is random; tests with one range never see it.", "anchors": ["crates/sdk-core/src/prover.rs: SdkProver::reveal, build_reveal_output", "crates/sdk-core/src/types.rs: RevealOutput", "crates/core/src/transcript/commit.rs: TranscriptCommitConfigBuilder"]}
{"id": "C58", "title": "Follower ends with a result or an error", "statement": "Whatever messages a leader sends, the follower ends with a transcript or an error: it neither panics nor runs forever.", "quantifier": "all message sequences, configurations and network modes", "why_tests_cant": "Adversarial leader; unbounded sequences in any order.", "anchors": ["crates/mpc-tls/src/follower.rs: MpcTlsFollower::run", "crates/mpc-tls/src/utils.rs: flush_prf, verify_transcript", "crates/core/src/transcript/tls/builder.rs: TlsTranscriptBuilder::build"]}
{"id": "C59", "title": "Dual execution makes outputs those of one execution", "statement": "If finalization succeeds for the follower, then all outputs the MPC machine gave them, whatever the leader did in it, are the outputs of the circuits on one choice of inputs that agrees with every value the follower assigned. Before finalization no private input of the follower is committed to in the ZK machine. If the MPC machine decoded right values, finalization succeeds for both parties and the leader holds the follower's inputs.", "quantifier": "all programs (allocations, marks, assignments, commits, calls, decodings), MPC outputs, inputs of the other party", "why_tests_cant": "Programs and memory layouts are unbounded; the leader's behaviour in the MPC machine is arbitrary.", "anchors": ["crates/components/deap/src/lib.rs: Deap::finalize, commit_raw, mark_private_raw, mark_blind_raw, call_raw, decode_raw", "crates/components/deap/src/map.rs: MemoryMap"]}
{"id": "C60", "title": "Handshake messages are read exactly", "statement": "Parsing the bytes of a handshake message always ends with a message or a refusal. A message that was parsed is written again as exactly the bytes it was read from, so that hashing a parsed message hashes what was received. A message whose fields fit is read back when it was written, whatever follows it. The randoms, version, certificates, key exchange and verify data that a transcript takes from a handshake are at their place in the bytes of the messages, and each message says one thing only.", "quantifier": "all byte strings, all messages of TLS 1.2 and 1.3 with any extensions, any trailing bytes", "why_tests_cant": "Nested variable-length structures of any size and adversarial input; canonicity relates all pairs of byte strings.", "anchors": ["crates/tls-core/src/msgs/handshake.rs: HandshakeMessagePayload::read_version, encode and the Codec impls", "crates/tls-core/src/msgs/codec.rs: read_vec_u8, read_vec_u16, read_vec_u24_limited, encode_vec_*", "crates/core/src/transcript/tls/parser.rs"]}
{"id": "C61", "title": "The server's signature is handed on as it was accepted", "statement": "The client accepts a key exchange exactly if the holder of the server's certificate signed both randoms and the key exchange parameters with a scheme the client offered. The prover can then always record the handshake when it closes the connection, and a verifier that trusts the certificate chain accepts the recorded certificates, key and signature. Handshake data that verify were signed by the holder of a certificate trusted for the server name.", "quantifier": "all certificates and kinds of keys, all signature schemes, randoms and key exchange messages", "why_tests_cant": "The combinations of schemes and certificate keys are many and fixtures cover only the common ones; acceptance must agree for every signature.", "anchors": ["crates/tls-core/src/verify.rs: convert_scheme, SignatureAlgorithm::from_alg, verify_sig_determine_alg, verify_tls12_signature", "crates/mpc-tls/src/leader.rs: close_connection", "crates/core/src/connection.rs: HandshakeData::verify", "crates/core/src/transcript/tls/builder.rs: map_signature_scheme"]}
{"id": "C62", "title": "No application data before the server is authenticated", "statement": "The TLS client of the prover hands data of the application over to be encrypted, starts traffic, or gives decrypted data to the application only after a full handshake in which the server was authenticated: the messages of both sides are those of one handshake, the server's hello answers the client's, the certificate chain was verified for the server's name, the server signed both randoms and its key, the backend was given exactly this handshake, and the server's verify data were those the backend computed over all messages. Records after a ChangeCipherSpec are encrypted and those before are not, and application data are never sent in clear.", "quantifier": "all servers (every byte stream and its fragmentation), all answers of the backend, all orders of calls", "why_tests_cant": "An attacker chooses the messages, their order and how they are cut into records; no list of bad handshakes covers the state machine.", "anchors": ["crates/mpc-tls/src/client/conn.rs: ClientConnection", "crates/mpc-tls/src/client/hs.rs: start_handshake, ExpectServerHello", "crates/mpc-tls/src/client/tls12.rs: ExpectCertificate, ExpectServerKx, ExpectServerDone, ExpectCcs, ExpectFinished, ExpectTraffic"]}
{"id": "C63", "title": "The TLS client loses and reorders nothing", "statement": "Bytes written to the socket are the records sent, in order, and all of them are written if the user keeps calling write_tls. Records taken up are those that the bytes read hold, in order, and all of them after a successful process_new_packets; so are the records of the backend. Data given to the application are the application data decrypted, and data encrypted are those taken from the application, in order and complete.", "quantifier": "all histories of calls, all chunkings of reads and writes, all answers of the backend", "why_tests_cant": "Loss and reordering depend on how buffers interleave with states, chunk sizes and errors.", "anchors": ["crates/mpc-tls/src/client/conn.rs: process_new_packets, flush_plaintext, write_tls, read_tls, write_plaintext, read_plaintext", "crates/mpc-tls/src/client/vecbuf.rs: ChunkVecBuffer"]}
{"id": "C64", "title": "A failed connection stays failed and nothing panics", "statement": "After process_new_packets returned an error it returns the same error for ever, does no new work, and the alert queued by the error can be written; no call panics.", "quantifier": "all histories of calls, all servers and all answers of the backend", "why_tests_cant": "Every error path in every state, followed by every continuation, must be considered.", "anchors": ["crates/mpc-tls/src/client/conn.rs: process_new_packets, start, process_alert, send_fatal_alert, write_tls"]}
{"id": "C65", "title": "Whenever the prover completes, so does the verifier", "statement": "If all calls to the MPC-TLS leader succeed and it hands out a transcript, then the follower that received its messages in order, and the server's parameters within five seconds, completes as well. The two transcripts agree in time, version, handshake binding and, record by record, in sequence number, type, nonce and ciphertext; the contents of records other than application data, and the tags of incoming records, are the same; the follower has neither the contents of application data nor the tags of outgoing records.", "quantifier": "all sequences of calls to the leader, all data sent and received, all delays within the bound", "why_tests_cant": "Two state machines, kept in step by messages only, must agree after every history; a test runs a few.", "anchors": ["crates/mpc-tls/src/leader.rs: MpcTlsLeader, close_connection", "crates/mpc-tls/src/follower.rs: MpcTlsFollower::run", "crates/mpc-tls/src/msg.rs: Message"]}
{"id": "C66", "title": "The prover does not tell the verifier what it sends", "statement": "The messages that the leader sends to the follower are the same for any two histories of calls that differ only in the contents (not the lengths) of application data to be sent, even when calls fail. They always come in the order of the protocol: the client's random, the server's parameters, the connection's events, its end; plaintext is included exactly for records that are not application data, with its length, and hashes have 32 bytes.", "quantifier": "all pairs of histories of calls, failing ones and lost connections included", "why_tests_cant": "Noninterference speaks of pairs of runs over all inputs; a leak on one error path escapes every test of the others.", "anchors": ["crates/mpc-tls/src/leader.rs: push_outgoing, push_incoming, flush, prepare_encryption, preprocess, close_connection", "crates/mpc-tls/src/msg.rs: Message, Encrypt"]}
{"id": "C67", "title": "The prover's transcript is that of the connection it was asked to make", "statement": "If all calls to the leader succeed, the transcript it hands out carries the random number drawn at its start, the time at which the server's parameters were given, the server's random, key, certificates and signature as given, and the signature verifies over the randoms and parameters with the key of the first certificate. Both Finished messages have the verify data of the keys that RFC 5246 derives from these values and the given hashes. The records are one to one, in order, the messages that were to be sent, encrypted under the client's key with explicit nonces counting from zero, and the messages that came in, split into nonce, ciphertext and tag and decrypted under the server's key.", "quantifier": "all sequences of calls, all keys, contents and sizes", "why_tests_cant": "The statement relates the transcript to the whole history of calls in any interleaving of sending, receiving, flushing and fetching.", "anchors": ["crates/mpc-tls/src/leader.rs: MpcTlsLeader, close_connection", "crates/mpc-tls/src/record_layer.rs: RecordLayer"]}
{"id": "C68", "title": "The prover's TLS client gets exactly the records of the transcript", "statement": "The records that the leader hands out to be written to the socket are, in order and byte for byte (explicit nonce, ciphertext, tag), the first sent records of the transcript that it hands out at the end; the decrypted records it hands out have the types and contents of the first received ones. If it said that nothing is left, all of the transcript's records were handed out. In every history, also with failing calls, what is handed out comes in the order in which it was given, no record twice, with its type and version; records are left out only if a call failed. Fetching a record never panics.", "quantifier": "all sequences of calls to the leader, failing ones and lost connections included", "why_tests_cant": "Fetching interleaves with pushing, flushing, start of traffic and failures in unboundedly many ways; queue and log must agree in all.", "anchors": ["crates/mpc-tls/src/leader.rs: next_incoming, next_outgoing, flush, is_empty, finish", "crates/mpc-tls/src/record_layer.rs: RecordLayer::next_encrypted, next_decrypted, flush"]}
{"id": "C69", "title": "The prover's TLS backend does not panic before the connection is closed", "statement": "In a release build no call to the leader panics, whatever the server sends, in whatever order the calls are made and whatever of them fails, except closing the connection. Closing panics only if the server's signature over the randoms and the key exchange parameters that were given to the leader is not one of the first certificate's key, or if no record was sent or none received. (It always panics if no record was pushed in either direction.)", "quantifier": "all sequences of calls to the leader, failing ones and lost connections included; all answers of the server", "why_tests_cant": "A panic path may need a particular interleaving of failing calls, record contents and protocol states.", "anchors": ["crates/mpc-tls/src/leader.rs: MpcTlsLeader::close_connection, push_incoming, get_client_finished_vd, prepare_encryption", "crates/mpc-tls/src/record_layer.rs: RecordLayer::commit, flush", "crates/core/src/transcript/tls/builder.rs: TlsTranscriptBuilder::build"]}
{"id": "C70", "title": "The prover's connection passes on every byte", "statement": "However the application writes, reads, closes or drops its connection, whatever the socket gives and takes, and whenever the future is polled: the data recorded as sent are a prefix of what the application wrote, the application gets a prefix of the data in the server's decrypted records, and the socket gets a prefix of the records to be sent. If the future succeeds, the server closed the socket, all of its bytes were taken, all its records were processed and all its data have reached the application's end. (That success means everything recorded as sent has also been written to the socket is refuted.)", "quantifier": "all histories of the application, the socket, the readiness of jobs, and the polls; all backends", "why_tests_cant": "Bytes go through six buffers with different conditions for moving them; losing or doubling them needs a particular interleaving of short reads, full buffers and pending jobs.", "anchors": ["crates/tlsn/src/prover.rs: Prover<Connected>::poll, io_to_tls_client, io_from_tls_client", "crates/tlsn/src/prover/client/mpc.rs: MpcTlsClient::poll, InnerState::run, client_close, server_close", "crates/tlsn/src/prover/future.rs: ProverFuture::poll"]}
{"id": "C71", "title": "The prover's connection is closed in order", "statement": "The close_notify alert is sent at most once, only after the application closed its end, and after all that the application wrote. The TLS backend is told that the server closed at most once, only after the end of the socket, and after all bytes of the socket were read and all whole records were processed.", "quantifier": "all histories of the application, the socket, the readiness of jobs, and the polls; all backends", "why_tests_cant": "The order depends on when each side closes relative to buffered bytes and pending jobs.", "anchors": ["crates/tlsn/src/prover.rs: Prover<Connected>::poll, io_to_tls_client, io_from_tls_client", "crates/tlsn/src/prover/client/mpc.rs: MpcTlsClient::poll, InnerState::run, client_close, server_close"]}
{"id": "C72", "title": "Polling the prover's future ends, and the future ends when the server closes", "statement": "Each poll of the future returns. Once the server has closed the socket the future ends. (Both refuted: a server that closes during the handshake makes the poll recurse for ever; bytes after a close_notify, or an application that drops its connection before all data came, keep the future from ever succeeding. Proved: a poll returns unless the server closed during the handshake or processing packets itself never settles.)", "quantifier": "all histories of the application, the socket, the readiness of jobs, and the polls; all backends", "why_tests_cant": "Non-termination needs a particular state at the moment the server closes.", "anchors": ["crates/tlsn/src/prover.rs: Prover<Connected>::poll, io_to_tls_client, io_from_tls_client", "crates/tlsn/src/prover/client/mpc.rs: MpcTlsClient::poll, InnerState::run, client_close, server_close", "crates/tlsn/src/prover/future.rs: ProverFuture::poll"]}
{"id": "C73", "title": "The prover's future ends once and does not panic", "statement": "In a release build, no poll that returns panics, the future's result is given once and every poll after it is refused with an error, and when the future has ended, with success or an error, the application's connection has been closed.", "quantifier": "all histories of the application, the socket, the readiness of jobs, and the polls; all backends", "why_tests_cant": "The panic paths (an expect on the closed connection, and those of the TLS client) depend on the order of closings and pending jobs.", "anchors": ["crates/tlsn/src/prover.rs: Prover<Connected>::poll, io_to_tls_client, io_from_tls_client", "crates/tlsn/src/prover/client/mpc.rs: MpcTlsClient::poll, InnerState::run, client_close, server_close", "crates/tlsn/src/prover/future.rs: ProverFuture::poll"]}
{"id": "C74", "title": "In proxy mode the recorded traffic is the traffic", "statement": "When a connection in proxy mode is handed over to be proved, which happens at most once and always before it succeeds, a master secret is there, the recorded bytes from the server are exactly those the socket gave, the recorded data of the application are a prefix of what it wrote, what the application got is a prefix of the recorded data it was sent, and the recorded bytes to the server and those the socket took are a prefix of each other. (Refuted: that they are equal, in both directions, and that all that was received reaches an application that has not dropped its connection.)", "quantifier": "all TLS libraries (a black box), all histories of the application, the socket and the polls", "why_tests_cant": "The traffic is recorded at four places and taken away at one moment; what is missing or too much depends on when the server closes and on full buffers.", "anchors": ["crates/tlsn/src/prover.rs: Prover<Connected>::poll, io_to_tls_client, io_from_tls_client", "crates/tlsn/src/prover/client/proxy/mod.rs: ProxyTlsClient, TlsClient::poll", "crates/tlsn/src/proxy.rs: TlsBytes"]}
{"id": "C75", "title": "In proxy mode close_notify comes last", "statement": "The closing alert is sent at most once, only after the application closed or dropped its end, and after everything that the application wrote.", "quantifier": "all TLS libraries (a black box), all histories of the application, the socket and the polls", "why_tests_cant": "The order depends on when the application closes relative to the handshake and to buffered bytes.", "anchors": ["crates/tlsn/src/prover.rs: Prover<Connected>::poll, io_to_tls_client, io_from_tls_client", "crates/tlsn/src/prover/client/proxy/mod.rs: ProxyTlsClient, TlsClient::poll"]}
{"id": "C76", "title": "In proxy mode the prover's future ends once and does not panic", "statement": "Polling the future of a connection in proxy mode never panics or loops, gives its result at most once, and when the connection is no longer running the application's end was closed. Once the server has closed its end and the library got all bytes, the next poll with everything ready ends the connection. (Proved if the handshake is over; refuted otherwise: then the future never ends.)", "quantifier": "all TLS libraries (a black box), all histories of the application, the socket and the polls", "why_tests_cant": "It must hold for every behaviour of the TLS library and the socket and every order of events.", "anchors": ["crates/tlsn/src/prover.rs: Prover<Connected>::poll, io_to_tls_client, io_from_tls_client", "crates/tlsn/src/prover/client/proxy/mod.rs: ProxyTlsClient, TlsClient::poll", "crates/tlsn/src/prover/future.rs: ProverFuture::poll"]}
{"id": "C77", "title": "The HTTP committer commits to exactly the parts of the messages", "statement": "Committing a parsed HTTP transcript adds to the configuration exactly the documented parts of its messages (whole message; message without target, headers and body; target; headers with and without value; body, or for JSON each object without its pairs, each pair without its value, each scalar that is not empty, each array with and without contents), requests as sent and responses as received, with the default hash; it succeeds exactly if every message lies inside the transcript, and commits to nothing empty.", "quantifier": "all parse results whose children lie inside their parents without overlapping (any number of messages and headers, JSON of any depth, chunked bodies), all transcripts and builder states", "why_tests_cant": "Tests cover a few fixtures; a part forgotten for one shape of message is noticed only when a user wants to hide or show it.", "anchors": ["crates/formats/src/http/commit.rs: HttpCommit::{commit_transcript, commit_request, commit_response, commit_target, commit_request_header, commit_response_header, commit_request_body, commit_response_body}", "crates/formats/src/json/commit.rs: JsonCommit::{commit_value, commit_object, commit_key_value, commit_array, commit_string}", "crates/core/src/transcript/commit.rs: TranscriptCommitConfigBuilder::commit"]}
{"id": "C78", "title": "What the HTTP committer committed to can be disclosed selectively", "statement": "After committing a parsed HTTP transcript the prover can build a proof that reveals any of its messages without any choice of targets, headers, header values, bodies, and JSON values and pairs at any depth of objects, and nothing else; only unions of parts can be revealed. (Refuted: for the target of a request without headers and body, for values in a JSON body with bytes around the value, for single elements of arrays.)", "quantifier": "all parse results as in C77, all choices of what to hide, all covering procedures meeting the specification of the rangeset crate", "why_tests_cant": "The number of choices is exponential, and success depends on the commitments of one crate covering the queries of another.", "anchors": ["crates/formats/src/http/commit.rs: HttpCommit::{commit_transcript, commit_request, commit_response, commit_target, commit_request_header, commit_response_header, commit_request_body, commit_response_body}", "crates/formats/src/json/commit.rs: JsonCommit::{commit_value, commit_object, commit_key_value, commit_array, commit_string}", "crates/core/src/transcript/proof.rs: TranscriptProofBuilder::{reveal, build}"]}
{"id": "C79", "title": "A request to close a session is not lost", "statement": "When close on the handle has returned while the driver is not being polled and still has its connection, then the connection was told to close, or the driver was never polled, or its last poll was woken after it began; the next poll tells the connection to close before it polls it. The connection is told to close only if close was called.", "quantifier": "all interleavings of polls of the driver with any number of concurrent calls of close, all multiplexers (a black box), loads that may miss stores unless ordered by the lock", "why_tests_cant": "A lost wake-up needs one particular interleaving of two threads; tests see the common ones.", "anchors": ["crates/tlsn/src/session.rs: Session::split, SessionDriver::poll, SessionHandle::close"]}
{"id": "C80", "title": "The IO of a session is given back once", "statement": "Polling the driver never panics; it gives its final result once and every later poll says that it is over. The IO is not lost if a connection that is done gives it back. A session that is not split keeps its connection until a call took the IO, and then taking and polling fail. (Refuted: that a closed session stays closed: after the IO was taken it says it is not.)", "quantifier": "all interleavings of polls of the driver with any number of concurrent calls of close, all multiplexers (a black box), loads that may miss stores unless ordered by the lock; all sequences of calls on a session that is not split", "why_tests_cant": "It ranges over all histories of polls, closes and takes.", "anchors": ["crates/tlsn/src/session.rs: Session::split, SessionDriver::poll, SessionHandle::close", "crates/tlsn/src/session.rs: Session::{is_closed, close, try_take, poll}"]}
{"id": "C81", "title": "A proxying verifier accepts exactly the right connections", "statement": "After the traffic has ended the verifier accepts a connection iff the bytes it passed on form a TLS 1.2 transcript and, for the keys derived from the master secret the prover provided and the handshake in that traffic, both Finished messages carry the verify data of RFC 5246 and all tags of the server's records are right; it goes on with exactly those keys. All other connections end with an error about the transcript, the Finished messages or the tags, never with a hang, and with a panic only if the prover sent nothing. (Refuted: that the header of the Finished messages and the tags of the client's records are checked.)", "quantifier": "all sequences of reads from both sockets, all master secrets, all compression, block and GHASH functions", "why_tests_cant": "It ranges over all traffic and all secrets a malicious prover can choose.", "anchors": ["crates/tlsn/src/proxy/verifier.rs, crates/tlsn/src/proxy.rs: alloc_proxy_refs", "crates/tlsn/src/verifier.rs: Verifier<CommitAccepted<..>>::run (proxy), Verifier<Committed>::verify"]}
{"id": "C82", "title": "Both parties of a proxied connection end up with the same session", "statement": "If the prover finishes a proxied connection and the verifier accepts it, then both have the same keys and the same transcript but for its time and the plaintext, which only the prover has. If the connection is right (C81) and the prover finishes it then the verifier accepts it.", "quantifier": "all traffic, plaintexts, master secrets and times of both parties", "why_tests_cant": "It relates two separate programs on all inputs.", "anchors": ["crates/tlsn/src/proxy/verifier.rs, crates/tlsn/src/proxy.rs: alloc_proxy_refs", "crates/tlsn/src/verifier.rs: Verifier<CommitAccepted<..>>::run (proxy), Verifier<Committed>::verify", "crates/tlsn/src/proxy/prover.rs, crates/tlsn/src/prover.rs: finish (proxy mode)"]}
{"id": "C83", "title": "All proofs about a proxied connection are right and agree", "statement": "After a proxied connection the verifier has accepted, whatever the prover asks to prove, in any number of proofs: there is an output exactly for each request the application accepted, it discloses what was requested, of application data that the recorded traffic decrypts to under the keys of the connection, its commitments are to such data, a server name is only given if the certificates are right for it, and two outputs never show different bytes at one position.", "quantifier": "all traffic, master secrets, sequences of requests, decisions of the application and witnesses of the prover", "why_tests_cant": "It ranges over all sequences of malicious proofs on a shared machine.", "anchors": ["crates/tlsn/src/verifier.rs: Verifier<CommitAccepted<..>>::run (proxy), Verifier<Committed>::verify"]}
{"id": "C84", "title": "An honest prover can prove anything about a proxied connection", "statement": "After both parties have finished a proxied connection, any number of requests about existing application data succeed on both sides, whatever was proved before: no step fails or panics, a request is answered exactly if the verifier's application accepted it, and then the verifier's output has the server's name if requested (and the certificates are right), the requested part of the prover's transcript, and the same commitments as the prover's output.", "quantifier": "all connections finished by both parties, all sequences of proof configurations and decisions of the verifier's application", "why_tests_cant": "It ranges over all combinations of disclosed and committed ranges over a sequence of proofs that share one machine.", "anchors": ["crates/tlsn/src/prover.rs: Prover<Committed>::prove", "crates/tlsn/src/prover/prove.rs: prove", "crates/tlsn/src/verifier.rs: Verifier<Committed>::verify"]}
{"id": "C85", "title": "Reading from a JavaScript stream loses and reorders nothing", "statement": "What readers are given is at every time a prefix of what the object has delivered; a read reports the end, a failure or that there is nothing yet only if this is so and everything delivered has been read, and never gives more than the buffer takes. The object is never asked again while a promise of it is open, nor after the end or a failure; after a failure all reads and writes fail.", "quantifier": "all sequences of polls of reading, writing, flushing and closing, all buffer sizes, all behaviours of the JavaScript object (throwing, pending, delivering, ending, rejecting)", "why_tests_cant": "It ranges over all interleavings of polls with all behaviours of a foreign object.", "anchors": ["crates/wasm/src/io.rs: JsIoAdapter::poll_read"]}
{"id": "C86", "title": "Writing to a JavaScript stream hands over everything", "statement": "The object is given exactly the bytes reported as written, in order and whole writes; a write on an open stream fails only if the object throws; the object is closed at most once, and nothing is written after that. (Refuted: that bytes written, flushed and closed without an error were written: rejected promises of write go unnoticed.)", "quantifier": "all sequences of polls of reading, writing, flushing and closing, all buffer sizes, all behaviours of the JavaScript object (throwing, pending, delivering, ending, rejecting)", "why_tests_cant": "It ranges over all interleavings of polls with all behaviours of a foreign object.", "anchors": ["crates/wasm/src/io.rs: JsIoAdapter::{poll_write, poll_flush, poll_close}"]}
{"id": "C87", "title": "Names of trusted roots are valid DER", "statement": "Wrapping bytes in a SEQUENCE never fails and gives the DER encoding with exactly these contents, with the shortest length field, for every length; encodings can be read back in one way only whatever follows them. The subject names of a root store are the encodings of its roots' subjects, in order, and different subjects have different names.", "quantifier": "all contents of any length below 2^64, all root stores", "why_tests_cant": "The tests try seven lengths; the claim is about all lengths, including each boundary of the length field.", "anchors": ["crates/tls-core/src/x509.rs: wrap_in_asn1_len, wrap_in_sequence", "crates/tls-core/src/anchors.rs: RootCertStore::subjects"]}
{"id": "C88", "title": "Client keys sign by an algorithm the server offered", "statement": "A private key is loaded by the first parser that accepts it, SEC 1 keys through a correct PKCS #8 document for their curve. With a loaded key, the chosen scheme is one the server offered and the key can do, signatures are made by the algorithm that the scheme's code point means, PSS and longer hashes are preferred, and nothing is chosen only if nothing usable was offered. A client asked for a certificate answers with its chain and such a signature, or with neither. (Refuted: a signature is sent only with a certificate: an empty chain is accepted.)", "quantifier": "all private key bytes, all behaviours of the key parsers, all lists of offered schemes and issuers", "why_tests_cant": "It ranges over all keys and all lists of schemes that servers may offer.", "anchors": ["crates/mpc-tls/src/client/sign.rs: any_supported_type, convert_sec1_to_pkcs8, choose_scheme", "crates/mpc-tls/src/client/config.rs: ClientConfig::new_with_client_auth", "crates/mpc-tls/src/client/hs.rs: ClientAuthDetails::resolve"]}
{"id": "C89", "title": "The cipher component computes AES-128 in counter mode", "statement": "A keystream has just enough blocks for the requested length; its inputs are new, distinct and unassigned; once the parties assign them, every block is AES of IV, nonce and counter under the key, whatever else happens in the virtual machine. Consuming gives no block out twice; assigning gives the blocks the nonce and consecutive counters and changes nothing else; a piece that is assigned and applied xors its input with the counter mode keystream; vectors are the concatenation of the blocks. (Refuted: blocks are always made under the last key that was set.)", "quantifier": "all virtual machine contents, keys, lengths, splits, nonces, counter functions, inputs and later assignments", "why_tests_cant": "Tests try one key and one message; the claim is about all lengths, splits and interleavings with other uses of the machine.", "anchors": ["crates/components/cipher/src/aes/mod.rs: Aes128", "crates/components/cipher/src/lib.rs: Keystream"]}
{"id": "C90", "title": "The SDK's prover runs each step at most once and in order", "statement": "For every sequence of calls, however each ends (success, failure, or the caller drops it), an SDK prover makes at most one commitment, then at most one connection, both in the configured mode, then at most one proof, about the transcript of that connection, then at most one closing. It says it is complete only if it proved and closed; the transcript it shows is that of its connection; after a failed or dropped call everything is refused and nothing reaches the library; the calls in their order succeed if the library does. (Refuted: a refused call leaves the prover as it was; a complete prover stays complete.)", "quantifier": "all configurations, all sequences of calls, all behaviours of the library below, dropping any call at any await", "why_tests_cant": "It ranges over all call sequences and all points at which a call may fail or be dropped.", "anchors": ["crates/sdk-core/src/prover.rs: SdkProver::{new, setup, send_request_mpc, send_request_proxy, transcript, reveal, is_complete}"]}
{"id": "C91", "title": "The SDK's verifier gives an output only after the whole protocol", "statement": "For every sequence of calls, however each ends (success, failure, or the caller drops it), an SDK verifier reads one proposal and either rejects it, or accepts it, and then an MPC proposal's stated sizes and record numbers are within the verifier's limits; then it runs at most one connection (in proxy mode by the socket set last), and verifies at most one proof, about that connection, accepts it and closes. It gives an output, and says it is complete, only if all of this succeeded; after a failed or dropped call (other than of set_server_socket) everything is refused and nothing reaches the library; the calls in their order succeed if the library does. (Refuted: a refused run leaves the verifier as it was.)", "quantifier": "all limits, all sequences of calls, all proposals, all behaviours of the library below, dropping any call at any await", "why_tests_cant": "It ranges over all call sequences and all points at which a call may fail or be dropped.", "anchors": ["crates/sdk-core/src/verifier.rs: SdkVerifier::{new, connect, setup, set_server_socket, run, verify, is_complete}"]}
{"id": "C92", "title": "Server names have prefix-free encodings", "statement": "No encoding of a server name made from a text is the start of the encoding of one made from another text; the name sent to the server is the text, and exactly the DNS names can be made. (Refuted: names that compare equal have equal encodings; addresses and DNS names have different encodings.)", "quantifier": "all texts, all checks of DNS names that bound their length by 253", "why_tests_cant": "It is about all pairs of names, and the length is truncated to a byte.", "anchors": ["crates/tls-core/src/dns.rs: ServerName::{encode, for_sni, try_from}"]}
