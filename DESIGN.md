# Formal model of tlsnotary/tlsn in Rocq (Coq 8.16.1)

## How the model is organised

All files live in `rocq/theories/` (logical name `Verif`).

* `Lib/…` – general lemmas (bytes, lists, big-endian integers, ranges).
* `<Area>Model.v` – the model: small total Gallina functions, one per Rust function, each with a
  comment citing file and lines in `/repo`. Nothing else lives there.
* `<Area>Lemmas.v` – lemmas.
* `<Area>Spec.v` – the small specification the statements use, independent of the model's helpers.
* `<Area>Props.v` – the property theorems only: the statement, `exact lemma`, an `Example` with a concrete non-trivial instance meeting the hypotheses, and
  `Print Assumptions`.

Modelling conventions:

* `Vec<u8>`/`&[u8]` is `list N` (a byte is an `N`; `byte_ok` says `< 256` where it matters).
  `usize` is `nat` or `N`, unbounded; casts that truncate (`as u16`, `as u32`) are written as
  explicit `mod`.
* `Option`/`Result` stay data. A panic (slice out of bounds, `expect`, `assert!`) is the explicit
  constructor `Panic` of the type `outcome A := Ok a | Err e | Panic`.
* `&mut self` methods return the new state.
* `RangeSet<usize>` (crate `rangeset`, source not available here) is modelled by canonical sorted
  lists of non-empty, non-adjacent half-open ranges, with union/difference/subset implemented in
  the model and proved to be the set operations. Assumption: deserialization normalises.
* Cryptographic primitives (hash functions, signatures, certificate validation, AES, GF(2^128)
  multiplication, MPC/ZK virtual machine) are parameters of the theorems (Section variables that
  become universally quantified arguments). Binding properties conclude "… or here is an explicit
  collision", so no injectivity is ever assumed.
* MPC/ZK execution is modelled by its ideal functionality: a value computed in the VM equals the
  function computed; the VM's own protocols are outside the model.

## Properties: what is modelled and how it is proved

| id | files | proof idea |
|----|-------|-----------|
| C01–C07 | `Transcript*`: ranges, transcript, partial transcript, compression, merging, filling, commitment configuration | pointwise characterisation of each operation (lookup at every position), membership semantics of range sets, invariant over call lists |
| C08–C12 | `Proof*`: transcript proof builder, cover selection, verifier, hash provider as parameter | set-extensional reasoning over ranges; soundness by reduction to an explicit collision; C12 is refuted by a concrete counterexample plus a positive result for a single kind |
| C13–C14 | `Merkle*`: rs_merkle tree (odd nodes promoted), proof generation and verification | induction on levels; soundness by collision extraction; C14 refuted for out-of-range claims, proved otherwise |
| C15–C20 | `Attest*`: body fields, ids, BCS-style serialization with domain tags, header, signature oracle, presentation, request validation, identity proof, provider maps | reduction to Merkle soundness and injectivity of serialization; two clauses refuted with witnesses |
| C21–C24, C53 | `Tls*`: record parser, builder validation, handshake scan, hashes, to_transcript, extracted handshake data | induction on record lists; fragmentation independence |
| C25–C30 | `Codec*`, `Framing*`: TLS codec, message deframer, fragmenter, handshake joiner | round trips; simulation of a stream parser; C27 refuted for record versions |
| C31–C35 | `Auth*`: range map, keystream reconstruction, plaintext proof, verifier | pointwise keystream correspondence; C34 refuted with witness plus the exact condition |
| C36 | `Tag*` | injectivity of padded encodings, zip lengths |
| C37–C41 | `Record*` | invariants over operation histories; agreement by simulation; C38 (wrap-around) and C41 refuted with witnesses, with positive versions |
| C42–C43 | `Parts*` | induction on records; exact characterisation of accepted endings |
| C44 | `Share*` | xor algebra, zero-knowledge-style symmetry of pads |
| C45 | `Ghash*` | GF(2^128) arithmetic as polynomials over GF(2); powers, Horner scheme, shares |
| C46, C54 | `Config*` | case analysis on settings; refuted at the edges, proved elsewhere |
| C47 | `VdCheck*` | invariant over call lists on the machine of C49: layout of the cells of a check, at most one allocation and assignment |
| C55 | `VdCheck*` | induction on reads; refuted for a prover that sends nothing |
| C48 | `DeapMap*` | binary search over sorted ranges |
| C49 | `Prf*`, `Sha256.v` | ideal virtual machine with expected values per cell; invariant over call lists; decreasing measure for the flush loop |
| C50 | `KeyExchange*`, `Lib/PrimeCert.v` | arithmetic modulo the P-256 prime (Pocklington certificate, Fermat); phases of the two state machines as an invariant over call lists; the curve is any group with the chord rule |
| C51 | `Sdk*` | what is extracted per handler (induction over the handlers), the builders as set unions; the HTTP/JSON parser is a parameter |
| C56 | `SdkExtract*` | case analysis against a byte-level specification (`selects`); refuted for hidden array elements |
| C57 | `Sdk*` | the `HashSet` as a list with an arbitrary iteration order; refuted: the order of the openings is not that of the request |
| C52 | `Follower*` | two invariants over message lists, one counting messages, one for fixed values; composes C49 (key derivation), C40 (record log), C43 (final check) |
| C58 | `Follower*` | no-panic combinators for the record layer; termination from C49; refuted for three message sequences |
| C59 | `Deap*` | relation of the cells of both memories kept by every call (translation from C48); induction over addresses gives the inputs |
| C60 | `Handshake*`: every handshake message and extension of tls-core, both directions | each reader yields a value whose encoding is what it consumed; read-back by rewriting; instances of C22 and C53 without hypotheses on the parser |
| C61 | `SigAlg*` | which scheme means which algorithm for which key as a relation; case analysis over schemes and keys; refuted for P-384 keys |
| C62 | `Client*` | the client with a log of all it does; handshakes as a record of messages; invariant over states: bytes heard and said are those of a partial handshake |
| C63 | `Client*` | the log against the buffers; invariant: read = taken ++ waiting, for each of the six queues |
| C64 | `Client*` | failed states are closed under calls; panics as values; refuted: same error, alerts after encryption, panics in debug builds and before the start |
| C65 | `Leader*`, `Follower*` | simulation: the record layers of both parties are related (same counters, keys and queues up to what the follower does not know); each successful call keeps the relation when the follower handles its message |
| C66 | `Leader*` | relation between two leaders that do the same up to contents, parametric in what may differ; order by an invariant over the leader's states |
| C67 | `Leader*` | a successful run is a run of messages with contents at a record layer with the leader's role; the invariants of C52 and C40, generalised to both roles |
| C68 | `LeaderOut*` | invariant over all calls, failing ones included: the logs are what was handed out followed by what waits in the queues, and the types given are those handed out, waiting and not yet flushed |
| C69 | `LeaderCalm*` | invariant on top of C68's: the key derivation is reached by calls that succeed (C49), the nonces and tags in the buffers have their lengths, what is sent is known; closing analysed case by case, with a converse for a connection without records |
| C70 | `Conn*` | the future's poll, the connection's six buffers and the TLS client's states as one function of what the application, the socket and the jobs do; every poll is a sequence of 18 kinds of moves (ConnMoves.v), invariants over moves (ConnInv.v: buffers against the log of the TLS client; C63 for what is inside); a witness for unsent data |
| C71 | `Conn*` | invariants over moves for the two ends (ConnClose.v), with monotone flags of the TLS client (ConnMono.v) |
| C72 | `Conn*` | a rank on the states of the poll; three witnesses, the latter two with an invariant that no continuation leaves; more fuel changes nothing (ConnFuel.v) |
| C73 | `Conn*` | C64's theorem about panics with the invariants that the handshake is started once and that the backend was closed before it is finished |
| C74 | `ProxConn*` | the proxy client over an arbitrary TLS library with the loop of prover.rs; one invariant relating the four buffers, the recorded traffic and the log of the library's calls; witnesses with a toy library, one of them with a full pipe of 16 MiB |
| C75 | `ProxConn*` | the same invariant |
| C76 | `ProxConn*` | the same invariant; the last poll computed symbolically; an invariant that no continuation leaves for the witness |
| C77 | `Http*` | parse results as trees of position sets; the committers rewritten as lists of commit calls, these related to an inductive specification of the parts by induction on JSON values |
| C78 | `Http*` | for every position shown, the part that shows it and touches no secret, by induction on JSON values; composed with C08 and C12 about the proof builder; three witnesses |
| C79 | `Sess*` | steps of the driver and of any number of callers of `close` interleaved, with stale loads; one invariant over the flag, the waker slot and the log |
| C80 | `Sess*` | an invariant over the results in the log; induction over call sequences |
| C81 | `ProxVer*` | composition of the transcript (C20-C24, C53), the key derivation (C48), the Finished check and the tags; the machine's final values are computed in closed form |
| C82 | `ProxVer*` | the transcripts of both parties differ only in plaintext and time, on which keys and checks do not depend |
| C83 | `ProxVer*` | induction over the requests with C35 for each, on the memory the previous ones left |
| C84 | `ProxProve*` | induction over the requests with C35's completeness for each; proving does not depend on the plaintext in the records |
| C85 | `JsIo*` | one invariant relating the state to the log of all calls, deliveries and results; induction over the calls |
| C86 | `JsIo*` | the same invariant |
| C87 | `Key*` | DER lengths specified by X.690; induction over the bytes of the length |
| C88 | `Key*` | PKCS #8 documents specified by RFC 5208 from DER values and object identifiers; cases over kinds of keys and schemes |
| C89 | `Cipher*` | the virtual machine as a growing list of definitions; lemmas by induction over the blocks, stable under later additions and assignments |
| C90 | `SdkLife*` | state machine with a log of calls; invariant by state, induction over the calls |
| C91 | `SdkVer*` | state machine with a log of calls; invariant by state, induction over the calls |
| C92 | `NameEnc*` | lengths below 256 determine where a name ends |

## Trusted base

* Coq 8.16.1's kernel.
* Axioms: none. `Print Assumptions` below every property theorem prints *Closed under the global context*. (The libraries
  that are loaded contain seven axioms of ssreflect's `Under` machinery; no theorem depends on them.)
* That the Gallina functions say what the cited Rust lines say.
* What is assumed of code outside the repository, or outside the model:
  * `rangeset`: `RangeSet<usize>` is a normalised set of ranges, also after deserialization; union, difference, intersection,
    subset are the set operations; `cover_by` is any function with the specification `cover_ok` (its choice among
    covers is a parameter); comparing an empty `RangeSet` with the range `0..0` is a parameter (both outcomes covered).
  * `rs_merkle`: tree construction and proof reconstruction as modelled in MerkleModel.v.
  * `bcs`: the serialization format used for hashing attestation fields, as modelled in AttestModel.v.
  * Hash functions, signature verification and X.509 path validation are arbitrary functions (parameters). Binding theorems
    conclude with an explicit collision; signature theorems mention the oracle's answer.
  * Domain separators of differently named field kinds are different strings (checked by hand in the source).
  * The virtual machine (mpz): memory shared by both parties, assignments only of unassigned inputs by their owner, values
    computed are those of the circuits. The SHA-256 circuits compute what lib.rs `sha256` computes; AES circuits compute the
    parameter `aes`. GHASH in TagModel.v is a parameter, in GhashModel.v it is concrete; the bit order of `Block` and the
    multiplication of `Gf2_128` are modelled after the GCM specification.
  * Share converters return shares with the specified relation (honest run); tag shares of the peer in RecordModel.v are
    the honest ones (C45 justifies this).
  * Rust's standard library: `binary_search_by` as of Rust 1.84 (`rust_search` in DeapMapModel.v; C48 is also proved for any
    search with the documented specification), derived `Ord` of `Option`, `io::Read`/`io::Write` contracts, `Vec` and slices.
  * Rust's `is_subset` on memory ranges compares the bounds (C48). Reads of the proxied sockets return at most what was asked for.
  * The circuit `add_mod` is one addition and one conditional subtraction. The points of P-256 form a commutative group in which
    points with different x-coordinates are added by the chord rule (`curve_ok`, a hypothesis of C50).
  * spansy: spans are canonical range sets, `without_value` is the span without the value, a JSON path leads to a part of the
    document (hypotheses `message_ok`, `get_ok` of C51 and C56); regex: any function. Iterating a `HashSet` gives some order.
  * The follower's key exchange is an oracle in FollowerModel.v: a pre-master secret of 32 bytes or a failure for each key, and
    whether the final check succeeds (KeyExchangeModel.v models it, C50). The preprocessing of the machine has no effect.
  * futures-plex: a simplex is a bounded queue of bytes with an end; the two halves of a duplex are independent, dropping it closes
    both. Locks of the halves are always free when the future is polled. Wakers are not modelled: polls come whenever they like.
    Futures of jobs do their work when they are ready, after any number of polls. The switch for deferred decryption is not modelled
    (decryption is on), nor is the virtual machine's part of finishing (`n_final`, an oracle).
  * rustls in proxy mode (ProxConnModel.v): a type of states and nine functions, about which nothing is assumed in C74, C75 and the
    first two theorems of C76; the clock works.
  * spansy, the HTTP and JSON parser (HttpModel.v): its results are trees of position sets, children inside their parents and siblings
    apart; its `without_*` functions are differences of these sets, as documented; an array brings its positions without values.
  * The multiplexer (SessModel.v): a type of states and four functions, about which nothing is assumed but in C80_io_is_not_lost. Memory
    order: a load may miss a store unless the storing thread released the lock of the waker before the loading thread acquired it. That
    an executor polls a task again that was woken is not part of the model.
  * The parties of a proxied connection (ProxVerModel.v): the virtual machine is ideal, as in PrfModel.v, and both parties' machines hold
    the same values; the prover chooses the master secret. The exchange of messages that runs the machine is not modelled.
  * The JavaScript object (JsIoModel.v): arbitrary answers. The mutex and the stored waker, which is never used, are not modelled.
  * ring's parsers of private keys (KeyModel.v): arbitrary functions of the bytes. What they sign is not modelled, only which key, encoding and
    curve they are called with.
  * The virtual machine of CipherModel.v: definitions in order, inputs assigned once; the circuits `AES128_KS` and `AES128_POST_KS` are arbitrary
    functions whose composition is AES. Errors of the machine other than assigning twice are not modelled.
  * The library under the SDK's prover (SdkLifeModel.v): arbitrary results of each step; hyper and the spawned tasks are part of the request.
  * The library under the SDK's verifier (SdkVerModel.v): arbitrary results of each step. The sizes `as u32` in the output are not modelled.
  * rustls_pki_types' DNS names (NameEncModel.v): an arbitrary check that bounds the length by 253; that the bound holds and that it
    compares names without regard to case is recalled from its source, which is not in this sandbox: neither was checked here.
  * The two machines of DeapModel.v: the MPC machine decodes anything (C59's soundness), the ZK machine is sound: outputs are
    those of the circuits on the committed inputs and inputs of the leader are fixed when decoded. Which calls they refuse is stated there.
  * The parser of handshake bodies is a parameter of TlsModel.v; HandshakeModel.v is the parser, and C60 instantiates the
    theorems with it. Which byte strings are DNS names, and the curve of the key of a certificate, are parameters.
  * webpki's algorithms (SigAlgModel.v): each is for one kind of key; the identifiers of the ECDSA ones name the hash function
    only (RFC 5758); a key of another kind is refused as unsupported. The kind of a certificate's key and the validity of a
    signature are parameters.
  * The leader (LeaderModel.v) has the same oracles as the follower. C65 assumes that the shared machine takes the leader's data as input
    (`shared_input`) and that the follower's final check of the key exchange succeeds whenever the leader's does. After a failed key
    derivation the model forgets which values had been assigned (`broken`); this is not observable in a run of calls that succeed.
  * The surroundings of the TLS client (ClientModel.v): clock, randomness, certificate verifier and the backend (the leader) are
    functions of all that happened before. C62 and C63 assume (`backend_ok`) that the backend decrypts to bytes and gives
    decrypted records only after it was given records. A call runs to its end before the next one (no cancellation of futures).

## Findings

Each is a theorem unless marked (note), which means it was seen while reading and follows from the cited lines.

1. **Attested transcript commitments can be forged** (C14, C16 `_refuted`). rs_merkle promotes the last node of an odd layer
   unhashed, leaves and inner nodes share a hash domain, and the leaf count in a Merkle proof is not authenticated. A prover
   can have a body attested in which a blinded commitment contains a chosen hash and later open it as another field.
2. **`Attestation` validation does not bind the body** (C18 `_refuted`): `Request::validate` checks the signature over the header
   but does not compare the body with the signed root, so an unsigned body validates. Building a presentation from
   an attestation with colliding field ids panics.
3. **Session hash covers NewSessionTicket** (C23 `_refuted`): with a ticket the hash used for the extended master secret
   differs from RFC 7627.
4. **A request panics the verifier** (C34 `_refuted`, auth.rs:113): revealing everything and committing to an index after the end.
5. **Reveal may fail although a cover exists** (C12 `_refuted`): kinds are tried in order and partial covers are kept.
6. **Record versions** (C27 `_refuted`): SSLv2- and DTLS-like versions are accepted by the codec.
7. **Record-layer limits** (C38 `_refuted`): a length near 2^64 chosen by the leader wraps around, or panics with overflow
   checks. (C41 `_refuted`): records are padded one by one while the allocation is rounded up once, so traffic within the
   configured limits can fail; records without content always fail.
8. **Connection endings** (C43 `_refuted`, `_partial`): a direction with nothing after the handshake is refused; bytes after
   close_notify in the alert record are ignored.
9. **Limits within 32 of the largest `usize` overflow** (C46 `_refuted`).
10. **Record limits are compared as `Option`s** (C54 `_refuted`): a prover that leaves the number of records out passes any
    limit, one that states it is refused where no limit is set.
11. **The flush loop of the key derivation may never end** (C49): in the reduced network mode (the default of the
    configuration) a hash given before the master secret's seed makes `while prf.wants_flush()` loop for ever. A
    leader that sends `ClientFinishedVd` before `ServerHello` hangs the follower.
12. **A malicious follower's tag share shifts the tag the leader compares with** (C45), as is inherent in the scheme.
13. **A proxy verifier panics if the prover sends nothing** (C55 `_refuted`): the connection time is taken with `expect` from the
    first read of the prover's stream (tlsn/src/verifier.rs:352), and there is none if the prover closes the stream at once.
14. **Equal x-coordinates panic** (C50 `_refuted`): the inverse in the point addition is taken with `expect`
    (point_addition.rs:52). Honest parties meet this with negligible probability only.
15. **Openings are returned in the order of a `HashSet`** (C57 `_refuted`): `RevealOutput` is documented to open `commit.sent[i]` at
    `sent[i]`, but `TranscriptCommitConfigBuilder` collects the requests in a randomly seeded `HashSet`. With two or more
    ranges in a direction, openings may belong to other ranges, and a repeated range leaves fewer openings than ranges.
16. **`hideValue` reveals the value of an array element** (C56 `_refuted`): if the parent of the JSON path is an array, the hide
    options are ignored and the value itself is extracted. The hide options are also ignored for bodies whose handler has no
    type `json`; a handler of type `regex` without a pattern extracts the whole message.
17. **A leader can hang or crash the follower** (C58 `_refuted`): a hash before the hello loops for ever (finding 11), a hello as
    first message panics, and so does closing a connection without records (`TlsTranscript::build` panics on empty
    record lists). (note) The Finished message's length and trailing bytes are not checked.
18. (note) The verifier checks tags of received records only; `verify` does not compare the randoms of the handshake data;
    `server_identity` in a request is not compared with the presence of a handshake.
19. (note) `push_encrypt` uses up a sequence number also when it fails.
20. (note) The proxy's check of the Finished messages does not look at the handshake header.
21. (note) Giving the key derivation another seed between flushes in the reduced mode mixes the two seeds.
22. **Servers with a P-384 key cannot be proved** (C61 `_refuted`): `SignatureAlgorithm::from_alg` (tls-core verify.rs:486) compares
    the identifiers of signature algorithms, which are equal for both curves. The prover therefore records an ECDSA signature
    by a P-384 key as one by a P-256 key, and `HandshakeData::verify` refuses it. The transcript builder determines the curve
    from the certificate and is right.
23. **Errors of the TLS client are not repeated** (C64 `_refuted`): `process_new_packets` documents that later calls return the same
    error. If the error is that the bytes read are no records, or comes from the backend, the state has already been taken and
    later calls return `HandshakeNotComplete`.
24. **Alerts are lost once the client encrypts** (C64 `_refuted`): an alert queued by an error is handed to the backend, but the
    backend is flushed only by a later successful `process_new_packets`, which never comes. The documentation says that `write_tls`
    sends it. The server therefore does not learn why (for instance that its Finished message was wrong).
25. **Alerts of an unknown level** (C64 `_refuted`): the client answers with a fatal alert but goes on; a second one trips a
    `debug_assert!` in `send_fatal_alert`, so a server can make debug builds panic.
26. **Calls out of order panic** (C64 `_refuted`): records processed before `start`, and a second `start`, reach `unreachable!()`.
    Errors of `start` itself are not returned by it but by the next `process_new_packets`.
27. **The prover panics when it closes a connection without records** (C69 `_refuted`): `close_connection` (leader.rs:657) builds a
    transcript whose records are indexed without a check (as in finding 17), and takes the signature's algorithm with `expect`.
28. **Data in the transcript that were never sent** (C70 `_refuted`): data that the application writes before the poll that sees the
    server's end of the socket are encrypted, committed to the transcript as sent, and then neither written to the socket nor waited
    for (prover.rs:311; mpc.rs hides the TLS client from `Finalizing` on). The future succeeds and the prover can prove them sent.
29. **A server that closes during the handshake makes the prover recurse for ever** (C72 `_refuted`): `State::Busy` polls itself again
    as long as `server_closed` is set (mpc.rs:248-251), and `State::Active` only goes on to closing once the handshake is complete. With
    nothing left to process the job is ready at once, so the poll never returns and the stack overflows.
30. **Bytes after close_notify** (C72 `_refuted`): the TLS client takes no more bytes after a close_notify, so they stay in the buffer, and
    the end of the socket is only noticed when the buffer is empty (prover.rs:427-445). The future wakes itself without end.
31. **Dropping the connection early** (C72 `_refuted`): data that nobody can read keep the record layer non-empty, so a prover whose
    application dropped its connection before the end of the response spins in `CloseActive` for ever (mpc.rs:272-285).
32. **Proxy mode: data sent that are not in the records** (C74 `_refuted`): what the application writes in the poll that sees the server's
    end is added to `app_sent` and encrypted, then the traffic is taken (proxy/mod.rs:251) and the records written to the socket after it
    (prover.rs:460-463). The verifier's proxy forwarded records that the prover's transcript lacks.
33. **Proxy mode: records that were never sent** (C74 `_refuted`): as in finding 28, success does not wait for the socket; `tls_sent` then has
    records that the verifier never saw.
34. **Proxy mode: the end of the response can be lost** (C74 `_refuted`): plaintext is only read in `Connected` (proxy/mod.rs:152-154). If the
    pipe to the application (16 MiB) is full when the server's last bytes are processed, the next poll goes to `Finalizing` and the plaintext
    left in the library reaches neither the application nor `app_recv`; building the transcript then fails with "insufficient plaintext".
35. **Proxy mode: a server that closes during the handshake** (C76 `_refuted`): `Handshaking` never looks at `server_closed`
    (proxy/mod.rs:205-231) and the library is not told of the end, so the future never ends and the application is never told.
36. **A request without headers and body: the target cannot be hidden** (C78 `_refuted`): the request without its data is only committed to
    if there is a header or a body (http/commit.rs:130), although the documentation (105-109) says it always is; then the method and the
    version belong to no commitment but that of the whole request.
37. **JSON bodies with bytes around the value** (C78 `_refuted`): of a JSON body only the parts of the root value are committed to, while
    the rest of the message excludes the whole body. Bytes of the body outside the root value (blanks or a line end, or the quotes of a
    body that is a single string, if the parser counts them to the body) belong to no commitment but that of the whole message, so
    hiding any value hides them too, or fails when they are asked for.
38. **Elements of arrays** (C78 `_refuted`): they can only be shown or hidden all together; the code says so in a TODO (json/commit.rs:159).
39. **`Session::is_closed` after `try_take`** (C80 `_refuted`): the IO can only be taken from a closed session, but then `is_closed` is false
    (session.rs:100-105, `unwrap_or_default` of a missing connection).
40. **What the proxying verifier does not check** (C81 `_refuted`): the four bytes of header of the Finished messages and the tags of the
    client's records. A server that follows TLS checks both, so a real connection with such records would not go on.
41. **Writes to a JavaScript stream** (C86 `_refuted`): the promise of `write` is dropped, so a rejected write is reported as a success and
    neither flushing nor closing finds out (wasm/src/io.rs:230-252; the code calls it a common pattern).
42. **Client certificates** (C88 `_refuted`): `new_with_client_auth` accepts an empty chain; asked for a certificate, the client then sends an
    empty Certificate message and still a CertificateVerify message, which RFC 5246 (7.4.8) does not allow (mpc-tls/src/client/config.rs:111,
    tls12.rs:640-674). The server's list of acceptable issuers is not looked at (config.rs:230-241).
43. **Changing keys** (C89 `_refuted`): `Aes128::set_key` does not reset the key schedule, so after a block was allocated a new key is
    ignored (components/cipher/src/aes/mod.rs:53, 77). The record layer sets each cipher's key once, so it is not affected.
44. **Refused calls of the SDK's prover** (C90 `_refuted`): every method takes the state before it looks at it, so a call at the wrong time (a
    second `setup`, `send_request_proxy` in MPC mode) or with a range outside the transcript leaves the prover in its error state and ends
    a good session; after a completed session a further call makes `is_complete` false (sdk-core/src/prover.rs:71, 106, 378).
45. **Refused calls of the SDK's verifier** (C91 `_refuted`): `run` in proxy mode before `set_server_socket` is refused with the advice to call
    `set_server_socket()` first, but the state is already taken: the session is lost and the advice cannot be followed
    (sdk-core/src/verifier.rs:210, 233-238).
46. **Encodings of server names** (C92 `_refuted`): `ServerName::encode` promises a unique encoding, but names that are equal (they are compared
    without regard to case) have different ones, and addresses get the type code of DNS names, so the address 97.98.99.100 and the name `abcd`
    share one (tls-core/src/dns.rs:42-61). Users cannot make addresses, and nothing in this repository calls `encode`.

## Not modelled

* MPC/ZK protocol internals (mpz crates), async runtime (polls come in any order), multiplexer, sockets (what they do is arbitrary), wasm bindings other than the stream adapter, benchmarks, examples.
* HTTP/JSON parsing (crate spansy, only its results are modelled), X.509 path validation (webpki).
* TLS 1.3 code paths of the TLS client and tls-core (not reachable: only TLS 1.2 suites are configured).
* Serialization derived by serde other than what is hashed.
