# Formal model of zkonge/husk in Rocq (Coq 8.16.1)

husk is a small TLS 1.2 client in pure Rust: one cipher suite (ECDHE on P-256, ChaCha20-Poly1305, SHA-256), no external
crypto. The model covers the whole crate except what is listed under "Not modelled": byte codecs, record layer, client
state machine and all primitives. Nothing is axiomatised: the cipher, hash, field and curve of the model are the code's
own algorithms, and the specifications they are compared with are written separately.

## Layout (rocq/theories)

* `Base.v`    bytes, machine integers, outcomes (`Ok`/`Err kind`/`Panic`/`Diverge`), a state monad, list helpers.
* `M_*.v`     the model: one definition per Rust function or loop body, each citing file and lines. No properties there.
* `Spec_*.v`  small independent specifications: RFC 5246/4492 layouts (`Spec_Wire`), record layer (`Spec_Record`),
              RFC 7539, FIPS 180-4, RFC 2104, TLS PRF (`Spec_Crypto`), integers mod p and the affine curve (`Spec_P256`,
              `Spec_Point`), Diffie-Hellman on the wire (`Spec_Ecdhe`), the handshake as seen by a server (`Spec_Client`).
* `P_*.v`, `NT_*.v`, `EC_*.v`  proofs. `NT_*`: Pocklington certificates, primality of p and of the group order n.
              `EC_Abs`: the affine group law (associativity included); `EC_Jac`: Jacobian formulas.
* `Prop_*.v`  only property theorems (`exact lemma`), each followed by `Print Assumptions`, and examples of the
              hypotheses being met.
* `T_Repo.v`  the repository's own unit tests replayed on the model. Tests, not proofs.

## What stands for what

| code | model |
|---|---|
| `u8` | `Coq.Init.Byte.byte` |
| other integers | `Z`, with explicit wrap (`Wrapping`, `as`) or explicit overflow check (`ck`) |
| debug / release build | parameter `m : mode`: `Debug` panics on overflow and failing `debug_assert!`, `Release` wraps and skips. Theorems are for both unless they say so |
| `usize` | 64 bit |
| `Vec`, slices, arrays | lists; arrays keep their Rust length in every value the code builds |
| `panic!`, `unimplemented!`, `assert!`, slice index out of range | `Panic` |
| unbounded loop | fuel, with `Diverge` for "ran out", and a theorem that `Diverge` never happens (C06, C30, C49) |
| transport, reading | list of results of `read()`: `RData bytes` (empty means 0) or `RErr`; after the list, end of file. A piece larger than the buffer is consumed in several calls |
| transport, writing | bytes accepted so far, and a plan of outcomes of `write_all`: `WOk`, or `WFail k` (k bytes accepted, then an error). After the plan all succeed |
| `OsRng` | finite tape of bytes; `next_u32` takes four, least significant first; an empty tape is the OS source failing, on which `OsRng` panics |
| `TlsError` | its kind; the message string is dropped |
| `Encryptor`/`Decryptor` boxes | functions (the implementations are stateless). Record-layer theorems are for every such function, then instantiated with the real cipher |
| mutable `self` | state monad; the state is returned on every outcome, so failures in the middle keep their effects |

### Not modelled

* The text given at each error site (`tls_err!(kind, "...")`): an error is its kind. The texts belonging to the kinds
  themselves (`Error::description`), `TlsError::new`, `SurugaError`'s wrapping and the conversion from `io::Error` are in
  `M_Small.v` (C94), as are the word conversions `to_w8` ... `to_w64`. The accessors of the transport are in C81.
* Derived `Clone`, `Debug`, `PartialEq`. `ReadExt`/`WriteExt` widths the crate never calls are covered generically by C10.
* `src/lib.rs` (module list), test modules except as `T_Repo.v`.
* Timing, caches and what the compiler makes of the code (see "Executions as programs" for what is said), memory safety, `Drop`, threads, allocation
  failure, real sockets, the `std`, `rand`, `byteorder`, `num` crates (their documented behaviour is what is modelled).
* Hardness: nothing says ChaCha20-Poly1305 cannot be forged or P-256 DH cannot be solved. C23, C25, C31 are therefore
  stated as "or the peer's stream contains a sealed record nobody made". What is proved without any assumption is a count: for how many
  one-time keys a forged record, or any number of them, is accepted (C103, C104), and that any data of the same lengths explains the
  records equally well under some key stream (C106).

### Executions as programs (`M_Leak.v`, `M_Leak2.v`)

The comments of the crate claim constant time in five places. For these claims the code is written a second time, as programs
over an abstract type of words `W`: a tree of instructions (constant, unary and binary operation, load and store at an index,
copy, conversion of bytes, jump on a word, overflow check). A program cannot look at a word except through an instruction, and
indices, lengths and loop bounds are natural numbers outside `W`; so only the jump and the overflow check can make later
instructions depend on a secret. `run` gives the result, `trace` the list of instructions with indices and outcomes of jumps.
C73 and C74 say first that `run` agrees with the functional model, then that traces are equal.

Assumptions of this reading: the operations on words take the same time for all operands (multiplication on some processors
does not), the compiler neither adds nor removes jumps that depend on words, copies and conversions depend on lengths only.
`x == 0` as a value (`crypto_compare`) is an operation; `x == 0` in an `if` or `assert!` is a jump. The overflow checks of
debug builds are jumps.

## Trusted base

* Coq 8.16.1's kernel (and `coqchk`, which rechecks every file).
* `Print Assumptions` is run after every theorem of `Prop_*.v`. All print "Closed under the global context": no axiom
  at all, neither of this development nor of the standard library. (The gate's list of `Coq.ssr.ssrunder` names are
  parameters of a standard library module type reached through `ring`/`lia`; no theorem uses them.)
* The model's fidelity to the Rust text. It was written function by function, re-read against the source line by
  line afterwards, and replays the repository's unit tests.
* The specifications `Spec_*.v`.

## Results per property

"refuted" means the statement of properties.jsonl is false of the code; the theorem `..._refuted : exists ...` has the
witness and further theorems say exactly what is true instead. How each is proved:

Codec (`src/tls_item.rs`, `macros.rs`, `handshake.rs`, `alert.rs`, `signature.rs`, `cipher/mod.rs`; `M_Codec`)
* C01 round trip, C02 sizes, C03 layout, C05 bounds, C06 totality, C07 enumerations: combinators mirroring the macros, laws proved per combinator, then every wire type. C02 has witnesses that prefixes lie beyond the field width (reachable only through values no constructor returns).
* C04 **refuted**: bytes after a ServerHello's extension block are dropped on re-serialisation, so the transcript hash differs from the server's. True for every other message.

Byte helpers (`src/util.rs`; `M_Util`)
* C08, C09 induction over read results. C10 for both host byte orders. C11 bit-level argument; also the AEAD's own comparison loop.

Record layer (`src/tls.rs`; `M_Record`)
* C12, C13 reassembly, C14 fragmentation, C15 stream through a matching pair, C16 numbering, C18, C20, C21: inductions over histories.
* C17 **refuted**: if the transport fails, the record counter is not advanced, and the next record is sealed with the same nonce (`C17_reuse_leaks_plaintexts`).
* C19 **refuted** for sealed records: plaintext over 2^14 bytes makes `Record::new` panic. C22 **refuted**: the record version is never checked.
* C23 reduction to a forged triple. C24 **refuted**: handshake bytes received in the clear stay in the buffer across ChangeCipherSpec; `C24_empty_buffer_suffices_partial` is the true part. At the client: `C24_client_refuted` is a connection whose Finished is half in the clear, `C24_split_accepted` says any split is accepted from any conforming server, `C24_ledger` says what always holds (at most 15 clear bytes, all of them bytes of the expected Finished, then sealed records numbered from 0 only).

Primitives (`src/crypto`, `src/cipher`; `M_Chacha20`, `M_Poly1305`, `M_Sha2`, `M_Prf`, `M_Aead`)
* C36-C41 equality with the RFC/FIPS definitions for all inputs in the range where the counters fit; outside it the exact behaviour (panic or wrap). HMAC keys over 64 bytes panic (`unimplemented!`).

P-256 (`src/crypto/p256.rs`; `M_P256`)
* C42-C44 limbs refine integers mod p; p is proved prime. C46 point formulas refine the affine law in all cases including exceptional ones. C48 agreement.
* C45 **refuted**: coordinates equal to p are accepted, a release build accepts points off the curve, a debug build panics on them.
* C47 **refuted**: `mult_scalar` loops over 7 limbs and 8 bits each, so only 56 bits of the scalar are used (`eff_scalar`). Both sides agree all the same when the peer is this code; against another implementation the public value is consistent, since it uses the same 56 bits; but the key has 56 bits of entropy.

Key exchange (`src/cipher/ecdhe.rs`; `M_Ecdhe`)
* C49 rejection sampling, C50 totality (debug panic **refuted**), C32 **refuted**: the curve name of the ServerKeyExchange is ignored.

Client (`src/client.rs`; `M_Client`)
* C25 delivery, C26 writing, C30 termination, C31 what success implies, C33 flight order, C34 alerts, C35 conforming servers complete; C51-C55 histories, panics, output, message order; C58 error kinds.
* C52 has one residual coincidence (`C52_reads_safe_unless`): if the server's verify_data ends in 3 to 6 bytes equal to the start of its own Finished, bytes injected in the clear can leave a complete-looking message in the buffer, on which a later `read` panics.
* C27 **refuted**: data after close_notify is delivered. C28 **refuted**: `read` swallows errors and goes on with the next record. C29 **refuted**: authentic but unexpected records make `read` panic.
* C34 has a refuted corner: a truncated handshake body is `IoFailure`, so no alert. C35 has two: a used scalar of zero makes the client send (0,0); a CertificateRequest is refused.
* C59 agreement of the two sides about the transcript (`P_Agree`), C60 bounded buffers (`P_Bound`), C61 use of randomness (`P_Rand`).
* C62 **refuted**: `write` after `close` is sent as usual. C63 **refuted**: ServerHello extensions are parsed and ignored, also unsolicited and duplicated ones.
* C64 **refuted**: truncation and orderly close give the same answers (`P_Eof`). C65 **refuted**: `read` waits until the buffer is full or the record layer fails.
* C66 **refuted**: the whole connection is a function of 56 bits of the private value (`P_KeySpace`, the consequence of C47 for the protocol).
* C72 and not fewer: public value and pre-master secret determine the 56 bits, all of which occur (`P_Exact`).
* C67 a peer with the same record layer hears exactly what was said (`P_Peer`).
* C68 **refuted**: every alert ends the handshake, warnings too (`P_Alert`). C69 **refuted**: a message that is too short gives an i/o error and no alert, one that is too long an internal error (`P_Decode`).
* C71 exactly the records sealed under the expected number are accepted (`P_Open`).
* C70 each error kind of construction implies its cause (`meaning` in `Spec_Client4`).
* C73 lengths alone steer comparison, sealing, HMAC and key expansion; opening shows the verdict only (`P_LeakP`, `P_LeakT`, `P_LeakA`, `P_LeakB`, `P_LeakS`, `P_LeakX`).
* C74 the same for the key exchange in release builds; **refuted** for debug builds, whose assertions branch on carries (`P_LeakY`).
* C75 and C76: `read_exact` and `read_to_end` of `std` on top of `read` (`M_Std`, `P_Std`); as signs of the end of the data both **refuted**. C77 `from_tcp` and the example program. The loops of `std` are written from its documentation, with arbitrary buffer sizes for `read_to_end`; the conversion of the shown bytes to text is left out.
* C78: conversations (`Spec_Talk`, `P_Talk`–`P_Talk3`, `Prop_Talk`). All other client properties give the client a fixed list of reads. A real server answers what it has seen, so the list depends on what the client sends. C78 shows that nothing is lost: every client function is causal in its source (it sends the same bytes whatever comes later), the cuts of the network do not matter, and every conversation with a causal server ends at one least fixed point. A blocked read is modelled by the mark `RErr` after the arrived bytes; a run that consumes the mark is *waiting* and is repeated from the start with more bytes, which C78_causal justifies. The server sends finitely many bytes for each finite input.
* C79: end to end (`Spec_Talk2`, `P_Talk4`, `P_Talk5`, `P_Server`). `tls_server` describes what a server sends after each prefix of what a conforming client can send; its plaintext service is any causal function. The end of the TLS conversation is the end of the plain one. `plain` already contains the peculiarity of `read` refuted in C65: a read waits until its buffer is full, so `ex_ping_stuck` shows a client and a server waiting for each other although the answer has arrived.
* C80: `M_Test` is src/test.rs itself. Its `null_tls` installs ciphers but no IV, a configuration the client never uses and C15 excludes; `P_Test` shows that an IV that is absent, short or long acts as one cut or zero-padded to 12 bytes, so C15 extends to it. The tests pass (proved, not run); the number of bytes per piece is exact here, C14 only says legal.
* C81: `Spec_Api`, `P_Api`. `api` lists every public call on a connected client, its public fields and the transports behind them; what Rust allows beyond that (moving the fields out, replacing `client.writer` by another `TlsWriter`) ends the connection and is left out. `TlsReader::read_record` is private. C82 **refuted**: the fields of `Record` are public, and `write_record` does not repeat the check of `Record::new`, so a record of 16385 to 18416 bytes built by hand is sealed and sent; the reader of this crate panics on such a record (C29).
* C83: debug against release (`Spec_Mode`, `P_Mode`, `P_Mode2`): a relational proof. States of the two builds are compared in everything except the two cipher objects, which are related as functions. During construction a panic of the debug build is excused (it happens for points off the curve, C51 lists the causes); afterwards only an exhausted record counter is.
* C84: counting (`Spec_Dist`, `P_Dist`): `has_size` is a bijection with an interval of integers. Probabilities appear only as such counts; uniformity of the operating system's source is outside the model.
* C85: blame for panics of reading calls (`Spec_Blame`, `P_Blame`), over the histories of `Spec_Api`. `no_pending` excludes a whole handshake message left in the reader's buffer by the handshake (C52 says when that can be).
* C86: conversations (as in C78) of programs over the whole public interface (`Spec_Program`, `P_Program`). A program is a tree of calls of `Spec_Api`; its next call may depend on the answers so far. The waiting of a call is read off the mark `RErr` at the end of the bytes that have arrived, as in C78. C86_history carries C81 to C85, which speak of fixed inputs, over to servers that react.
* C87: what C47 and C66 cost (`Spec_Spy`, `P_Spy`). The eavesdropper has the bytes of both directions only; `matches` tries one guess of the 56 bits by rerunning the handshake on the recording and comparing the public value. C87_halves is the algebra behind a search with 2 * 2^28 curve points; running time is not modelled.
* C88: what C57 costs (`Spec_Relay`, `P_Relay`), built on C79: the outcome of an application is a function of the service behind the server, so a relay with its own key exchange secret and a copied certificate cannot be told from the server. `learned` says how it gets the answers: by talking to the server through the client of this crate.
* C89: the language of accepted streams (`Spec_Accept`, `P_Accept`). The description has only bytes, frames and the sealing of C71; the model's reader, its buffer and its loops are absent, so the theorem ties them to the wire in both directions. It shows at a glance what the client does not look at: version bytes of records, certificates and signatures, bytes after the extensions of a ServerHello, where messages are cut, whether the Finished began before the ChangeCipherSpec (C24), and bytes after it.
* C90: the whole receiving side as a relation on bytes (`Spec_Receive`, `P_Receive`). `receive` has one rule for each thing that can come next, `filling` one for each way `read` can go on; both are proved equal to the model's readers, total and single-valued. What a reader of the rules sees: an error never moves the sequence number, so a stream goes on after any unknown byte, over-long header or forged record (C28); `read` forgets the error and, when it panics, the bytes it had already copied; a record's version bytes enter only through the tag. The rules assume a transport that ends and does not fail, and a stream that the 64-bit counter can number.
* C91: the same for construction (`Spec_Build`, `P_Build`): `building` gives the result of `TlsClient::new` and the stage it stops at, `all_sent` the bytes sent, for every stream; proved equal to the model, total and single-valued, and its `Ok` case equal to C89's `connecting`. The rules use the model's parser of one handshake message (`hs_read`, specified by C07) and its key exchange (`compute_keys`, specified by C23-C26), not its readers. Visible in the rules: an alert where a handshake message is awaited gives `AlertReceived`, the same alert where the ChangeCipherSpec is awaited gives `UnexpectedMessage`; records of the first flight are numbered but the number starts again at 0 with the keys; bytes of an unfinished message before the ChangeCipherSpec stay and become the head of the next message.
* C92: the cipher modules are public, so their behaviour outside a record is stated too (`M_Cipher`, `Spec_Cipher`, `P_Cipher`): `encrypt` and `decrypt` on every key, nonce and amount of data. Refuted against RFC 7539/7905, all out of reach of the record layer (16384 bytes, C36_records_fit): a debug build panics on the last block the RFC allows (`C92_debug_limit_refuted`); a release build lets the block count return to 0 and encrypts what follows with the block that holds the Poly1305 key of the same message, so known plaintext there gives that key (`C92_release_limit_refuted`, `C92_release_exposes_key`); the key stream repeats after 2^38 bytes, while the comment in src/crypto/chacha20.rs:94 allows 2^70 (`C92_stream_repeats`); `fixed_iv_len` answers 0, the record_iv_length of RFC 7905, not its fixed_iv_length 12 (`C92_fixed_iv_refuted`; nothing in the crate calls it, the handshake has its own 12). `new_aead` and `new_kex` panic on `UnknownCipherSuite`, which is what reading any other two bytes gives; the client only calls them on its own constant.
* C93: `Spec_Life.v` puts C91 and C90 together with writing: `lifetime` gives, for any application (adaptive programs of `read`, `write`, `close`) and any stream of bytes, the outcome of construction, the answers and all bytes sent. `C93_session` is an equivalence with the model; `C93_example` is the same for `examples/cloudflare.rs`, where every refusal and every crash in `read` is a panic, a failed `read` shows zeros, and what follows the data in the buffer of 4096 bytes is shown as zeros.
* C94: `M_Small.v` has the public functions the rest of the model does not need. `Alert::new` has a comment "TODO filter out some rfc-invalid alerts" and accepts all combinations, so that part of the property is refuted. The texts `desc` of errors are not carried by the errors of the rest of the model, which have the kind alone; no decision of the code depends on a text.
* C95: `Spec_Broken.v` drops the hypothesis `clean` of C90, C91 and C93: the reads of the transport may fail (`RErr`: timeouts, interruptions, resets) or give nothing at any point and go on afterwards. A source is seen as its `stretches`, the bytes between such reads; construction sees the first one only, and every later call goes on in the stretch where the last one ended. `fill_exact` (src/util.rs:88-112) drops the bytes it has already taken when a later read fails, and does not retry `Interrupted`, so a call that failed in the middle of a record cannot be repeated: `C95_retry_refuted`, `C95_never`. Between records it can (`C95_between`). What remains assumed in C95 about the transport is only that writes succeed (`healthy`); failing writes are the subject of C96.
* C96: `Spec_Any.v` drops the last hypothesis about the transport: every `write_all` on it may fail after any number of bytes (`WFail k`). What the client hands to the transport is cut into the slices of `write_record` (type, two version bytes, length, fragment: `sliced`), and `given_out` says what arrives; the description of construction (`venture`) is that of C91 put through it, so it shows which error hides which (`C96_first_part`: when the alert cannot be sent the caller gets `IoFailure` and not the reason). What remains assumed about the environment in `C96_session` is only that fewer than 2^64 records and bytes pass. An error of the transport has no content in the model (`IoFailure`), and `write_all`'s own loop over short writes is part of the environment. `C96_example` says the same of the example program (`examples/cloudflare.rs`): its whole behaviour, on every transport.
* C97: `Spec_Schema.v` is a small language of type declarations (`schema`), with the values, the layout and the item of each declaration; `C97_exact` is by induction on the declaration, so it speaks of all types the macros of `tls_item.rs` can define and not only of those the crate declares (`C97_crate` lists these). Not in the language: `tls_option!` (reads to the end), the hand-written `CipherSuite`, `Extension` and `Handshake`, which C01 to C06 treat one by one. Two declarations the macros accept are not as they should be (**refuted**): a vector of possibly empty elements makes `tls_read` loop for ever, and lengths from 2^32 on get an 8-byte prefix. The crate has neither.
* C98: `Spec_Loop.v` puts the loops of `std` (`M_Std`) on top of C95's description of `read`: `fulfils` for `read_exact`, `exhausts` for `read_to_end`. As `read` turns every error into a short answer and forgets it, a transport that fails between two records (a timeout, say) makes `read_exact` report the end of the data when the failure comes first, makes nobody notice when some data came before it, and makes the outcome of `read_to_end` depend on the sizes of its buffers (**refuted**, `C98_room_refuted`).
* C99: the counters of `TlsWriter` and `TlsReader` are `u64` and are incremented with `+=`; nothing renegotiates or closes before the last number. `Spec_Wrap.v` says what follows without the bound `< 2^64` of the other properties: in a release build numbers start again at 0, so after 2^64 records key and nonce come back on both sides (`C99_reuse_refuted`, `C99_replay_refuted`); in a debug build the call that used the number 2^64 - 1 panics after sending, or instead of delivering. Out of reach in practice; it shows the bounds in the other statements to be the exact ones.
* C100: the model gives the transport's writes as outcomes of whole calls of `write_all`. `M_Raw.v` has std's loop over single calls of `write` (short, interrupted, zero, failing), `Spec_Raw.v` programs that hand out slices (`wants`) and transports with any state (`lawful`). Every session of the model is such a program (`C100_session`), so nothing is lost by the coarser events. On the reading side `fill_exact` does not try again after `Interrupted`, unlike `std::io::Read::read_exact`, which the method of `ReadExt` with that name stands in for: one interrupted read during the handshake fails it (`C100_read_refuted`).
* C101: types and lengths of the client's records are determined by the lengths of the data written and the places of `close`, and by nothing else. Nothing is padded, so the number of bytes written shows exactly (`C101_length_refuted`); RFC 5246 6.2.3 has no padding for AEAD suites, so this is the protocol's doing, not the code's.
* C102: a stream accepted by two runs holds a record sealed under the keys of both; that this is unlikely is left to the assumptions about the primitives, which are not part of the model. Two runs with the same random bytes reuse key and nonce (`C102_tape_refuted`).
* C103: the theorems count one-time keys. That the key of a record is any one of them with equal chance is an assumption about ChaCha20, which is not part of the model. Keys with a clamped half of zero give everything one tag (`C103_never_refuted`); RFC 7539 accepts this.
* C104: RFC 5246 7.2.2 makes bad_record_mac fatal. The client does not end the connection: a forged record is dropped, `read` returns zero bytes, and the next record is tried under the same number and one-time key (`C104_one_try_refuted`). The count of keys grows with the number of tries and is otherwise that of C103.
* C105: `write_vectored` and `read_vectored` are std's defaults and serve one buffer only, as std allows; a caller that hands over several buffers must look at the count (`C105_vectored_all_refuted`). Cutting a write elsewhere than at a multiple of 16384 bytes changes the records on the wire (`C105_write_anywhere_refuted`), not the text the peer reads.
* C106: `Spec_Pad.v` writes the cipher over an arbitrary key stream; secrecy of the records is then a bijection of key streams (`turn`), with no assumption about ChaCha20. Where it fails is C17: `write_record` counts a record only after the last byte was taken, so after a write that failed the close_notify of `close` goes out under the nonce of the lost record. `C106_close_reveals`: its contents are known, and the first two bytes of the data can be read off the wire.
* C107: `Spec_Decode256.v` (the equations in integers), `P_Decode256.v` (`add` on any two 256-bit numbers, then the whole check), `P_Decode256c.v` (a handshake), `Prop_Decode256.v`. The last sentence of the property is false of the code: `C107_every_point_refuted`; its witness was found by a search over 2^30 values of x.
* C108: `Spec_Other.v` (the curves y^2 = x^3 - 3x + c), `P_Other.v` (C46 and C47 with c in place of b), `P_Other2.v` (the secret of a handshake, and a handshake for every accepted point), `Prop_Other.v`. The last sentence of the property is false of the release build: `C108_P256_refuted`.
* C109: the streams on which construction panics are described from the server's bytes and the random bytes (`breaks_down`, Spec_Crash.v), both directions. "The builds agree" is refuted: where the check of the server's point overflows, a debug build panics with only its ClientHello sent while a release build goes on (C109_agree_refuted); on every other stream the builds end alike (C109_builds). Needs a transport that delivers and takes all bytes (`clean`, `healthy`); for other transports C51 and C83 hold.
* C110: equal hash values are traced to a named pair of steps of the two computations (`collides`, Spec_Collide.v); a bare "there is a collision of the compression function" would be true by counting. "Whatever the keys" is refuted for keys of different lengths (C110_hmac_keys_refuted); the secrets the crate uses as HMAC keys have 32 and 48 bytes (C50_hmac_keys).
* C111: `turned` moves the four columns of the state round by one; `with_count` puts the block count into the state which `ChaCha20::new` gives. The last sentence of the property is false of states in general: the zero state is its own block (C111_moves_refuted). It is the only such state (C111_only_zero), and because of the constants no state of the cipher is (C111_moves).
* C112: the last clause of the property is false (C112_messages_refuted): TLS 1.2 without the extended master secret of RFC 7627 derives the keys from the secret of the exchange and the two randoms only, so two servers that share those give one set of keys with different certificates and signatures (C112_unbound). The IVs and the Finished values are 12 bytes of a block, so that equality of them says nothing about collisions of the hash; the theorems are about the 32-byte keys and the master secret.
* C113: the last two clauses of the property are false. The reader puts no limit of its own on a handshake message, so the 24-bit length is the limit, and a message may come one byte a record: a hundred million bytes leave every client undecided (C113_small_refuted). The loop of `read` (src/client.rs:328) goes on after an empty record, so empty application data keeps a read for as long as the server likes (C113_reading_refuted). The bound of C113_decided is not claimed to be tight: it adds up the worst case of each of the six messages.
* C114: `client_says` is everything a client sends in its life, so a peer that is fed it may be an echo, another client of the crate, or a proxy that cuts it short. The last clause keeps the case of a ciphertext that is a sealing under both keys: the AEAD does not commit to its key, and no theorem can exclude it. C114_refused_any and C114_two_clients_any are for transports that fail at any read or write.
* C115: the property as one would state it, that a record opens under one key, is false of ChaCha20-Poly1305 in any implementation. The witness is a 16-byte record under the keys 00…00 and 01…01, found by solving the linear equation that C115_few is about; Rocq checks it by computing `aead_encrypt` and the theorem that this is `aead_seal`. The eight of C115_few: the difference of the two accumulators lies between -2^130 and 2^130 and is known modulo 2^128, which leaves eight values; each value determines the block. C115_own_few applies it to the case that C114_own_record leaves.
* C116: the consequence of C17 for integrity. `guess` and `moved` mention no key: they are what an observer computes from the wire. The number of points is bounded and they are not listed; finding them is root finding modulo 2^130-5, which is easy but not part of the claim. In the model a failed `write_all` may have taken all its bytes; that of std has not, so the witness loses the last byte, and the bound has 256 for it.
* C117: the counterpart of C104, which says that of the 2^128 one-time keys that explain a record at most 2^36 for each try accept one of the forged records. Here the quantifiers say that the tries are made without the keys: the list is chosen before them. 2^106 is not practical; the point is that the client sets no limit. C117_needed and C117_sufficient count over all one-time keys of 32 bytes that explain the record, not over those the cipher makes of some session key: a list with the right tag for each of them has at least 2^92 tries, and there is one with 2^106. What a list that is right only for the keys the cipher makes needs is not said.
* C56 **refuted** in release builds (invalid-curve point completes a handshake). C57 **refuted**: certificates and the ServerKeyExchange signature are never checked.

Reading of properties where there was a choice: "well-formed" values (C01) are those the constructors and parsers can
return; "connected client" (C25 and later) is any client returned by a successful construction on any transport.

## Mutation tests

`seeded/LOG.jsonl` has one line per wrong program tried in a scratch copy. "theorems_failed" are the property theorems
that no longer have a proof: after the edit each lemma that does not check is replaced by an admission, and the
theorems whose `Print Assumptions` then shows one are listed. That a theorem fails in this sense does not always mean that its
statement became false, but every mutant listed as caught breaks at least one theorem about the claim named.
