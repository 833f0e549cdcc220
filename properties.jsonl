{"id": "C01", "title": "Wire encodings round-trip", "statement": "For every well-formed TLS item of every type the crate can serialise (hello messages, certificates, key exchange, finished, alerts, extensions, signature structures), parsing the bytes produced by tls_write followed by arbitrary further bytes returns exactly the original value and leaves exactly the further bytes.", "quantifier": "all well-formed values of each wire type, all trailing byte strings", "why_tests_cant": "The value space is unbounded (vectors of vectors, opaque blobs); the only repository test serialises one ClientHello.", "anchors": ["src/tls_item.rs: tls_struct!, tls_vec!, tls_enum!, tls_array!", "src/handshake.rs: Handshake, ClientHello, ServerHello, Extension, CertificateList", "src/signature.rs", "src/alert.rs", "src/cipher/ecdhe.rs: EcdheServerKeyExchange"]}
{"id": "C02", "title": "Declared size equals serialised size", "statement": "tls_size of an item equals the number of bytes tls_write emits for it, for every value tls_write accepts; the length prefixes built from tls_size are therefore the true lengths.", "quantifier": "all values of each wire type", "why_tests_cant": "Length prefixes are computed, not measured; a wrong case in one nested type corrupts framing only for particular values.", "anchors": ["src/tls_item.rs: tls_size, data_size", "src/handshake.rs: tls_hello_extension!, tls_handshake!"]}
{"id": "C03", "title": "Serialised messages follow RFC 5246 layout", "statement": "The bytes written for each handshake message are exactly the RFC 5246/4492 presentation-language layout: one type byte, 24-bit big-endian body length, then the body fields in order with big-endian length-prefixed vectors.", "quantifier": "all well-formed handshake messages", "why_tests_cant": "A round-trip test cannot detect a symmetric layout error, and only finitely many messages can be compared.", "anchors": ["src/handshake.rs: impl TlsItem for Handshake", "src/macros.rs: try_write_num!"]}
{"id": "C04", "title": "Accepted server messages re-serialise to the received bytes", "statement": "The client hashes re-serialised server messages instead of the raw bytes. For every handshake message the parser accepts, re-serialising it must reproduce the bytes that were received (so both peers hash the same transcript).", "quantifier": "all byte strings accepted by the handshake parser", "why_tests_cant": "Tests exercise canonical inputs only; the property is about every input an arbitrary server can send.", "anchors": ["src/client.rs: handshake (msgs)", "src/handshake.rs: Handshake::tls_read", "src/tls_item.rs: tls_option!"]}
{"id": "C05", "title": "Vector bounds are enforced", "statement": "A length-bounded vector type can only be obtained, through its constructor or by parsing, with a total serialised size inside its declared [min, max]; values outside are refused with DecodeError.", "quantifier": "all element lists and all input byte strings, for every tls_vec type", "why_tests_cant": "Boundary values of 16- and 24-bit ranges cannot be enumerated.", "anchors": ["src/tls_item.rs: tls_vec!::new, tls_vec!::tls_read"]}
{"id": "C06", "title": "Parsers are total on hostile input", "statement": "Parsing any byte string as any wire type, and reassembling handshake messages from it, terminates and returns a value or a TlsError; it never panics, never loops, and never reads past the input.", "quantifier": "all byte strings", "why_tests_cant": "Fuzzing samples; absence of a panic or an endless loop on every input is a universal claim.", "anchors": ["src/tls_item.rs: tls_read implementations", "src/handshake.rs: HandshakeBuffer::get_message"]}
{"id": "C07", "title": "Enumerations decode exactly the listed codes", "statement": "Each wire enumeration (alert level, alert description, hash, signature, compression, named curve, point format, content type) accepts exactly its listed code points and refuses every other code with the documented error kind.", "quantifier": "all code points", "why_tests_cant": "Partly testable per enum; the claim covers all enums and is needed by every parser theorem.", "anchors": ["src/tls_item.rs: tls_enum!", "src/alert.rs", "src/signature.rs", "src/tls.rs: ContentType"]}
{"id": "C08", "title": "Reads do not depend on how the transport splits the stream", "statement": "fill_exact/read_exact over a transport that returns data in arbitrary non-empty pieces delivers exactly the next len bytes, and whole records, messages and client reads are the same for every way the transport splits the same byte stream.", "quantifier": "all byte streams, all splittings into read() results", "why_tests_cant": "The schedule of short reads is chosen by the OS and peer; there are exponentially many.", "anchors": ["src/util.rs: ReadExt::fill_exact, read_exact", "src/tls.rs: TlsReader::read_record, read_message"]}
{"id": "C09", "title": "Premature end of stream is an I/O error", "statement": "If the transport ends or fails before the requested bytes arrive, fill_exact returns an I/O error and never returns a short or padded buffer.", "quantifier": "all streams, all failure points", "why_tests_cant": "Every possible cut point of every stream.", "anchors": ["src/util.rs: ReadExt::fill_exact", "src/tls_result.rs: From<io::Error>"]}
{"id": "C10", "title": "Integer encodings are independent of host endianness", "statement": "The big/little-endian readers, writers and array helpers produce and accept network order on both little- and big-endian hosts, and reading back what was written returns the value.", "quantifier": "all u16/u32/u64 values, both host byte orders", "why_tests_cant": "A test host has one byte order, and 2^64 values cannot be enumerated.", "anchors": ["src/util.rs: read_write_prim!, u64_be_array, u64_le_array, ReadExt, WriteExt"]}
{"id": "C11", "title": "Constant-time comparison decides equality", "statement": "For equal-length inputs crypto_compare returns true exactly when the two byte strings are equal, and the MAC comparison in the AEAD accepts exactly equal tags.", "quantifier": "all pairs of equal-length byte strings", "why_tests_cant": "The bit-folding could miss a difference pattern that no sampled pair shows.", "anchors": ["src/util.rs: crypto_compare", "src/cipher/chacha20_poly1305.rs: decrypt"]}
{"id": "C12", "title": "Handshake reassembly is independent of record fragmentation", "statement": "However a sequence of handshake messages is cut into non-empty handshake records (several messages per record, or one message over several records), the reader yields the same sequence of messages.", "quantifier": "all message sequences, all fragmentations", "why_tests_cant": "Exponentially many fragmentations of unboundedly long sequences.", "anchors": ["src/handshake.rs: HandshakeBuffer", "src/tls.rs: read_message"]}
{"id": "C13", "title": "A malformed handshake message does not desynchronise the buffer", "statement": "When a complete but unacceptable handshake message is buffered, get_message reports an error, removes exactly that message and keeps all later bytes; an incomplete message is kept untouched.", "quantifier": "all buffer contents", "why_tests_cant": "Needs every buffer content and every message length.", "anchors": ["src/handshake.rs: HandshakeBuffer::get_message"]}
{"id": "C14", "title": "Outgoing data is cut into legal records", "statement": "write_data emits, for any payload, a sequence of records with the requested content type, version 3.3 and a correct 16-bit length, each fragment non-empty and at most 2^14 bytes (at most 2^14+16 once sealed), whose fragments concatenate to the payload; the internal too-long panics are unreachable.", "quantifier": "all payloads and content types, before and after encryption is enabled", "why_tests_cant": "Payload lengths are unbounded and include multiples of the record size.", "anchors": ["src/tls.rs: TlsWriter::write_data, write_record, Record::new"]}
{"id": "C15", "title": "What one endpoint writes the other reads", "statement": "If a writer and a reader hold the same key and IV and the transport delivers the bytes, then for any sequence of writes of any content types and sizes, the reader returns the same messages in order and with the same contents.", "quantifier": "all write sequences, keys, IVs, transport splittings", "why_tests_cant": "Unbounded histories; the repository test does one 16584-byte write with a null cipher.", "anchors": ["src/tls.rs: TlsWriter, TlsReader", "src/test.rs"]}
{"id": "C16", "title": "Sequence numbers and nonces never repeat while writes succeed", "statement": "Under one key the k-th sealed record uses sequence number k in the additional data and nonce (0^4 || k) xor IV; as long as no transport write fails and fewer than 2^64 records are sent, no nonce is used twice.", "quantifier": "all histories of successful writes, all IVs", "why_tests_cant": "2^64 possible sequence numbers and unbounded histories.", "anchors": ["src/tls.rs: write_record, write_count, set_encryptor, set_iv"]}
{"id": "C17", "title": "Nonces never repeat under transport failures", "statement": "No two different records are ever sealed under the same key and nonce, also when transport writes fail part-way and the application writes again.", "quantifier": "all histories with arbitrary transport failure points", "why_tests_cant": "Every crash point in every history.", "anchors": ["src/tls.rs: write_record (write_count updated after the writes)", "src/client.rs: write_all, send_tls_alert"]}
{"id": "C18", "title": "No application data is sent in the clear", "statement": "Application data can be written only once an encryptor is installed (otherwise the call panics and writes nothing), and once it is installed every byte sent is a record header or sealed output; the encryptor can be installed only once.", "quantifier": "all histories of writer calls", "why_tests_cant": "A history property over arbitrary call sequences.", "anchors": ["src/tls.rs: write_application_data, set_encryptor, write_record"]}
{"id": "C19", "title": "Over-long records are refused, not buffered and not fatal", "statement": "A record header announcing more than 2^14+2048 bytes, or a plaintext fragment above 2^14 bytes, is refused with RecordOverflow without a panic, in the clear and under encryption.", "quantifier": "all record lengths, all contents", "why_tests_cant": "The encrypted case needs a validly sealed over-long record.", "anchors": ["src/tls.rs: read_record"]}
{"id": "C20", "title": "Records of unknown type are refused", "statement": "A record with any content type other than 20..23 is refused with UnexpectedMessage, at any point of the connection.", "quantifier": "all content-type bytes, all states", "why_tests_cant": "Must hold in every reader state.", "anchors": ["src/tls.rs: read_record"]}
{"id": "C21", "title": "ChangeCipherSpec and Alert records are validated", "statement": "A ChangeCipherSpec message is reported exactly for the one-byte fragment 01; an alert is reported only for a fragment of at least two bytes with known level and description; everything else of these types is UnexpectedMessage.", "quantifier": "all record fragments, all reader states", "why_tests_cant": "Must hold for every fragment.", "anchors": ["src/tls.rs: read_message"]}
{"id": "C22", "title": "Records with a wrong protocol version are refused", "statement": "A record whose version field is not 3.3 is refused.", "quantifier": "all version bytes", "why_tests_cant": "All 65536 versions in every state.", "anchors": ["src/tls.rs: read_record"]}
{"id": "C23", "title": "Delivered application data is what the peer sent", "statement": "Whatever bytes an attacker puts on the wire, the application data the reader delivers is a prefix of the data the peer sealed, in order, without loss, duplication or reordering, unless the attacker produced a valid AEAD tag for a (nonce, additional data, ciphertext) triple the peer never produced.", "quantifier": "all attacker-chosen byte streams, all peer histories", "why_tests_cant": "Adversarial inputs are unbounded.", "anchors": ["src/tls.rs: read_record, read_count", "src/cipher/chacha20_poly1305.rs: decrypt"]}
{"id": "C24", "title": "A handshake message is not assembled across the encryption boundary", "statement": "After ChangeCipherSpec the Finished message the client checks consists only of bytes that arrived in encrypted records.", "quantifier": "all byte streams sent by a server or attacker", "why_tests_cant": "Needs adversarial record interleavings.", "anchors": ["src/tls.rs: read_message, set_decryptor", "src/handshake.rs: HandshakeBuffer"]}
{"id": "C25", "title": "Client reads return the byte stream whatever the buffer sizes", "statement": "The concatenation of the bytes returned by successive reads is the concatenation of the application-data records received, independent of the sequence of buffer sizes used; no byte is lost, duplicated or reordered between calls.", "quantifier": "all record sequences, all sequences of buffer sizes", "why_tests_cant": "Unbounded call histories.", "anchors": ["src/client.rs: impl Read for TlsClient"]}
{"id": "C26", "title": "Client writes are all-or-error", "statement": "write returns Ok(n) only with n = buf.len() and after the complete sealed data has been handed to the transport; otherwise it returns an error.", "quantifier": "all buffers and all transport failure points", "why_tests_cant": "All failure points.", "anchors": ["src/client.rs: impl Write for TlsClient"]}
{"id": "C27", "title": "No data is delivered after close_notify", "statement": "Once the peer's close_notify has been received, no read delivers further data.", "quantifier": "all streams", "why_tests_cant": "Needs streams that continue after close_notify.", "anchors": ["src/tls.rs: read_application_data", "src/client.rs: read"]}
{"id": "C28", "title": "A failed record authentication is reported", "statement": "When a received record fails authentication, the read call reports an error to the application and the connection is not used further.", "quantifier": "all corrupted streams", "why_tests_cant": "All corruption points.", "anchors": ["src/client.rs: read"]}
{"id": "C29", "title": "Post-handshake records cannot crash the client", "statement": "No record the peer sends after the handshake makes a client read panic.", "quantifier": "all post-handshake record sequences", "why_tests_cant": "All peer behaviours.", "anchors": ["src/tls.rs: read_application_data (unimplemented!)", "src/tls.rs: read_record (panic!)"]}
{"id": "C30", "title": "Every client call terminates on finite input", "statement": "The handshake's message loops, read_message, read_application_data and read return after consuming finite input; none of the loops can run forever unless the transport or random source supplies data forever.", "quantifier": "all finite transports", "why_tests_cant": "Termination for every input.", "anchors": ["src/tls.rs: read_message loop", "src/client.rs: read loop", "src/cipher/ecdhe.rs: get_random_x loop"]}
{"id": "C31", "title": "A completed handshake negotiated the offered parameters", "statement": "If construction of the client succeeds, the server's hello carried version 3.3, suite 0xCCA8 and null compression, the messages arrived in the order ServerHello, Certificate, ServerKeyExchange, ServerHelloDone, ChangeCipherSpec, Finished, the server's public key decoded to an accepted curve point, and the Finished contents equal the PRF of the transcript under the derived master secret.", "quantifier": "all server behaviours, all randomness", "why_tests_cant": "All server byte streams.", "anchors": ["src/client.rs: handshake"]}
{"id": "C32", "title": "The key exchange uses the curve that was offered", "statement": "The handshake fails with IllegalParameter if the server's key exchange names a curve other than secp256r1.", "quantifier": "all server key exchange messages", "why_tests_cant": "All named curves in otherwise valid messages.", "anchors": ["src/cipher/ecdhe.rs: compute_keys"]}
{"id": "C33", "title": "The client's flight is well-formed and switches to encryption exactly once", "statement": "In every run the bytes the client emits during the handshake are: ClientHello in the clear; then, only after ServerHelloDone, ClientKeyExchange and ChangeCipherSpec in the clear followed by Finished sealed with sequence number 0; or a prefix of this followed by at most one alert.", "quantifier": "all server behaviours, all randomness, all transport failure points", "why_tests_cant": "All runs.", "anchors": ["src/client.rs: handshake, new, send_tls_alert"]}
{"id": "C34", "title": "Failures are signalled by the right alert", "statement": "When the handshake fails, exactly one fatal alert corresponding to the returned error kind is sent (sealed if encryption was already enabled), except for transport failures, where nothing is sent; the error is returned to the caller.", "quantifier": "all failing handshakes", "why_tests_cant": "All error paths.", "anchors": ["src/client.rs: new, send_tls_alert", "src/alert.rs: from_err"]}
{"id": "C35", "title": "The handshake completes with every conforming server", "statement": "For every client randomness and every server that follows RFC 5246/7905 with this suite (any random, session id, extensions the client understands or not, certificate chain, ephemeral key, signature, record fragmentation and transport splitting), client construction succeeds, and both sides hold the same keys and IVs.", "quantifier": "all conforming servers, all randomness, all fragmentations", "why_tests_cant": "Unbounded space of servers; needs the elliptic-curve group law.", "anchors": ["src/client.rs: handshake", "src/cipher/ecdhe.rs: compute_keys"]}
{"id": "C36", "title": "ChaCha20 is the RFC 7539 stream cipher", "statement": "For every key, nonce and data, encryption xors the data with the RFC 7539 keystream (consecutive block counters), preserves length, is its own inverse, and never overflows the block counter on data a record can hold.", "quantifier": "all keys, nonces, data lengths", "why_tests_cant": "Five vectors cannot cover counter carry and tail handling for all lengths.", "anchors": ["src/crypto/chacha20.rs: ChaCha20"]}
{"id": "C37", "title": "Poly1305 limb arithmetic equals the mathematical definition", "statement": "For every message, r and s, authenticate returns ((sum of clamped-r polynomial over the 17-byte blocks mod 2^130-5) + s) mod 2^128, and no 32/64-bit addition or multiplication overflows.", "quantifier": "all messages, all keys", "why_tests_cant": "Carry bugs appear for about one input in 2^100; tests cannot find them.", "anchors": ["src/crypto/poly1305.rs: authenticate, compute_block, finalize"]}
{"id": "C38", "title": "SHA-256 implements FIPS 180-4", "statement": "For every message shorter than 2^61 bytes, sha256 returns the FIPS 180-4 digest; padding produces whole blocks and distinct messages have distinct padded forms.", "quantifier": "all messages", "why_tests_cant": "Three vectors do not cover all padding cases.", "anchors": ["src/crypto/sha2.rs: sha256"]}
{"id": "C39", "title": "HMAC and the TLS PRF follow the RFCs, for every sequence of requests", "statement": "hmac_sha256 equals RFC 2104 HMAC for keys up to 64 bytes, and for every sequence of get_bytes requests the concatenated outputs are the corresponding prefix of RFC 5246 P_SHA256; request boundaries do not matter.", "quantifier": "all keys, seeds, request sequences", "why_tests_cant": "The history of request sizes is unbounded.", "anchors": ["src/cipher/prf.rs: hmac_sha256, Prf::get_bytes"]}
{"id": "C40", "title": "Sealing and opening are inverse, and opening accepts nothing else", "statement": "Opening a sealed record under the same key, nonce and additional data returns the plaintext; conversely whenever opening succeeds the input is exactly the sealing of the returned plaintext; inputs under 16 bytes are refused.", "quantifier": "all keys, nonces, additional data, inputs", "why_tests_cant": "All inputs.", "anchors": ["src/cipher/chacha20_poly1305.rs: encrypt, decrypt, compute_mac"]}
{"id": "C41", "title": "The MAC input determines additional data and ciphertext", "statement": "Two different (additional data, ciphertext) pairs never produce the same Poly1305 input.", "quantifier": "all pairs of pairs", "why_tests_cant": "Injectivity over all inputs.", "anchors": ["src/cipher/chacha20_poly1305.rs: compute_mac"]}
{"id": "C42", "title": "Field arithmetic modulo P-256 is exact", "statement": "On reduced inputs, add, sub, mult, square, double and divide_by_2 return the reduced representative of the corresponding operation modulo p; mult is exact on all 256-bit inputs; no debug assertion fires.", "quantifier": "all field elements", "why_tests_cant": "2^512 pairs; carry and borrow paths have negligible random probability.", "anchors": ["src/crypto/p256.rs: int256"]}
{"id": "C43", "title": "Field inversion is exact", "statement": "For every non-zero reduced x, inverse(x) * x = 1 modulo p (p is prime), and inverse(0) = 0.", "quantifier": "all field elements", "why_tests_cant": "All field elements.", "anchors": ["src/crypto/p256.rs: Int256::inverse"]}
{"id": "C44", "title": "Byte conversions of field elements round-trip", "statement": "to_bytes is 32-byte big-endian, from_bytes accepts exactly 32-byte strings and inverts it.", "quantifier": "all 256-bit integers, all byte strings", "why_tests_cant": "2^256 values.", "anchors": ["src/crypto/p256.rs: to_bytes, from_bytes"]}
{"id": "C45", "title": "Point decoding accepts exactly the curve points", "statement": "from_uncompressed_bytes accepts a byte string iff it is 04 || x || y with x, y < p and (x,y) on the P-256 curve, and never panics.", "quantifier": "all byte strings", "why_tests_cant": "Invalid-curve and non-canonical encodings are adversarial.", "anchors": ["src/crypto/p256.rs: from_uncompressed_bytes"]}
{"id": "C46", "title": "Point addition and doubling implement the curve group law", "statement": "For all points on the curve (including infinity, equal and opposite operands), double and add return a Jacobian representation of the affine chord-and-tangent sum, which is again on the curve.", "quantifier": "all pairs of points, all Jacobian representations", "why_tests_cant": "Exceptional cases are unreachable by random tests.", "anchors": ["src/crypto/p256.rs: Point256::double, add, normalize"]}
{"id": "C47", "title": "Scalar multiplication computes n*P", "statement": "mult_scalar(n) returns n times the point for every 256-bit n.", "quantifier": "all points and scalars", "why_tests_cant": "All scalars.", "anchors": ["src/crypto/p256.rs: mult_scalar"]}
{"id": "C48", "title": "Diffie-Hellman agreement", "statement": "For any two private values, combining one side's private value with the other side's public value gives both sides the same shared secret.", "quantifier": "all pairs of private scalars", "why_tests_cant": "All pairs; needs associativity and commutativity of the group law.", "anchors": ["src/cipher/ecdhe.rs: compute_keys", "src/crypto/p256.rs"]}
{"id": "C49", "title": "Private scalars are drawn by rejection below p", "statement": "The private value is the first group of eight 32-bit draws whose value is below p; it is never altered by the acceptance test.", "quantifier": "all random tapes", "why_tests_cant": "All tapes.", "anchors": ["src/cipher/ecdhe.rs: get_random_x"]}
{"id": "C50", "title": "Key-exchange messages are bounded and canonical", "statement": "compute_keys either returns a 66-byte client public value (length-prefixed uncompressed point) and a 32-byte pre-master secret, or an error; keys passed to HMAC are at most 64 bytes so HMAC's unimplemented branch is unreachable from the client.", "quantifier": "all server messages, all randomness", "why_tests_cant": "All inputs.", "anchors": ["src/cipher/ecdhe.rs: compute_keys", "src/cipher/prf.rs: hmac_sha256"]}
{"id": "C51", "title": "Construction panics only for named causes", "statement": "If TlsClient::new panics then the random source ran dry, or (debug builds only) the overflow check fired while the server's public point was decoded, or the transport carries a record over 16384 bytes that authenticates under the server's key of this very session.", "quantifier": "all server byte streams, all randomness, all transport failure points", "why_tests_cant": "Needs every panic site on every path excluded.", "anchors": ["src/client.rs: new, handshake", "src/tls.rs: read_record (panic!)", "src/cipher/ecdhe.rs: get_random_x"]}
{"id": "C52", "title": "Only sealed records can crash a read", "statement": "After the handshake a read panics only if the transport carries a record that authenticates under the server's key and is not application data or is over 16384 bytes long; nobody without the session keys can crash a connected client.", "quantifier": "all byte streams, all read histories", "why_tests_cant": "Unbounded streams and call histories.", "anchors": ["src/client.rs: read", "src/tls.rs: read_application_data"]}
{"id": "C53", "title": "Reads and writes do not interfere", "statement": "In every interleaving of read, write and close calls the reads return what they would return without the writes, and the writes and closes emit and return what they would without the reads.", "quantifier": "all interleavings of calls, all transports", "why_tests_cant": "Exponentially many interleavings.", "anchors": ["src/client.rs: Read/Write for TlsClient, close"]}
{"id": "C54", "title": "Everything sent after the handshake is sealed under consecutive numbers", "statement": "After construction, for every history of calls, the bytes on the wire are the handshake flight followed by one sealed record per fragment, with sequence numbers 1, 2, 3, ...: application data for writes (in order, concatenating to the written buffers), a close_notify alert for close; on a working transport all calls succeed.", "quantifier": "all call histories", "why_tests_cant": "Unbounded histories.", "anchors": ["src/client.rs: write, close", "src/tls.rs: write_record"]}
{"id": "C55", "title": "Messages out of order are refused", "statement": "If a handshake message other than the expected one arrives before ServerHelloDone, construction fails with UnexpectedMessage and the client's output is ClientHello followed by the fatal unexpected_message alert.", "quantifier": "all server behaviours", "why_tests_cant": "All orders of messages.", "anchors": ["src/client.rs: expect! macro"]}
{"id": "C56", "title": "A completed handshake used a point on the curve", "statement": "If construction succeeds, the server's public key is a point of P-256.", "quantifier": "all server behaviours, all randomness", "why_tests_cant": "Needs crafted coordinates.", "anchors": ["src/cipher/ecdhe.rs: compute_keys", "src/crypto/p256.rs: from_uncompressed_bytes"]}
{"id": "C57", "title": "A completed handshake verified the server's certificate and signature", "statement": "If construction succeeds, the ServerKeyExchange signature was checked against a certificate the server sent.", "quantifier": "all server behaviours", "why_tests_cant": "The absence of a check cannot be seen by tests with honest servers.", "anchors": ["src/client.rs: handshake"]}
{"id": "C58", "title": "Every failure is reported with its own error", "statement": "On a working transport construction fails with error k exactly when one of the listed faults of kind k occurs: a handshake message that cannot be read (k is the read error) or is not the expected one (UnexpectedMessage), ServerHello parameters that were not offered (IllegalParameter), a key exchange that cannot be used (k from compute_keys), a ChangeCipherSpec that cannot be read, or wrong verify data in Finished (DecryptError). The output is then exactly what was sent up to that stage followed by the alert for k, or by nothing when k is IoFailure.", "quantifier": "all server behaviours, all randomness", "why_tests_cant": "All positions and kinds of failure.", "anchors": ["src/client.rs: new, handshake, send_tls_alert"]}
{"id": "C59", "title": "A completed handshake agrees with the server", "statement": "When construction succeeds, a server that has exactly one view of the handshake (a master secret and a list of messages up to the client's Finished) and sealed its own Finished under the connection's server key as its first protected record has the same master secret and the same list of messages as the client, unless: a record not made by the server authenticates under that key; or the two Finished messages overlap so that one can be spliced onto clear bytes of the other; or a SHA-256 or PRF collision occurs. Each exception is an explicit witness.", "quantifier": "all transports, all randomness, all server views", "why_tests_cant": "A statement about every possible disagreement between the two sides.", "anchors": ["src/client.rs: handshake", "src/tls.rs: read_message, change cipher handling", "src/handshake.rs"]}
{"id": "C60", "title": "Buffers stay within fixed limits", "statement": "Whatever the peer sends and whatever the application calls, the handshake buffer never exceeds 2^24+2 plus one record and the application buffer never exceeds one record.", "quantifier": "all transports, all histories of calls, both builds", "why_tests_cant": "Unbounded input streams.", "anchors": ["src/handshake.rs: HandshakeBuffer", "src/tls.rs: TlsReader", "src/client.rs: TlsClient::read"]}
{"id": "C61", "title": "Random bytes are used once and nothing else is drawn", "statement": "Construction draws a prefix of the random source: the first 32 bytes for the client random, then groups of 32 bytes until the first accepted private key; its result depends on no other random byte; read, write and close draw none.", "quantifier": "all transports, all random sources, all histories", "why_tests_cant": "Independence from the rest of the random source is a statement about all sources.", "anchors": ["src/client.rs: new, handshake", "src/cipher/ecdhe.rs: compute_keys"]}
{"id": "C62", "title": "Nothing is sent after close", "statement": "After close has sent its close_notify no later call on the client puts further bytes on the wire.", "quantifier": "all connected clients, all later calls", "why_tests_cant": "All call histories.", "anchors": ["src/client.rs: close, write"]}
{"id": "C63", "title": "Unsolicited ServerHello extensions are refused", "statement": "A ServerHello that carries an extension the client did not offer, or the same extension twice, makes the handshake fail (RFC 5246 7.4.1.4).", "quantifier": "all server hellos", "why_tests_cant": "All extension lists.", "anchors": ["src/client.rs: handshake", "src/handshake.rs: HelloExtension"]}
{"id": "C64", "title": "A cut connection is told from an orderly close", "statement": "If the transport ends before a close_notify alert has arrived, the application learns of it: some read returns an error, and the results differ from those of an orderly close after the same data.", "quantifier": "all connected clients, all cuts, all sequences of buffer sizes", "why_tests_cant": "All positions of the cut and all read sequences.", "anchors": ["src/client.rs: TlsClient::read", "src/tls.rs: read_application_data"]}
{"id": "C65", "title": "A read returns once there is data", "statement": "A read into a non-empty buffer returns as soon as some application data has arrived; it does not wait for further records to fill the buffer.", "quantifier": "all connected clients, all buffer sizes", "why_tests_cant": "Depends on the arrangement of records and buffer sizes.", "anchors": ["src/client.rs: TlsClient::read"]}
{"id": "C66", "title": "The whole private value goes into the key exchange", "statement": "Different private values below the group order that are not negatives of each other give different public values and pre-master secrets.", "quantifier": "all pairs of private values, all server messages", "why_tests_cant": "Pairs of 256-bit values.", "anchors": ["src/crypto/p256.rs: mult_scalar", "src/cipher/ecdhe.rs: compute_keys", "src/client.rs: handshake"]}
{"id": "C67", "title": "The other side reads exactly what the client says", "statement": "A peer that reads the client's bytes with the same record layer and the session's client keys reads the ClientHello, ClientKeyExchange, ChangeCipherSpec and Finished of the session, then one message per record of the history of calls, and then the end of the stream; the application data it reads is the concatenation of all written buffers.", "quantifier": "all connected clients, all histories of calls, all ways the peer's transport splits the bytes", "why_tests_cant": "Unbounded histories.", "anchors": ["src/client.rs: handshake, write, close", "src/tls.rs: TlsWriter, TlsReader"]}
{"id": "C68", "title": "Warning alerts do not end the handshake", "statement": "An alert of level warning received during the handshake, other than close_notify, does not make construction fail.", "quantifier": "all streams, all points of the handshake", "why_tests_cant": "Depends on where in the handshake the alert arrives.", "anchors": ["src/client.rs: read_handshake, read_change_cipher_spec", "src/alert.rs: AlertLevel", "src/tls.rs: read_message"]}
{"id": "C69", "title": "Messages of the wrong length are reported as decode errors", "statement": "A complete handshake message whose announced length is too small or too large for its fields makes construction fail with DecodeError and the decode_error alert.", "quantifier": "all handshake messages, all truncations and extensions", "why_tests_cant": "All cut points of all messages.", "anchors": ["src/tls_item.rs: tls_struct, tls_vec", "src/handshake.rs: HandshakeBuffer::get_message", "src/util/error.rs: From<io::Error>"]}
{"id": "C70", "title": "Every error names its cause", "statement": "If construction fails, the error kind determines what was received: AlertReceived only if an alert record was read, BadRecordMac only for a protected record, DecryptError only if the Finished value differs from the expected one, IllegalParameter only for a parameter that was not offered or a point off the curve, and so on for each kind.", "quantifier": "all streams, random tapes and healthy transports", "why_tests_cant": "Quantifies over all failing executions.", "anchors": ["src/client.rs: TlsClient::new, handshake", "src/tls_result.rs"]}
{"id": "C71", "title": "Protected records are accepted exactly if they were sealed", "statement": "With keys installed, a complete record of admissible length is accepted exactly if its fragment is the AEAD sealing, under the expected sequence number, of some plaintext for that record's type, version and length; every other record gives BadRecordMac and takes no sequence number.", "quantifier": "all readers with keys installed, all records", "why_tests_cant": "All byte strings as fragments; the accepting ones are one in 2^128.", "anchors": ["src/tls.rs: read_record", "src/cipher/chacha20_poly1305.rs: decrypt"]}
{"id": "C72", "title": "The key exchange has exactly 2^56 outcomes", "statement": "With a fixed honest server, two private values lead to the same public value, and to the same pre-master secret, exactly if they agree in the 56 bits that mult_scalar looks at; every combination of these bits can be drawn.", "quantifier": "all honest servers, all pairs of random tapes", "why_tests_cant": "Pairs of 256-bit values.", "anchors": ["src/crypto/p256.rs: mult_scalar", "src/cipher/ecdhe.rs: compute_keys"]}
{"id": "C73", "title": "Contents do not steer the symmetric code", "statement": "Comparing secrets, sealing a record, HMAC and the key expansion execute the same instructions, touch the same indices and take the same jumps for all contents of the same lengths, in both builds; opening a record differs only in its last jump, the verdict.", "quantifier": "all keys, nonces, data, associated data, secrets and seeds of equal lengths; both builds", "why_tests_cant": "A test sees results, not which addresses and branches depended on them, and the claim is about pairs of executions.", "anchors": ["src/util.rs: crypto_compare", "src/cipher/chacha20_poly1305.rs: encrypt, decrypt, compute_mac", "src/crypto/chacha20.rs", "src/crypto/poly1305.rs", "src/crypto/sha2.rs", "src/cipher/prf.rs"]}
{"id": "C74", "title": "The private value does not steer the key exchange in release builds", "statement": "In a release build the scalar multiplications, the normalisation and the encoding execute the same instructions, touch the same indices and take the same jumps for all private values and points; drawing the private value shows only which candidates were thrown away. In a debug build this is false: the assertions in reduce_once and sub jump on secret values.", "quantifier": "all private values, points and lists of candidates", "why_tests_cant": "Pairs of executions over 256-bit values.", "anchors": ["src/crypto/p256.rs", "src/cipher/ecdhe.rs: get_random_x, compute_keys"]}
{"id": "C75", "title": "read_exact fills the buffer or reports the end", "statement": "std's read_exact over read returns a full buffer of consecutively read bytes, or UnexpectedEof; the second exactly when the server's data ends. The last part is false: a record nobody made gives UnexpectedEof with the data still to come, and in the middle of the data it is not noticed at all.", "quantifier": "all clients, buffer sizes, transports and builds", "why_tests_cant": "Junk records at chosen places between genuine ones, and all fragmentations.", "anchors": ["src/client.rs: read"]}
{"id": "C76", "title": "read_to_end returns all the data", "statement": "std's read_to_end over read ends, with one result for any choice of buffer sizes: all of the server's data. Success is supposed to mean that the end was reached. The last part is false: a cut connection and a record nobody made give success too.", "quantifier": "all clients, all sequences of buffer sizes, transports and builds", "why_tests_cant": "All sequences of buffer sizes; attackers on the transport.", "anchors": ["src/client.rs: read"]}
{"id": "C77", "title": "The example program sends its request and shows the answer", "statement": "With a conforming server, examples/cloudflare.rs sends the handshake, the HEAD request in one record and a close alert, and shows the first 4096 bytes of the answer, filled up with zeros. On any transport it shows nothing before the handshake is complete and only bytes the server sealed. A failed clone of the socket is an i/o error without any output.", "quantifier": "all conforming servers, answers, randomness and transports", "why_tests_cant": "Needs a server; all answers and attackers.", "anchors": ["examples/cloudflare.rs", "src/client.rs: from_tcp"]}
{"id": "C78", "title": "Conversations have one outcome", "statement": "With a server that answers what it has seen, and a network that delays and cuts as it likes, every conversation of an application with it comes to an end, and the end (bytes received, bytes sent, answers of all calls) is the same in every course of events. The client never sends depending on bytes that have yet to arrive, and how the arrived bytes were cut does not matter.", "quantifier": "all causal servers, adaptive applications (any calls depending on any answers), transports for writing, randomness, builds and interleavings", "why_tests_cant": "All interleavings of a reactive server, a network and an adaptive application.", "anchors": ["src/client.rs: new, read, write, close", "src/tls.rs: TlsReader, TlsWriter"]}
{"id": "C79", "title": "A TLS server and the client are a pipe", "statement": "For every server that follows RFC 5246 with this suite and offers some service behind it, and every application: the conversation over TLS ends exactly as the same conversation on a plain pipe, where a read of n bytes waits for n bytes. The same calls return the same answers, the server hears what the application said and nothing else, the application gets what the service sent.", "quantifier": "all servers, services, adaptive applications, fragmentations, interleavings, builds, and randomness with a usable private value", "why_tests_cant": "Every server program, service and application; all interleavings.", "anchors": ["src/client.rs: new, read, write, close", "src/tls.rs"]}
{"id": "C80", "title": "The crate's own record tests hold for all data", "statement": "Both tests of src/test.rs pass in debug and release builds, and what the second checks for one input holds for all: application data written with any cipher pair whose decryption undoes its encryption arrives cut after every 16384 bytes, the last piece being the remainder, whatever the IV and even without one; every other sequence of messages arrives as well.", "quantifier": "all data, all cipher pairs, all IVs or none, all sequence numbers below 2^64, all ways the transport splits the stream, both build modes", "why_tests_cant": "The tests use one length, one cipher and one chunk of input.", "anchors": ["src/test.rs", "src/tls.rs: write_data, write_record, read_record, read_message"]}
{"id": "C81", "title": "The whole public interface of a connected client", "statement": "For every history of calls on a connected client - its own methods, those of its public fields reader, writer and rng, and the raw transports behind reader() and writer() - the keys and IVs of both directions stay those of the handshake and any attempt to replace one panics; on a transport that works, the k-th sealed record of the connection has sequence number k and no nonce occurs twice; what goes out is sealed records and the bytes pushed past the TLS layer, nothing else; reading, writing and drawing randomness do not disturb each other; every call returns; writing calls within the limits of the writer never panic.", "quantifier": "all connections, all histories of calls with all arguments, all transports, both build modes", "why_tests_cant": "Call sequences are unbounded and mix three objects; the tests of the crate use none of them after a handshake.", "anchors": ["src/client.rs:19-52", "src/client.rs:248-349", "src/tls.rs:75-192", "src/tls.rs:202-242", "src/tls.rs:336-430"]}
{"id": "C82", "title": "No call sends an over-long record", "statement": "No call on a connected client makes it seal more than 2^14 bytes in one record (RFC 5246 6.2.1).", "quantifier": "all connections, all histories of calls, both build modes", "why_tests_cant": "The limit is checked in Record::new only; the fields of Record are public, so a record built by hand passes write_record unchecked.", "anchors": ["src/tls.rs:43-70", "src/tls.rs:115-156"]}
{"id": "C83", "title": "Debug and release builds behave alike", "statement": "A construction that does not panic in a debug build gives the same result in a release build: same outcome, same bytes on the wire, same randomness used, same state. After a successful construction every history of calls gets the same answers in both builds, panics included, until a record counter has reached 2^64-1.", "quantifier": "all transports, random tapes and histories of calls through the whole public interface", "why_tests_cant": "The suite runs in debug builds and users run release builds; that the tests say anything about the latter is a statement about all executions at once. The arithmetic is checked in one and wraps in the other, and debug_assert! is evaluated in one only.", "anchors": ["src/crypto/p256.rs:392-419", "src/crypto/poly1305.rs:28-206", "src/crypto/chacha20.rs:81-91", "src/crypto/sha2.rs:24-43", "src/util.rs:29-41", "src/tls.rs:153", "src/tls.rs:320", "src/client.rs:27-350"]}
{"id": "C84", "title": "Private values are uniformly distributed", "statement": "For every number k of rejected groups, every private value below p is drawn from the same number of random tapes, (2^256-p)^k; no other value is drawn from any; and exactly (2^256-p)^k tapes of k groups yield nothing. Of the 2^56 values the key exchange really uses (C47, C66), each stands for at least 2^200-2^168 and at most 2^200 private values.", "quantifier": "all private values, all numbers of rejections, both build modes", "why_tests_cant": "A statement about the sizes of sets of 2^256 and more elements; a biased draw (reduction instead of rejection, a stuck bit, an off-by-one in the comparison) passes every functional test.", "anchors": ["src/cipher/ecdhe.rs:135-147", "src/crypto/p256.rs:208-222", "src/crypto/p256.rs:392-401"]}
{"id": "C85", "title": "Who can make a reading call panic", "statement": "Over every history of calls on the public interface of a connected client that does not replace the reader's keys, a reading call (read, read_message, read_application_data, read_handshake, read_change_cipher_spec, raw reads) panics only if the bytes still to come at connection time contain a record sealed under the server's key and IV that is over-long, or, for the two calls that ask for application data only, one that is not application data (or a whole message was left over from the handshake). Over-long sealed records make each of the four reader methods panic; alerts, ChangeCipherSpec and handshake messages make read_application_data panic.", "quantifier": "every connected client, every byte stream and segmentation, every history of public calls of any length, both builds", "why_tests_cant": "the attacker's byte stream, the interleaving of raw and decoded reads and the record boundaries are unbounded; tests see a few servers", "anchors": ["src/tls.rs:244-430", "src/client.rs:323-350", "src/client.rs:20-22", "src/client.rs:43-51"]}
{"id": "C86", "title": "Conversations of programs that use the whole public interface", "statement": "For every program over the public interface of a connected client (methods of TlsClient, of its public reader, writer and rng fields, and raw transport access), whose next call may depend on all answers so far, and every server whose output is a monotone function of what it has seen: the outcome and the output depend only on the bytes that have arrived, not on how they were cut; nothing already sent or answered depends on bytes still to come; every course of the conversation leads to one and the same end; at every moment the client's state is that after a history of calls on a fixed input, so that in particular no nonce is used twice.", "quantifier": "every program (tree of calls), server, network schedule, transport behaviour and random tape, both builds; arbitrarily long conversations", "why_tests_cant": "interleavings of network delivery, program choices and server reactions are unbounded", "anchors": ["src/client.rs:20-60", "src/client.rs:248-350", "src/tls.rs:60-430"]}
{"id": "C87", "title": "A recording and 2^56 guesses give away a connection", "statement": "Because only 56 bits of the private value reach the key exchange, an eavesdropper who sees nothing but the bytes of both directions can recover the session: some guess e below 2^56, fed to the handshake together with the recorded client random, reproduces the recorded public value; only one does; the session it gives is that of the connection with all its keys; with it everything the client wrote is decrypted and a replay gives all the data it read. Two lists of 2^28 curve points suffice to find the guess.", "quantifier": "every connected client, server, byte stream, random tape and history of calls, both builds", "why_tests_cant": "the statement is about all connections and all guesses; a test would have to search 2^56 values", "anchors": ["src/crypto/p256.rs:208-222", "src/cipher/ecdhe.rs:121-163", "src/client.rs:54-246"]}
{"id": "C88", "title": "The service alone decides what the application gets", "statement": "For every application, every two able clients (any build, transport that works, randomness) and every two TLS servers with any certificates, signatures, key exchange secrets and record boundaries that offer the same service, the conversations end alike for the application. The answer of a server to anything can be learned by talking to it with this client. Hence (a consequence of C57) a relay that knows no secret of the server, with parameters of its own, offers every application the same end while it shares the session keys with the client, hears all the application says and chooses all it reads.", "quantifier": "all applications, services, server parameters, servers, build modes, transports, random tapes", "why_tests_cant": "compares two whole conversations for all pairs of servers; a test would need a second machine in the middle and shows one exchange", "anchors": ["src/client.rs:55-215", "src/client.rs:217-350"]}
{"id": "C89", "title": "Exactly which byte streams connect", "statement": "For every build, randomness and transport that writes, `new` succeeds if and only if the bytes it can read begin with: handshake records in the clear, cut anywhere and with any version bytes, that hold ServerHello, Certificate, ServerKeyExchange and ServerHelloDone with values the client goes on with (bytes after the ServerHello's extensions are allowed) followed by at most the beginning of one more message; a ChangeCipherSpec record with any version bytes; sealed handshake records numbered from 0 under the server's key which, appended to that beginning, hold the expected Finished, the last one possibly going beyond it. The description is unique, gives the client's state after the connection, and nothing after it matters. No function of the model's readers is used in the description.", "quantifier": "all byte streams, all ways of cutting them into pieces, build modes, random tapes, transports that write", "why_tests_cant": "an if-and-only-if over all byte streams: tests can show single accepted or refused streams, not that nothing else is accepted", "anchors": ["src/client.rs:55-215", "src/tls.rs:247-430", "src/handshake.rs:329-370", "src/handshake.rs:203-264"]}
{"id": "C90", "title": "What reading gives, for every stream of bytes", "statement": "For a connected client whose transport ends without an error, the answer of one `read_application_data` and of one `read` with a buffer of any size, and what is left of the stream, of the kept handshake bytes, of the sequence number and of the received data, are exactly those of a description by records: a whole record that opens under the next number gives its data, an empty answer for close_notify, a panic for any other alert, a ChangeCipherSpec, a whole handshake message or more than 16384 bytes; an unknown type byte costs one byte, a length above 18432 five bytes, a forged record itself, and none of the three the number; the end of the stream in the middle of a record loses that part. `read` fills the buffer, or stops without a sign at the first error, or panics and loses what it had. The description has one answer for every stream and uses none of the model's readers.", "quantifier": "all byte streams, all ways of cutting them into pieces, keys, sequence numbers, bytes kept in either buffer, buffer sizes, build modes; streams that fit the 64-bit counter", "why_tests_cant": "an if-and-only-if over all byte streams and all states of a connection; a test sees one stream", "anchors": ["src/client.rs:323-350", "src/tls.rs:247-430", "src/tls.rs:394-412"]}
{"id": "C91", "title": "What construction answers and sends, for every stream of bytes", "statement": "On a transport that takes everything written and whose incoming side ends without an error, the result of `TlsClient::new` and the bytes it has sent are exactly those of a description by records and messages: the first thing that is not as awaited decides. The end of the stream gives an input/output error without an alert; an unknown type byte, an unexpected message or an empty handshake record UnexpectedMessage; a length above 18432 or a clear fragment above 16384 RecordOverflow; an alert AlertReceived, but UnexpectedMessage in place of the ChangeCipherSpec; wrong parameters or a wrong key exchange the error of that check; a record that does not open BadRecordMac; a wrong Finished DecryptError; and each of these but the first is followed by its alert. The description has one answer for every stream, is Ok exactly for the streams of C89, and uses none of the model's readers.", "quantifier": "all byte streams, all ways of cutting them into pieces, random bytes, build modes; streams that fit the 64-bit counter", "why_tests_cant": "an if-and-only-if over all byte streams; a test sees one stream", "anchors": ["src/client.rs:27-41", "src/client.rs:54-246", "src/client.rs:259-271", "src/tls.rs:247-392", "src/tls.rs:414-428"]}
{"id": "C92", "title": "The cipher interface on its own", "statement": "`new_aead` and `new_kex` work for the suite CC A8 and panic for every other suite that can be read; the AEAD reports key and tag lengths of RFC 7905 and, as `fixed_iv_len`, its record_iv_length 0. For every key, nonce, associated data and amount of data, `encrypt` panics if the key is not 32 or the nonce not 12 bytes long or, in a debug build, if there are more than 2^38-128 bytes of data, and otherwise gives the ChaCha20-Poly1305 of RFC 7539 with the block count taken modulo 2^32, which is the standard's up to its limit of 2^38-64 bytes; `decrypt` gives BadRecordMac below 16 bytes, panics in the same cases, and otherwise opens exactly what carries the right tag. Beyond the limit a release build encrypts with the block of the message's Poly1305 key.", "quantifier": "all cipher suites read from two bytes; all keys, nonces, associated data, data of any size, build modes", "why_tests_cant": "the limits are at 2^38 bytes, which no test allocates, and the panics and the wrap-around differ between builds", "anchors": ["src/cipher/mod.rs:14-115", "src/cipher/chacha20_poly1305.rs:17-133", "src/crypto/chacha20.rs:81-109"]}
{"id": "C93", "title": "A whole session, for every stream of bytes", "statement": "For every stream of bytes from the transport, every application (a program of read, write and close calls that decides its next call from the answers so far) and every tape of random bytes, on a working transport: the outcome of construction, the answers to all calls and the bytes sent from the first to the last are exactly those of a description that mentions no state of the client. The description has one outcome for every stream. For the program examples/cloudflare.rs it says for every stream whether it ends normally, what it shows and what it sends.", "quantifier": "all byte streams, all divisions of the stream into pieces, all adaptive applications, all random tapes, both builds", "why_tests_cant": "The streams and applications are infinite in number; a test fixes one of each.", "anchors": ["src/client.rs:34-272", "src/client.rs:290-350", "src/tls.rs:77-221", "src/tls.rs:231-430", "examples/cloudflare.rs:6-19"]}
{"id": "C94", "title": "The small public functions", "statement": "Conversions between the word types keep the low bits and lose nothing that fits. The texts of errors tell all kinds apart, and errors of the transport keep theirs. Alerts made from errors are ones the RFC allows. Alert::new refuses the combinations of level and description the RFC rules out. Opaque bodies come out as they went in.", "quantifier": "all words of all four types, all error kinds, all texts, all alerts, all bodies", "why_tests_cant": "The crate tests one word and none of the others.", "anchors": ["src/crypto/wrapping.rs:8-50", "src/tls_result.rs:20-71", "src/alert.rs:73-88", "src/tls_item.rs:380-415"]}
{"id": "C95", "title": "Transports that fail and go on", "statement": "For every behaviour of the transport's reads (pieces of any size, errors such as timeouts and interruptions, empty reads, in any order): the outcome of construction, the answers to all calls of any application and the bytes sent are exactly those of a description that mentions no state of the client. A failed read between two records loses nothing. After a failed read in the middle of a record, reading can be taken up again without loss.", "quantifier": "all sequences of read events, all adaptive applications, all random tapes, all points of failure, both builds", "why_tests_cant": "A test has a transport that fails at a few chosen points.", "anchors": ["src/util.rs:88-112", "src/tls.rs:247-323", "src/client.rs:34-272", "src/client.rs:290-350"]}
{"id": "C96", "title": "Any transport", "statement": "Whatever the reads and the writes of the transport do (every read may give bytes, nothing or an error; every write may take all of its slice, or a part and fail): the outcome of construction, the answers to all calls of any application and the bytes the transport takes are exactly those of a description that mentions no state of the client. When construction fails on a write, the transport has taken a first part of what would have been sent. A failed write of the application breaks off in one record; after it, the data can be written again and reaches the peer.", "quantifier": "all sequences of read events, all sequences of write events, all adaptive applications, all random tapes, both builds", "why_tests_cant": "A test has a transport that fails at a few chosen points.", "anchors": ["src/tls.rs:115-191", "src/util.rs:88-112", "src/client.rs:34-315"]}
{"id": "C97", "title": "Every type the macros can define", "statement": "For every type that can be put together from the item macros (integers, enumerations, arrays, structs, tagged structs, vectors of any bounds and nesting): its values are written as the RFC 5246 presentation language lays them out and have the announced size; a byte string is read as a value exactly when it starts with the layout of that value, so it can be read in one way only, and nothing after the value is consumed; reading always answers, and refuses only with DecodeError or an I/O error. The length prefix of a vector takes the fewest bytes that can hold its greatest length. All this for every declaration the macros accept.", "quantifier": "all types built from the macros (by induction on the declaration), all values, all byte strings", "why_tests_cant": "A test reads and writes values of a few declared types; the declarations themselves are not data a test can range over.", "anchors": ["src/tls_item.rs:27-325", "src/cipher/ecdhe.rs:37-102", "src/macros.rs:7-57"]}
{"id": "C98", "title": "The loops of std on a transport that fails", "statement": "On any transport whose reads may fail and go on, what std's read_exact and read_to_end come to on top of TlsClient's read, what they store and what is left for later calls, is exactly what a description says that mentions only the bytes between the failures. read_exact reports the end only when it is reached, and what read_to_end brings does not depend on the sizes of the buffers it uses.", "quantifier": "all sequences of read events, all states of a connected client, all buffer sizes, both builds", "why_tests_cant": "A test has one transport and the buffer sizes of one version of std.", "anchors": ["src/client.rs:319-350", "src/tls.rs:247-412", "src/util.rs:88-112"]}
{"id": "C99", "title": "Sequence numbers do not wrap", "statement": "The number of a record never starts again within a connection (RFC 5246 6.1): however many records are sent, no two are sealed under the same key and number, and however many are received, the bytes of a record that was accepted are not accepted a second time.", "quantifier": "all connected clients, all numbers of writes and of records (no bound of 2^64), both builds", "why_tests_cant": "No test sends 2^64 records.", "anchors": ["src/tls.rs:118-156", "src/tls.rs:158-168", "src/tls.rs:247-323"]}
{"id": "C100", "title": "Short and interrupted calls of the transport", "statement": "The transport may take any part of a slice per call of write, may answer Interrupted, may depend on anything: construction and all calls of any application come to the same, and the same bytes are sent, as on some transport of the model, and if no call fails for good as on one that works. Interrupted reads are tried again.", "quantifier": "all streams, tapes, applications, all sequences of write calls and all stateful transports, both builds", "why_tests_cant": "A test has a transport that takes whole slices.", "anchors": ["src/tls.rs:147-151", "src/util.rs:44-76", "src/util.rs:88-112", "src/client.rs:27-41", "src/client.rs:248-350"]}
{"id": "C101", "title": "An observer sees lengths only", "statement": "The types and lengths of the records the client sends depend on nothing but the lengths of the data the application writes and the places of close; the number of bytes written cannot be read off them.", "quantifier": "all streams, tapes, applications, both builds, transports that take what they are given, sessions of less than 2^64 records", "why_tests_cant": "A test compares decrypted data, not the shape of the traffic.", "anchors": ["src/tls.rs:115-225", "src/client.rs:54-246", "src/client.rs:248-350"]}
{"id": "C102", "title": "A recorded server stream is of no use against another run", "statement": "A stream of server bytes that one run of the client accepted is accepted by another run only if one of its records is sealed under the keys of both, and these keys are made of the random bytes of the runs. No two runs seal different data under one key with one number.", "quantifier": "all streams and tapes, both builds, transports that take what they are given", "why_tests_cant": "A test talks to a live server; nothing is played back.", "anchors": ["src/client.rs:54-246", "src/cipher/prf.rs:1-120", "src/tls.rs:225-330"]}
{"id": "C103", "title": "A forged record works for few one-time keys", "statement": "Having seen a record with its tag, any other additional data, ciphertext and tag passes the check for less than one in 2^92 of the one-time keys that explain the first. No one-time key gives one tag to two ciphertexts.", "quantifier": "all messages, tags and lists of keys, both builds; records of at most 18432 bytes for the number", "why_tests_cant": "A test tries a few forgeries; it cannot count keys.", "anchors": ["src/crypto/poly1305.rs:1-310", "src/cipher/chacha20_poly1305.rs:16-95"]}
{"id": "C104", "title": "Any number of forged records in place of one", "statement": "However many forged records are put where one genuine record was due, one of them is accepted for at most that many times 2^36 of the 2^128 one-time keys that explain the genuine record. The first forged record ends the connection, so that there is one try only.", "quantifier": "all records of at most 18432 bytes, all numbers of them, both builds", "why_tests_cant": "A test tries a few forgeries; it cannot count keys.", "anchors": ["src/tls.rs:225-330", "src/client.rs:323-350", "src/cipher/chacha20_poly1305.rs:62-95"]}
{"id": "C105", "title": "Laws of the calls of the client, and of the methods std derives from them", "statement": "How an application cuts its reads makes no difference to the bytes, the errors and the state of the client; the same for writes. write!, bytes(), read_vectored and write_vectored lose nothing: the peer reads the whole text of write!, bytes() gives what one read gives, and a vectored call serves all its buffers.", "quantifier": "all states of the client, all sizes and pieces, all transports for the laws and any healthy one for write!, both builds", "why_tests_cant": "A test compares a few ways of cutting one text.", "anchors": ["src/client.rs:288-316", "src/client.rs:318-350"]}
{"id": "C106", "title": "With a key stream nobody knows, the records hide the data", "statement": "Of the data of a client's successful calls its records show nothing but the lengths: to every key stream that explains a recording by one data belongs one, by an exchange that undoes itself, that explains it by any other data of the same lengths, with the same keys of the MAC and the same Finished. The same holds whatever the transport does.", "quantifier": "all data, all lists of calls, all key streams, all sessions of up to 2^64 records, both builds", "why_tests_cant": "A test can compare two ciphertexts, not all key streams.", "anchors": ["src/tls.rs:115-156", "src/cipher/chacha20_poly1305.rs:20-60", "src/client.rs:288-316"]}
{"id": "C107", "title": "Exactly which bytes are taken for a point", "statement": "For every byte string the result of from_uncompressed_bytes is given by an equation between integers: 04 || x || y is accepted iff x < p and y^2 = x^3 - 3x + b modulo p, or x >= p and (y^2 mod p) + (3(x - p) mod (2^256 - p)) = (x^3 + b) mod p. The debug build stops iff 3(x - p) >= 2^256 - p; nothing else stops either build. So accepted points lie on three curves, y^2 = x^3 - 3x + b + e(2^256 - p) with e = 0, 1, 2, and so does the server's point in every handshake that goes through. Every pair of 256-bit numbers that is a point of the curve modulo p is accepted unless the debug build stops.", "quantifier": "all byte strings, all 2^512 pairs of coordinates, both builds", "why_tests_cant": "The deviating coordinates are about one in 2^32, and only an attacker sends them.", "anchors": ["src/crypto/p256.rs:240-274", "src/crypto/p256.rs:353-444", "src/cipher/ecdhe.rs:149-159"]}
{"id": "C108", "title": "The secret of every handshake that goes through", "statement": "Whatever point (x, y) the server sent, if the handshake goes through, the pre-master secret is the x coordinate of k(x, y), where k is the scalar the client used, and the multiple is formed on the curve y^2 = x^3 - 3x + c on which the point lies (zero for the point at infinity). With every point that is accepted and every source of randomness some handshake goes through. That curve is P-256.", "quantifier": "all servers, all accepted points, all tapes of random bytes, both builds", "why_tests_cant": "It ranges over all points, on and off the curve.", "anchors": ["src/crypto/p256.rs:77-222", "src/crypto/p256.rs:240-274", "src/cipher/ecdhe.rs:120-160"]}
{"id": "C109", "title": "Exactly when construction panics, and where the builds part", "statement": "Construction panics in these cases and no others: there are no random bytes for the ClientHello; the server's point is acceptable but there are no random bytes for a secret; in a debug build, the sums that check the server's point overflow; a record sealed with the server's key in place of the Finished holds more than 2^14 bytes. Debug and release builds end alike and send the same bytes on every stream but those with a point whose check overflows; they agree on those too.", "quantifier": "all streams of bytes below 2^64 bytes, all tapes of random bytes, all ways of cutting the stream, both builds", "why_tests_cant": "It covers every stream a server can send and gives both directions.", "anchors": ["src/client.rs:27-41", "src/client.rs:54-246", "src/tls.rs:247-325", "src/crypto/p256.rs:240-274", "src/cipher/ecdhe.rs:121-162"]}
{"id": "C110", "title": "Where equal hash values come from", "statement": "Two different messages with one hash value give, at a known step of hashing them, a collision of the compression function; two different pairs of key and text with one HMAC give one in the inner or the outer hashing, whatever the keys. The rounds are a permutation for every block, and any sixteen successive words of the schedule determine the block. The hash value and the length of a message give the hash values of its extensions. A client and a server whose Finished messages agree have seen the same messages, up to such collisions and forgeries.", "quantifier": "all messages below 2^61 bytes, all keys of at most 64 bytes, all handshakes", "why_tests_cant": "It is the reduction from the hash function to its compression function, for all messages.", "anchors": ["src/crypto/sha2.rs:24-108", "src/cipher/prf.rs:8-30", "src/client.rs:54-246"]}
{"id": "C111", "title": "The rounds of ChaCha20 are a permutation", "statement": "One turn of the loop of round20, and the ten of them, is a permutation of the states of sixteen words, with a known inverse. Different keys, nonces or counts have different states after the rounds. Two equal blocks under one key come from states which after the rounds agree in the twelve words of constants and key and differ in the four of count and nonce. The rounds commute with moving the columns round; the constants keep the states of the cipher apart from one another's moved columns. No state is its own block.", "quantifier": "all states of sixteen words, all keys, nonces and counts", "why_tests_cant": "It says what the rounds by themselves lose (nothing) and why the sum and the constants are there.", "anchors": ["src/crypto/chacha20.rs:11-91"]}
{"id": "C112", "title": "Where equal keys come from", "statement": "Two completed handshakes with one master secret, one key of the client or one key of the server have the secret of the exchange and both randoms in common, or computing them meets a collision of the compression function of SHA-256. No key of a client is the key of a server, of the same handshake or of another, but for such a collision. So clients whose first 32 random bytes differ hold different keys. Equal secrets and randoms give equal keys, and clients with equal keys have seen equal messages.", "quantifier": "all pairs of completed handshakes, all calls made afterwards", "why_tests_cant": "It is the separation of keys between directions and between connections on which the sequence numbers rely.", "anchors": ["src/client.rs:135-176", "src/cipher/prf.rs:8-89", "src/crypto/sha2.rs:24-108"]}
{"id": "C113", "title": "For how many bytes a server can keep the client undecided", "statement": "The outcome of the construction and all the client sends are decided by the first 872525959 bytes of the server: whatever follows makes no difference. The records of an unfinished handshake message, one byte each, leave the client waiting. 64 KiB are enough to decide the construction. A read on a connected client is decided by a bounded number of bytes as well.", "quantifier": "all modes, random bytes, healthy transports and streams of less than 2^64 bytes; all numbers of empty records below 2^62", "why_tests_cant": "It bounds the data a server can make the client take before it accepts or refuses, and shows where there is no such bound.", "anchors": ["src/tls.rs:247-320", "src/tls.rs:322-430", "src/client.rs:60-206", "src/client.rs:325-349"]}
{"id": "C114", "title": "Clients that get what clients send", "statement": "A client that is sent what a client sends, this one or another, or any first part of it, is not connected: it answers a whole ClientHello with an unexpected_message alert and that error, and anything shorter with an I/O error and no alert. Of two clients joined to each other neither is connected, and neither receives more than a ClientHello and an alert. After the handshake a record that a client has sealed is refused by a client, without taking a sequence number, unless its ciphertext is a sealing under the server's key as well; that key is another one, but for a collision of the compression function of SHA-256.", "quantifier": "all modes, transports without failures, random bytes and later calls of both clients; all records, sequence numbers and connected readers", "why_tests_cant": "Reflected handshakes and records are a classic attack on protocols whose two sides use one secret.", "anchors": ["src/client.rs:48-110", "src/client.rs:150-206", "src/tls.rs:247-320", "src/cipher/prf.rs:50-89"]}
{"id": "C115", "title": "Ciphertexts that open under two keys", "statement": "A sealed record opens under one key only. This is false: there are two keys, a record number and two data such that the record sealed from either is the same record and opens under each key to its own data. Such records are rare: for two keys, nonces and additional data whose Poly1305 points have different powers at the place of a block, at most eight values of that sixteen-byte block make a ciphertext that has, with some tag, an opening under both.", "quantifier": "all keys, nonces, additional data, other blocks of the ciphertext before and after, and all lists of distinct blocks", "why_tests_cant": "C114 leaves the case of a record that is a sealing under both keys of a connection; partitioning-oracle attacks use such ciphertexts.", "anchors": ["src/cipher/chacha20_poly1305.rs:16-104", "src/crypto/poly1305.rs:1-180", "src/crypto/chacha20.rs:81-109"]}
{"id": "C116", "title": "What a record number that is used twice gives away", "statement": "Nobody but the client makes a record that is sealed under the client's key. This is false on a transport that fails once: if a write fails after the ciphertext was out and the application writes something else, the two records have one nonce (C17). Two ciphertexts under one nonce, with the tag of the second and the beginning of that of the first, are explained by at most eight points of Poly1305 for each block, times 256 for each missing byte of the tag. One of them is the point of the key, and whoever has it and the second data seals any data, of any type, that is not longer, under that number.", "quantifier": "all keys, nonces, additional data, data, tags cut at any byte, connected clients and record numbers, in both builds; all lists of distinct points", "why_tests_cant": "C17 and C106 show that a repeated nonce gives away data. This is what it does to integrity: a record of the attacker's choice in the client's name.", "anchors": ["src/tls.rs:115-156", "src/client.rs:288-310", "src/cipher/chacha20_poly1305.rs:16-104"]}
{"id": "C117", "title": "Tries that are always enough", "statement": "Someone who holds back one application data record whose data they know, and has no key, can make 2^106 records with another ciphertext, of any chosen data that is not longer, such that a client that goes on reading accepts one of them in its place: the reads before return zero bytes, and then one returns the chosen data. The records depend on the number, the data and the record seen, and not on the keys.", "quantifier": "all record numbers, data, records seen, modes, keys, IVs, connected readers with an empty buffer, buffer sizes and bytes that follow", "why_tests_cant": "C104 bounds from below the tries a forger needs; a refused record takes no number, so the tries are at one one-time key, and this bounds them from above.", "anchors": ["src/tls.rs:247-320", "src/client.rs:319-349", "src/cipher/chacha20_poly1305.rs:62-104", "src/crypto/poly1305.rs:1-180"]}
