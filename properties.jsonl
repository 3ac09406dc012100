{"id": "C01", "title": "Base64 round trip", "statement": "base64::decode(base64::encode(b)) returns exactly b, and encode(b) is the RFC 4648 encoding of b.", "quantifier": "every byte string of every length", "why_tests_cant": "three length classes times unbounded many contents; samples cannot cover all", "anchors": ["anothertls/src/utils/base64.rs: encode, decode"]}
{"id": "C02", "title": "PEM files are read back exactly", "statement": "A text made of BEGIN/END blocks (LF line ends, base64 bodies wrapped at any width) parses to a map giving, for each title, the bytes that were encoded; when a title occurs several times the bytes of its last block win; lines outside blocks are ignored; a text without any block, or ending inside a block, is rejected.", "quantifier": "every list of titled blocks, every content, every wrapping width", "why_tests_cant": "unbounded number of blocks, sizes and line widths", "anchors": ["anothertls/src/utils/pem.rs: parse"]}
{"id": "C03", "title": "Certificate time is converted to the right Unix time", "statement": "For every valid UTCTime value YYMMDDHHMMSSZ from 1970 on, the timestamp used for validity checks is the number of seconds from 1970-01-01T00:00:00Z to that instant in the proleptic Gregorian calendar.", "quantifier": "every calendar date 1970..2049, every time of day", "why_tests_cant": "a few dates pass; the error only shows on dates after February of a leap year", "anchors": ["anothertls/src/utils/x509.rs: UtcTime::from_utc_timestamp, UtcTime::get_unix_timestamp"]}
{"id": "C04", "title": "Certificate validity window", "statement": "A certificate with both bounds present passes the validity check at time t exactly when notBefore <= t <= notAfter; a missing bound is not enforced.", "quantifier": "every certificate validity record and every current time", "why_tests_cant": "infinitely many times and bounds", "anchors": ["anothertls/src/utils/x509.rs: Validity::is_valid", "anothertls/src/net/handshake/certificate.rs: is_certificate_valid"]}
{"id": "C05", "title": "DER/X.509 parsing always terminates, and crashes on hostile input are absent", "statement": "Parsing any byte string as a DER X.509 certificate terminates with a certificate or an error value; it does not loop and does not panic.", "quantifier": "every byte string", "why_tests_cant": "hostile inputs are unbounded; fuzzing samples only", "anchors": ["anothertls/src/utils/der.rs: der_parse", "anothertls/src/utils/x509.rs: parse, X509Builder::build"]}
{"id": "C06", "title": "ECDSA signatures survive DER encoding", "statement": "Signature::from_der(Signature::to_der(sig)) returns the same (r,s) for every pair 0 < r,s < 2^256.", "quantifier": "every pair r,s below 2^256", "why_tests_cant": "fails only for about 1 signature in 128, so a handful of test signatures pass", "anchors": ["anothertls/src/crypto/ellipticcurve/signature.rs: to_der, from_der", "anothertls/src/utils/bytes.rs: ibig_to_32bytes"]}
{"id": "C07", "title": "Integer/byte conversions are inverse and positional", "statement": "to_ibig_be/le read the positional value of a byte string, ibig_to_vec and ibig_to_32bytes(Little) write it back, u64/u128 helpers agree with the positional value, and hex encode/decode is a round trip.", "quantifier": "every byte string and every integer in range", "why_tests_cant": "unbounded integers", "anchors": ["anothertls/src/utils/bytes.rs"]}
{"id": "C08", "title": "SHA-256 is FIPS 180-4 SHA-256", "statement": "The digest computed for any message (in one call or streamed) equals the FIPS 180-4 SHA-256 of that message.", "quantifier": "every message shorter than 2^53 bytes", "why_tests_cant": "test vectors cover a handful of lengths; the padding has boundary cases at every residue mod 64", "anchors": ["anothertls/src/hash/sha256.rs"]}
{"id": "C09", "title": "SHA-384 is FIPS 180-4 SHA-384", "statement": "The digest computed for any message equals the FIPS 180-4 SHA-384 of that message.", "quantifier": "every message shorter than 2^117 bytes", "why_tests_cant": "as C08, residues mod 128", "anchors": ["anothertls/src/hash/sha384.rs"]}
{"id": "C10", "title": "Transcript hashing is independent of chunking and finalize does not disturb it", "statement": "Splitting a message into any chunks and calling update on each gives the same digest as hashing the concatenation; calling finalize or cloning between updates does not change later results.", "quantifier": "every list of chunks, every interleaving of finalize calls", "why_tests_cant": "unboundedly many ways to split a message", "anchors": ["anothertls/src/hash/sha256.rs: update, finalize", "anothertls/src/hash/sha384.rs: update, finalize", "anothertls/src/hash/mod.rs: TranscriptHash"]}
{"id": "C11", "title": "HMAC is RFC 2104 HMAC", "statement": "Hmac over SHA-256 and SHA-384 returns the RFC 2104 value for every key and message.", "quantifier": "every key and every message", "why_tests_cant": "tests use short keys; block size dependent key handling is only visible for some key lengths", "anchors": ["anothertls/src/hash/hmac.rs: Hmac::new, result"]}
{"id": "C12", "title": "HKDF is RFC 5869 HKDF", "statement": "extract and expand return the RFC 5869 values; expand returns exactly the requested number of bytes, and refuses exactly when more than 255 hash blocks are asked for.", "quantifier": "every salt, key, info and output length", "why_tests_cant": "unbounded inputs; length bound at 255 blocks", "anchors": ["anothertls/src/hash/hkdf.rs"]}
{"id": "C13", "title": "HKDF-Expand-Label encoding is RFC 8446 and unambiguous", "statement": "The label structure fed to HKDF is the RFC 8446 HkdfLabel encoding and distinct (label, context, length) triples give distinct encodings.", "quantifier": "every label up to 249 bytes, context up to 255 bytes, length below 2^16", "why_tests_cant": "injectivity is a statement about all pairs", "anchors": ["anothertls/src/net/key_schedule.rs: get_hkdf_expand_label"]}
{"id": "C14", "title": "Traffic keys follow the RFC 8446 key schedule", "statement": "Handshake and application traffic secrets, keys and IVs derived from a shared secret and transcript hashes are the RFC 8446 section 7.1/7.3 values, so both peers derive the same keys from the same secret and transcript.", "quantifier": "every shared secret, transcript, and each of the three suites", "why_tests_cant": "key values are pseudorandom; examples do not generalise", "anchors": ["anothertls/src/net/key_schedule.rs: KeySchedule, WriteKeys, Key", "anothertls/src/net/record.rs: RecordPayloadProtection"]}
{"id": "C15", "title": "ChaCha20 encrypts every byte", "statement": "Encrypting any plaintext with ChaCha20 yields plaintext XOR RFC 8439 keystream at every byte position.", "quantifier": "every key, nonce, counter and plaintext length", "why_tests_cant": "the failure shows only at lengths that are multiples of 64", "anchors": ["anothertls/src/crypto/chacha20/cipher.rs"]}
{"id": "C16", "title": "Poly1305 is RFC 8439 Poly1305", "statement": "The authenticator of any message under any one-time key is the RFC 8439 value, covering every byte of the message.", "quantifier": "every 32-byte key and every message", "why_tests_cant": "big-integer arithmetic over all messages", "anchors": ["anothertls/src/crypto/chacha20/poly1305.rs: mac"]}
{"id": "C17", "title": "ChaCha20-Poly1305 round trip and authenticity check", "statement": "Decrypting what was encrypted under the same key, nonce and associated data returns the plaintext; decryption returns data only if the presented tag equals the RFC 8439 tag of the presented ciphertext and associated data, otherwise an error and no data.", "quantifier": "every key, nonce, associated data, plaintext, ciphertext, tag", "why_tests_cant": "all possible tamperings", "anchors": ["anothertls/src/crypto/chacha20/poly1305.rs: encrypt, decrypt", "anothertls/src/crypto/chacha20/mod.rs"]}
{"id": "C18", "title": "AES block cipher is FIPS 197 and invertible", "statement": "Encrypting a block is the FIPS 197 cipher for 128, 192 and 256 bit keys, and decrypt inverts encrypt.", "quantifier": "every key and every 16-byte block", "why_tests_cant": "2^128 blocks per key", "anchors": ["anothertls/src/crypto/aes/cipher.rs"]}
{"id": "C19", "title": "GHASH multiplication is the GF(2^128) product", "statement": "The multiplication used by GCM is the SP 800-38D block product; it is commutative and distributes over XOR.", "quantifier": "every pair of 128-bit blocks", "why_tests_cant": "2^256 pairs", "anchors": ["anothertls/src/crypto/aes/gcm.rs: gmult"]}
{"id": "C20", "title": "AES-GCM is SP 800-38D GCM for 96-bit nonces, round trips, and checks tags", "statement": "For 12-byte nonces ciphertext and tag are those of SP 800-38D; decrypt inverts encrypt; decrypt returns data only if the tag is the right one for this ciphertext, nonce and associated data.", "quantifier": "every key, nonce, associated data, plaintext, ciphertext, tag", "why_tests_cant": "unbounded lengths and all tamperings", "anchors": ["anothertls/src/crypto/aes/gcm.rs: gcm, encrypt, decrypt"]}
{"id": "C21", "title": "Record nonces never repeat under one key", "statement": "The nonces handed out for one traffic key are pairwise distinct over any history of up to 2^64 records, and equal the RFC 8446 5.3 value for the record's sequence number.", "quantifier": "every IV and every pair of sequence numbers", "why_tests_cant": "2^64 sequence numbers", "anchors": ["anothertls/src/net/key_schedule.rs: Key::get_per_record_nonce"]}
{"id": "C22", "title": "Protected records arrive unchanged, in order", "statement": "If one endpoint protects any sequence of records and the other endpoint unprotects them in order, it obtains exactly the same content types and contents, in both directions, for every suite, also when a sender adds zero padding.", "quantifier": "every history of records, both roles, all suites", "why_tests_cant": "unbounded histories with counters in lockstep", "anchors": ["anothertls/src/net/record.rs: RecordPayloadProtection::encrypt, decrypt"]}
{"id": "C23", "title": "No forged record is delivered", "statement": "Unprotecting a record returns content only if the record's last 16 bytes are the correct AEAD tag for its ciphertext, its five header bytes and the nonce of the current receive sequence number.", "quantifier": "every received record, every state", "why_tests_cant": "all tamperings of all records", "anchors": ["anothertls/src/net/record.rs: RecordPayloadProtection::decrypt"]}
{"id": "C24", "title": "Record encoding round trip", "statement": "Parsing the bytes of any encoded record, followed by any other bytes, returns that record and its exact size.", "quantifier": "every record with a payload below 2^16 bytes and every suffix", "why_tests_cant": "unbounded payloads and suffixes", "anchors": ["anothertls/src/net/record.rs: Record::from_raw, as_bytes"]}
{"id": "C25", "title": "Incomplete or malformed records are reported, not fatal", "statement": "Parsing any byte string as a record returns either a record or an error; it never panics.", "quantifier": "every byte string", "why_tests_cant": "the crash needs a buffer exactly 1..3 bytes short", "anchors": ["anothertls/src/net/record.rs: Record::from_raw, RecordPayloadProtection::decrypt"]}
{"id": "C26", "title": "Modular inverse is correct", "statement": "inv(x,n) is the inverse of x modulo n, in range, whenever gcd(x,n)=1 and x is not negative.", "quantifier": "every modulus n>1 and every x>=0 coprime to it", "why_tests_cant": "unbounded integers, loop of unbounded length", "anchors": ["anothertls/src/crypto/ellipticcurve/math.rs: inv"]}
{"id": "C27", "title": "P-256 point arithmetic implements the elliptic-curve group law", "statement": "Jacobian doubling, addition and scalar multiplication, converted back to affine coordinates, equal the affine chord-and-tangent law and its iteration on the curve.", "quantifier": "every pair of curve points, every scalar", "why_tests_cant": "2^512 pairs of points; special cases are rare", "anchors": ["anothertls/src/crypto/ellipticcurve/math/jacobian.rs", "anothertls/src/crypto/ellipticcurve/math.rs: add, multiply"]}
{"id": "C28", "title": "ECDSA verification accepts exactly valid signatures", "statement": "verify returns true only if the public key is on the curve, r and s are in [1,n-1] and r equals the x coordinate of u1*G+u2*Q modulo n; anything else is rejected.", "quantifier": "every key, hash and signature", "why_tests_cant": "all forgeries", "anchors": ["anothertls/src/crypto/ellipticcurve/ecdsa.rs: verify", "anothertls/src/crypto/ellipticcurve/curve.rs: contains"]}
{"id": "C29", "title": "Signatures produced verify", "statement": "For every private key and message hash, a signature returned by sign is accepted by verify under the matching public key, has r,s in [1,n-1].", "quantifier": "every private key, hash and nonce", "why_tests_cant": "2^768 combinations", "anchors": ["anothertls/src/crypto/ellipticcurve/ecdsa.rs: sign, verify"]}
{"id": "C30", "title": "Curve25519 field arithmetic is exact", "statement": "The limb-based add, subtract, multiply, invert and pack operations compute the right residue modulo 2^255-19 with no 64-bit overflow, and pack yields the canonical representative.", "quantifier": "every limb vector in the ranges that occur", "why_tests_cant": "carry chains fail only on rare operands", "anchors": ["anothertls/src/crypto/ellipticcurve/math/curve25519.rs"]}
{"id": "C31", "title": "X25519 is RFC 7748 X25519", "statement": "The scalar multiplication on 32-byte inputs returns the RFC 7748 X25519 output.", "quantifier": "every 32-byte scalar and every 32-byte point", "why_tests_cant": "2^512 inputs", "anchors": ["anothertls/src/crypto/ellipticcurve/math/curve25519.rs: curve25519_multiply"]}
{"id": "C32", "title": "The handshake uses the X25519 shared secret of the wire keys", "statement": "The key share sent is X25519(private, 9) and the secret entering the key schedule is X25519(private, peer key share), both as RFC 7748 byte strings.", "quantifier": "every private scalar and every 32-byte peer key share", "why_tests_cant": "wrong in about 1 of 128 handshakes only", "anchors": ["anothertls/src/net/key_schedule.rs: KeySchedule::from_handshake", "anothertls/src/crypto/ellipticcurve/math.rs: multiply", "anothertls/src/utils/bytes.rs: ibig_to_32bytes"]}
{"id": "C33", "title": "ClientHello round trip", "statement": "A ClientHello encoded by the client is parsed by the server into the same random, session id, cipher suites, server name, key share and TLS 1.3 support.", "quantifier": "every random, session id (absent or 32 bytes), host name, key share", "why_tests_cant": "unbounded names and values", "anchors": ["anothertls/src/net/client/client_hello.rs", "anothertls/src/net/extensions/"]}
{"id": "C34", "title": "ServerHello round trip", "statement": "A ServerHello encoded by the server is parsed by the client into the same random, session id echo, suite and key share.", "quantifier": "every random, session id (absent or 32 bytes), suite and key share", "why_tests_cant": "2^512 values", "anchors": ["anothertls/src/net/server/server_hello.rs: as_bytes, from_raw"]}
{"id": "C35", "title": "Cipher suite negotiation", "statement": "The suite chosen by the server is one the client offered and one the library implements, it is ChaCha20-Poly1305 whenever that was offered, and the handshake fails when no implemented suite was offered.", "quantifier": "every ClientHello", "why_tests_cant": "unbounded suite lists", "anchors": ["anothertls/src/net/server/server_hello.rs: from_client_hello"]}
{"id": "C36", "title": "Only clients offering TLS 1.3 are served", "statement": "The server answers with a ServerHello only if the client listed TLS 1.3 in supported_versions.", "quantifier": "every ClientHello", "why_tests_cant": "includes hellos lacking the extension", "anchors": ["anothertls/src/net/server/server_hello.rs: from_client_hello", "anothertls/src/net/extensions/supported_versions.rs"]}
{"id": "C37", "title": "Configured server name is enforced", "statement": "If a server name is configured, a client that names a different host is refused, and one that names no host is refused too.", "quantifier": "every ClientHello and configured name", "why_tests_cant": "unbounded names", "anchors": ["anothertls/src/net/server/server_hello.rs: from_client_hello", "anothertls/src/net/extensions/server_name.rs"]}
{"id": "C38", "title": "Any client with an X25519 key share can connect", "statement": "If the ClientHello contains an X25519 key share entry among its key shares, the server agrees on it, wherever it is in the list.", "quantifier": "every key share list", "why_tests_cant": "order dependence over unbounded lists", "anchors": ["anothertls/src/net/server/server_hello.rs: from_client_hello", "anothertls/src/net/client/client_hello.rs: get_public_key_share", "anothertls/src/net/extensions/key_share.rs"]}
{"id": "C39", "title": "Hello parsing is total", "statement": "Parsing any byte string as a ClientHello, ServerHello or handshake message returns a value or an error and never panics; a session id of any legal length is echoed.", "quantifier": "every byte string", "why_tests_cant": "hostile inputs are unbounded", "anchors": ["anothertls/src/net/client/client_hello.rs: from_raw", "anothertls/src/net/server/server_hello.rs: from_raw", "anothertls/src/net/handshake/mod.rs: Handshake::from_raw"]}
{"id": "C40", "title": "Client authentication cannot be bypassed", "statement": "When a client CA is configured, the server hands a connection to the application only if the client presented a certificate that is time-valid and whose signature verifies under the CA key, the custom check (if any) returned true, the client proved possession of that certificate's key by a valid CertificateVerify over the handshake transcript, and the client's Finished was valid.", "quantifier": "every sequence of byte strings a client may send", "why_tests_cant": "the adversary chooses message order and content; unbounded histories", "anchors": ["anothertls/src/net/server/connection.rs: handle_client_certificate, handle_client_certificate_verify, handle_client_finish"]}
{"id": "C41", "title": "The server finishes only on a valid client Finished", "statement": "The server reports a connection as established only after a Finished message, protected under the handshake keys, whose verify data is the RFC 8446 HMAC over the transcript.", "quantifier": "every sequence of byte strings a client may send", "why_tests_cant": "adversarial histories", "anchors": ["anothertls/src/net/server/connection.rs: do_handshake, handle_client_finish", "anothertls/src/net/handshake/finished.rs"]}
{"id": "C42", "title": "The client finishes only with an authenticated server flight", "statement": "The client reports a connection only after receiving, under handshake keys, a parseable time-valid certificate, a CertificateVerify valid under that certificate's key over the transcript, and a valid server Finished, in that order.", "quantifier": "every sequence of byte strings a server may send", "why_tests_cant": "adversarial histories", "anchors": ["anothertls/src/net/client/connection.rs"]}
{"id": "C43", "title": "Handshake failures are final and signalled", "statement": "Once a handshake step returns an error the connection is not returned to the application; an alert with the error's code is sent exactly when the error is a TLS alert condition; a received alert is reported to the caller as that alert.", "quantifier": "every error and every state", "why_tests_cant": "error paths in every state", "anchors": ["anothertls/src/net/server/connection.rs: do_handshake_with_error", "anothertls/src/net/client/connection.rs: do_handshake_with_error", "anothertls/src/net/alert.rs"]}
{"id": "C44", "title": "Honest peers complete the handshake with the same keys", "statement": "When an AnotherTLS client and server exchange their own messages unmodified, with one TCP read per write, both finish and hold identical application traffic keys in opposite roles.", "quantifier": "every randomness, server certificate/key pair that signs correctly, suite order and name", "why_tests_cant": "key material is random; only a few runs are ever tested", "anchors": ["anothertls/src/net/client/connection.rs", "anothertls/src/net/server/connection.rs"]}
{"id": "C45", "title": "The client authenticates the server's identity", "statement": "The client completes only if the server certificate chains to a trusted CA and matches the requested host name.", "quantifier": "every server certificate", "why_tests_cant": "all attacker certificates", "anchors": ["anothertls/src/net/client/connection.rs: handle_server_certificate"]}
{"id": "C46", "title": "Alert codes are preserved", "statement": "Every alert error maps to its RFC 8446 code and back; only close_notify is sent at warning level.", "quantifier": "every alert", "why_tests_cant": "finite but untested: 28 codes and 256 inputs", "anchors": ["anothertls/src/net/alert.rs"]}
{"id": "C47", "title": "ChangeCipherSpec is harmless", "statement": "Inserting change_cipher_spec records after the ClientHello at any point and any number of times leaves the handshake state, keys and transcript unchanged.", "quantifier": "every state and every number of such records", "why_tests_cant": "unbounded interleavings", "anchors": ["anothertls/src/net/server/connection.rs: handle_handshake_record", "anothertls/src/net/client/connection.rs: handle_handshake_record"]}
{"id": "C48", "title": "Writes reach TCP completely and in order", "statement": "After a flush the bytes handed to TCP are exactly the concatenation of the records written, in order, none lost, duplicated or reordered; an alert does not overtake records written before it.", "quantifier": "every sequence of write, flush and alert operations", "why_tests_cant": "unbounded operation sequences", "anchors": ["anothertls/src/net/stream.rs: write_record, flush, write_alert"]}
{"id": "C49", "title": "Application data is delivered whatever the TCP segmentation", "statement": "What one side writes with tls_write the other side obtains from successive tls_read calls as the same byte stream, regardless of how TCP splits or joins segments.", "quantifier": "every list of writes and every segmentation of the byte stream", "why_tests_cant": "segmentations are chosen by the network", "anchors": ["anothertls/src/net/stream.rs: tls_read, tls_write"]}
{"id": "C50", "title": "Handshake messages are understood whatever the TCP segmentation", "statement": "The handshake gives the same result for every way the peer's byte stream is cut into TCP reads.", "quantifier": "every segmentation", "why_tests_cant": "segmentations are chosen by the network", "anchors": ["anothertls/src/net/client/connection.rs: do_handshake", "anothertls/src/net/server/connection.rs: do_handshake"]}
{"id": "C51", "title": "A write of any size is sent as decodable records", "statement": "tls_write of any buffer sends records that the peer can parse and that carry the whole buffer.", "quantifier": "every buffer length", "why_tests_cant": "tests use short buffers", "anchors": ["anothertls/src/net/stream.rs: tls_write", "anothertls/src/net/record.rs: Record::new, RecordPayloadProtection::encrypt"]}
{"id": "C52", "title": "No application data in the clear", "statement": "tls_write puts nothing on the wire and returns an error unless traffic keys are installed, and what it puts on the wire is an application_data record produced by the AEAD.", "quantifier": "every stream state and buffer", "why_tests_cant": "all states", "anchors": ["anothertls/src/net/stream.rs: tls_write"]}
{"id": "C53", "title": "Server configuration is complete or refused", "statement": "build returns a configuration exactly when certificate and key were set and a custom client check is accompanied by a client CA, with each field the last value set.", "quantifier": "every sequence of builder calls", "why_tests_cant": "all call orders", "anchors": ["anothertls/src/net/server/config.rs: build"]}
{"id": "C54", "title": "Random values have the requested size and range", "statement": "bytes(n) returns n bytes and between(a,b) a number in [2^(8a), 2^(8b)).", "quantifier": "every randomness and every size", "why_tests_cant": "probabilistic outputs", "anchors": ["anothertls/src/rand/urandom.rs", "anothertls/src/rand/simplerng.rs"]}
{"id": "C55", "title": "Key log lines are in NSS format and match the keys in use", "statement": "With key logging on, each handshake appends exactly the lines naming the client random and the traffic secrets in use.", "quantifier": "every secret and client random", "why_tests_cant": "format over all values", "anchors": ["anothertls/src/utils/keylog.rs"]}
{"id": "C56", "title": "Handshake and certificate message encoding round trip", "statement": "Framed handshake messages, Certificate, CertificateVerify and Finished messages produced by one side are parsed by the other side to the same contents.", "quantifier": "every message body below 2^24 bytes, every certificate below 2^24 bytes", "why_tests_cant": "unbounded sizes", "anchors": ["anothertls/src/net/handshake/mod.rs", "anothertls/src/net/handshake/certificate.rs", "anothertls/src/net/handshake/finished.rs"]}
{"id": "C57", "title": "The certificate signature is checked over the signed part", "statement": "For a DER certificate the bytes hashed when checking the CA signature are exactly the encoded TBSCertificate.", "quantifier": "every certificate encoding", "why_tests_cant": "depends on length-form boundaries of DER headers", "anchors": ["anothertls/src/net/handshake/certificate.rs: has_signed", "anothertls/src/utils/x509.rs: parse"]}
{"id": "C58", "title": "Unknown extensions and groups are ignored", "statement": "Extensions, suites and groups the library does not know are skipped without affecting the interpretation of the others.", "quantifier": "every hello with unknown entries inserted at any place", "why_tests_cant": "all insertions", "anchors": ["anothertls/src/net/extensions/client.rs", "anothertls/src/net/extensions/server.rs", "anothertls/src/net/extensions/key_share.rs"]}
{"id": "C59", "title": "Record contents are never sent in the clear", "statement": "A protected record does not contain the application bytes it protects; every byte of the content is masked by the cipher.", "quantifier": "every record content, key and suite", "why_tests_cant": "the leak appears only for contents of length 63 mod 64 under one suite", "anchors": ["anothertls/src/net/record.rs: RecordPayloadProtection::encrypt", "anothertls/src/crypto/chacha20/mod.rs"]}
{"id":"C60","title":"A well-formed certificate parses to exactly its fields","statement":"Decoding the DER of any X.509 v3 certificate of the ECDSA P-256 profile succeeds and yields the serial number, issuer, validity bounds, subject, public key, signature and algorithm identifiers that were encoded.","quantifier":"all certificates of the profile: every serial number, every name made of recognised single-valued attributes, every UTCTime pair, every public key and signature, every extension block","why_tests_cant":"the repository tests two stored certificates; the number, order and length of fields is unbounded","anchors":["anothertls/src/crypto/ellipticcurve/signature.rs","anothertls/src/utils/x509.rs X509::from_raw","anothertls/src/utils/der.rs der_parse"]}
{"id":"C61","title":"What a certificate is trusted for lies inside the signed bytes","statement":"Bytes of a certificate that are not covered by the CA's signature cannot change the public key, validity window, subject or issuer that the endpoint goes on to use.","quantifier":"all certificates and all byte strings placed outside the signed part","why_tests_cant":"a security property over all malformed encodings an attacker may choose","anchors":["anothertls/src/utils/x509.rs X509Builder","anothertls/src/utils/der.rs der_parse","anothertls/src/net/handshake/certificate.rs Certificate::has_signed"]}
{"id":"C62","title":"The private key used is the one in the key file","statement":"Loading a PEM key file yields exactly the private scalar encoded in its EC PRIVATE KEY block (RFC 5915), whatever optional fields follow the scalar.","quantifier":"every PEM text with an EC PRIVATE KEY block, every scalar, every optional part","why_tests_cant":"tests load one key file; the code reads fixed byte offsets instead of parsing the structure","anchors":["anothertls/src/crypto/ellipticcurve/privatekey.rs: from_pem"]}
{"id": "C63", "title": "Both ends of the key exchange derive the same secret", "statement": "For every pair of 32-byte private keys, multiplying the peer's public key by one's own private key gives the same 32 bytes on both sides, and public keys are always defined.", "quantifier": "all pairs of private keys", "why_tests_cant": "It is an algebraic identity of the curve group over all 2^512 key pairs, including ladder corner cases such as points of small order.", "anchors": ["anothertls/src/crypto/ellipticcurve/math/curve25519.rs scalarmult", "anothertls/src/net/key_schedule.rs KeySchedule::from_handshake"]}
{"id": "C64", "title": "Two endpoints of this library agree on the handshake secret", "statement": "When each side receives the key share the other side put on the wire, both use the same shared secret for the key schedule.", "quantifier": "all pairs of private keys drawn by the two endpoints", "why_tests_cant": "The failing key pairs are about one in 128; the claim ranges over all 2^512 pairs.", "anchors": ["anothertls/src/net/key_schedule.rs KeySchedule::from_handshake", "anothertls/src/net/extensions/key_share.rs KeyShareEntry::as_bytes", "anothertls/src/utils/bytes.rs ibig_to_32bytes"]}
{"id": "C65", "title": "Hello messages on the wire are RFC 8446 messages", "statement": "The ClientHello and ServerHello this library sends, and the header it puts in front of every handshake message, are byte for byte the RFC 8446 encodings of their contents, so that any conforming peer reads them.", "quantifier": "every random, session id, suite list, host name and key pair", "why_tests_cant": "length fields and nesting depend on unbounded names and lists", "anchors": ["anothertls/src/net/client/client_hello.rs: as_bytes", "anothertls/src/net/server/server_hello.rs: as_bytes", "anothertls/src/net/handshake/mod.rs: to_bytes", "anothertls/src/net/client/connection.rs: send_client_hello"]}
{"id": "C66", "title": "Finished and CertificateVerify are those of RFC 8446", "statement": "The Finished message an endpoint sends or demands is the HMAC of RFC 8446 section 4.4.4 over the transcript hash, and a CertificateVerify is accepted exactly when it is a valid ECDSA signature of the section 4.4.3 content (with the context string of the role) under the public key in the certificate.", "quantifier": "every transcript, traffic secret, certificate key and signature", "why_tests_cant": "key material and transcripts are unbounded", "anchors": ["anothertls/src/net/handshake/finished.rs: get_finished_handshake, get_verify_data_for_finished", "anothertls/src/net/handshake/certificate.rs: get_certificate_verify_for_handshake, is_certificate_valid"]}
{"id": "C67", "title": "What the server sends in a handshake is the RFC 8446 server flight", "statement": "When accept returns a connection, the bytes sent are the ServerHello record, a change_cipher_spec record if the client sent a session id, and records numbered from 0 under the server handshake traffic key that carry EncryptedExtensions, CertificateRequest (exactly if a client CA is configured), Certificate, CertificateVerify with a valid signature over the transcript, and Finished with the right verify data; nothing else.", "quantifier": "every configuration, every sequence of TCP reads that leads to an established connection, every random draw", "why_tests_cant": "transcript, keys and signatures range over unbounded byte strings and depend on what the client sends", "anchors": ["anothertls/src/net/server/connection.rs: handle_client_hello", "anothertls/src/net/stream.rs: write_record, flush", "anothertls/src/net/record.rs: encrypt"]}
{"id": "C68", "title": "A conforming client is accepted", "statement": "A client whose ClientHello the server answers, and that sends (with a client CA: a valid Certificate and CertificateVerify and) the right Finished under its handshake key, gets a connection, wherever the record boundaries fall in TCP reads and however many change_cipher_spec records it adds.", "quantifier": "every answered ClientHello, every signature, every grouping of whole records into TCP reads", "why_tests_cant": "ranges over all transcripts, keys, certificates and groupings of records", "anchors": ["anothertls/src/net/server/connection.rs: do_handshake, handle_client_certificate, handle_client_certificate_verify, handle_client_finish"]}
{"id": "C69", "title": "Reads return only application data of the peer", "statement": "With traffic keys installed, whatever bytes arrive, tls_read returns data only if they start with a record that carries a right tag under the peer's key and current record number and whose inner type is application_data, and the data is that record's content; records of any other type are refused.", "quantifier": "every stream state, buffer size and sequence of bytes received", "why_tests_cant": "the bytes are chosen by the network", "anchors": ["anothertls/src/net/stream.rs:tls_read", "anothertls/src/net/record.rs:RecordPayloadProtection::decrypt"]}
{"id": "C70", "title": "What the client sends in a handshake is the RFC 8446 client flight", "statement": "When connect returns a connection, the bytes sent are the ClientHello record (as much of it as the first TCP write took) and records numbered from 0 under the client handshake traffic key that carry, if the server asked for it, Certificate and CertificateVerify with a valid signature over the transcript, and Finished with the right verify data; nothing else.", "quantifier": "every configuration, every sequence of TCP reads that leads to an established connection, every random draw", "why_tests_cant": "transcript, keys and signatures range over unbounded byte strings and depend on what the server sends", "anchors": ["anothertls/src/net/client/connection.rs: send_client_hello, handle_server_finish", "anothertls/src/net/stream.rs: write_record, flush", "anothertls/src/net/record.rs: encrypt"]}
{"id": "C71", "title": "A conforming server is accepted", "statement": "A server whose ServerHello the client agrees to, and that sends EncryptedExtensions, any number of CertificateRequests, a Certificate message whose first certificate is valid, a CertificateVerify by its key and the right Finished under its handshake key, gets a connection, however the messages are distributed over records and whole records over TCP reads, and however many change_cipher_spec records it adds.", "quantifier": "every ServerHello agreed to, every signature, every distribution of messages over records and of records over TCP reads", "why_tests_cant": "ranges over all transcripts, keys, certificates and groupings", "anchors": ["anothertls/src/net/client/connection.rs: do_handshake, handle_server_hello, handle_handshake_encrypted_record, handle_server_certificate, handle_server_certificate_verify, handle_server_finish"]}
{"id": "C72", "title": "The server serves the certificate its file begins with", "statement": "A configuration built from a PEM certificate file and a PEM key file holds the first certificate of the file (the following ones being its issuers) and the key.", "quantifier": "every PEM file: any explanatory lines, blocks and line wrapping", "why_tests_cant": "all files, wrappings and numbers of blocks", "anchors": ["anothertls/src/net/handshake/certificate.rs: from_pem, from_pem_x509", "anothertls/src/utils/pem.rs: get_pem_content_from_file", "anothertls/src/net/server/config.rs: add_cert_pem, add_privkey_pem"]}
{"id": "C73", "title": "Every number of the requested range can be drawn", "statement": "For every v with 2^(8a) <= v < 2^(8b) there is randomness for which between(a,b) returns v; the generators do not repeat one number.", "quantifier": "every range and every number in it, every state of the generator", "why_tests_cant": "a value that can never come up is not seen by sampling", "anchors": ["anothertls/src/rand/urandom.rs: next, between", "anothertls/src/rand/simplerng.rs: next"]}
{"id": "C74", "title": "Built configurations and drawn numbers meet what the handshake needs", "statement": "Every configuration the builders return holds a P-256 key, certificate bytes and a parsed client CA, and every draw from /dev/urandom gives 32-byte randoms and private keys and nonces in [2^8, 2^256); the handshake theorems therefore apply to every connection set up through the public API.", "quantifier": "every sequence of builder calls on any files, every randomness", "why_tests_cant": "all files and all randomness", "anchors": ["anothertls/src/net/server/config.rs", "anothertls/src/net/client/config.rs", "anothertls/src/rand/urandom.rs", "anothertls/src/crypto/ellipticcurve/privatekey.rs: from_pem"]}
{"id": "C75", "title": "The end of the data is told apart from a cut connection", "statement": "A read returns an error when TCP ends without close_notify, and the application learns of the peer's close_notify as an orderly end.", "quantifier": "every state of the connection, every chunk that arrives, every alert", "why_tests_cant": "every record content and every cut point", "anchors": ["anothertls/src/net/stream.rs: tls_read", "anothertls/src/net/alert.rs"]}
{"id": "C76", "title": "Post-handshake messages do not disturb the data", "statement": "NewSessionTicket and other handshake messages that arrive after the handshake are taken without an error, and the application data before, between and after them is delivered unchanged and in order.", "quantifier": "every sequence of data and messages, every key state", "why_tests_cant": "all interleavings", "anchors": ["anothertls/src/net/stream.rs: tls_read"]}
{"id": "C77", "title": "The client survives a HelloRetryRequest", "statement": "For every HelloRetryRequest, connect neither panics nor hangs: it sends a second ClientHello or ends with an alert.", "quantifier": "every client configuration, every HelloRetryRequest, everything after it", "why_tests_cant": "all groups and all extension lists", "anchors": ["anothertls/src/net/server/server_hello.rs: from_raw", "anothertls/src/net/extensions/key_share.rs: KeyShareEntry::parse", "anothertls/src/net/client/connection.rs: handle_server_hello"]}
{"id": "C78", "title": "The client accepts only what it offered", "statement": "connect fails with a fatal alert for every ServerHello that selects a suite, a version or a group which is not in the ClientHello, or does not echo the session id; a connection that is established uses what was offered.", "quantifier": "every ServerHello, every byte sequence", "why_tests_cant": "all messages", "anchors": ["anothertls/src/net/server/server_hello.rs: from_raw", "anothertls/src/net/client/connection.rs: handle_server_hello"]}
{"id": "C79", "title": "No input brings accept or connect down", "statement": "Whatever bytes the peer, or somebody on the way to it, sends and however they are split into reads, accept and connect return: with a connection, or with an error. They do not panic, and somebody without the keys never gets a connection.", "quantifier": "every configuration, every sequence of reads, at every stage of the handshake", "why_tests_cant": "all byte sequences, all stages", "anchors": ["anothertls/src/net/server/connection.rs: do_handshake", "anothertls/src/net/client/connection.rs: do_handshake", "anothertls/src/net/record.rs: from_raw, decrypt"]}
{"id": "C80", "title": "The handshake ends when the peer hangs up", "statement": "When the TCP connection ends during the handshake, accept and connect return an error at once and send nothing more; once they have returned, nothing that arrives later changes the result.", "quantifier": "every configuration, every sequence of reads before and after", "why_tests_cant": "all histories", "anchors": ["anothertls/src/net/stream.rs: tcp_read", "anothertls/src/net/server/connection.rs: do_handshake", "anothertls/src/net/client/connection.rs: do_handshake"]}
{"id": "C81", "title": "A server that checks the client's name admits only those the CA named", "statement": "With a client CA and a custom check of the certificate's common name, accept returns a connection only to a peer that holds the key of a certificate which the CA issued for that name and which has not expired.", "quantifier": "every configuration, every CA key, every certificate and every name, every grouping of the client's records into reads", "why_tests_cant": "all certificates and all handshakes", "anchors": ["anothertls/src/utils/x509.rs: from_raw, get", "anothertls/src/net/handshake/certificate.rs: from_raw_x509, has_signed", "examples/src/bin/server_client_auth.rs: set_client_cert_custom_verify_fn"]}
{"id": "C82", "title": "The example servers go on serving, whatever a client does", "statement": "The accept loop of server_https and of server_client_auth handles each connection and then takes the next: no client can end the process or keep the others from being served, and what one client gets does not depend on those before.", "quantifier": "every sequence of connections, every content of their reads, every configuration", "why_tests_cant": "all clients and all orders of connections", "anchors": ["examples/src/bin/server_https.rs: main", "examples/src/bin/server_client_auth.rs: main"]}
{"id": "C83", "title": "The example client and the example servers understand each other", "statement": "The client's request reaches the server, which prints it without the final blank line, and the client prints the server's response, unchanged.", "quantifier": "every pair of compatible configurations, all random numbers, every response that is text and fits one record", "why_tests_cant": "all keys, random numbers and responses", "anchors": ["examples/src/bin/client_https.rs: main", "examples/src/bin/client_client_auth.rs: main", "examples/src/bin/server_https.rs: main", "examples/src/bin/server_client_auth.rs: main"]}
{"id": "C84", "title": "server_client_auth answers \"Hello admin!\" to otsmr only", "statement": "With the files shipped, server_client_auth answers a request only if the client holds the key of a certificate the shipped CA issued for otsmr and which is valid; the shipped certificates are taken for valid exactly during the time written in them.", "quantifier": "every connection, every certificate, all random numbers, every time of day", "why_tests_cant": "all clients, all certificates of the CA and all times", "anchors": ["examples/src/bin/server_client_auth.rs: main", "examples/src/bin/config"]}
{"id": "C85", "title": "Log output only on request", "statement": "Nothing is printed unless the environment variable RUST_LOG is error, debug or fixme, in any mixture of cases; then messages of that level and of the graver ones are printed, and no others.", "quantifier": "every environment, every message", "why_tests_cant": "all environments", "anchors": ["anothertls/src/utils/log.rs: init, check_log_level, error!, debug!, fixme!"]}
{"id": "C86", "title": "The example programs speak HTTP/1.1", "statement": "The request of the example clients and the responses of the example servers are HTTP/1.1 messages as RFC 9112 defines them: lines end in CRLF, a response begins with a status line, and its Content-Length is the length of the body.", "quantifier": "every host name, every way to split the text into start line, fields and body", "why_tests_cant": "a test sees one parser; that no reading of the text is a message needs all of them", "anchors": ["examples/src/bin/client_https.rs: main", "examples/src/bin/client_client_auth.rs: main", "examples/src/bin/server_https.rs: main", "examples/src/bin/server_client_auth.rs: main"]}
{"id": "C87", "title": "Ends that share keys saw the same handshake", "statement": "When connect and accept have both returned a connection and the two ends hold the same application traffic secret, they saw the same handshake messages up to the server's Finished: the ClientHello the server answered is the one the client sent, and, if no bytes were appended to the hello records, the ServerHello, the cipher and the certificate are the same too. Two connections of clients that drew different randoms, and the two directions of one connection, never share a secret. The only exception is a collision of the hash function among the few strings the two ends themselves hashed.", "quantifier": "every pair of configurations, drawn numbers and received bytes, whoever is in between", "why_tests_cant": "a test cannot try every alteration of a handshake, nor say that one that is not noticed yields a hash collision", "anchors": ["anothertls/src/net/client/connection.rs: do_handshake", "anothertls/src/net/server/connection.rs: do_handshake_block", "anothertls/src/hash/hkdf.rs", "anothertls/src/net/key_schedule.rs: KeySchedule", "anothertls/src/hash/mod.rs"]}
{"id": "C88", "title": "Keys and nonces are drawn without preference", "statement": "If the operating system's random bytes are uniform and independent, every private key of a key exchange, every ECDSA nonce and every random value, session id and context is drawn with (nearly) the same probability.", "quantifier": "every number of the range, every byte string of the requested size, counted over all reads of /dev/urandom", "why_tests_cant": "a bias of a drawn number is a statement about all 256^100 reads; samples show nothing about it", "anchors": ["anothertls/src/rand/urandom.rs", "URandomRng::between", "URandomRng::bytes", "anothertls/src/crypto/ellipticcurve/ecdsa.rs"]}
{"id": "C89", "title": "Certificates of other kinds are refused, not fatal", "statement": "A certificate with a signature algorithm, a kind of key, a curve or a date the library has no code for is refused with an error: parsing it never panics, and neither does a client that is presented with one.", "quantifier": "every certificate of RFC 5280 with such an element, whatever its other fields are; every delivery of the records of a server that presents it", "why_tests_cant": "the other fields, the sizes and the ways to deliver them are unbounded; a test tries a few certificates", "anchors": ["anothertls/src/utils/x509.rs: parse, X509::from_raw, X509::get_public_key, Algorithms::new", "anothertls/src/net/handshake/certificate.rs: Certificate::from_raw, has_signed", "anothertls/src/net/client/connection.rs: ClientHandshake"]}
{"id": "C90", "title": "A handshake takes boundedly many records and bounded memory", "statement": "An end of a handshake reads only a bounded number of records before accept or connect returns, and keeps only a bounded number of the bytes it has read, whatever the peer sends.", "quantifier": "every configuration, every peer, every sequence of reads, every number of records", "why_tests_cant": "the peer chooses how many records it sends; a test stops after a few, and the memory an end keeps is not visible to it", "anchors": ["anothertls/src/net/client/connection.rs: ClientHandshake::do_handshake (defragmented), handle_handshake_encrypted_record", "anothertls/src/net/server/connection.rs: ServerHandshake::do_handshake, handle_client_finish", "TlsListener::accept", "TlsConnection::connect"]}
{"id": "C91", "title": "Dates that are none are refused", "statement": "A certificate in which something else than a calendar date and time in UTC stands for the beginning or end of its validity is refused with an error, and no date makes a client panic.", "quantifier": "every text in place of a UTCTime, every clock, every configuration, every delivery of the server's messages", "why_tests_cant": "there are 10^12 texts of digits and more with other characters; the months, days and years that panic or run on are a small part of them", "anchors": ["anothertls/src/utils/x509.rs: UtcTime::from_utc_timestamp, UtcTime::get_unix_timestamp, Validity::is_valid, str_to_u16", "anothertls/src/net/handshake/certificate.rs: from_hello", "TlsConnection::connect"]}
{"id": "C92", "title": "A list of signature algorithms is read as it was written", "statement": "Reading the signature_algorithms extension gives the schemes that stand in it: what the library writes it reads back, schemes it has no name for are passed over, and a list that is cut short is an error and no panic.", "quantifier": "every list of scheme codes, every length field, whatever follows the list", "why_tests_cant": "the list has any length up to 2^15 and any codes; the repository has no test of it, and one with a single scheme would not tell what is lost from longer ones", "anchors": ["anothertls/src/net/extensions/signature_algorithm.rs: SignatureAlgorithms::server_parse, SignatureScheme::new", "anothertls/src/net/handshake/server_hello.rs: from_client_hello"]}
{"id": "C93", "title": "What is shown of a certificate says which names and dates it has", "statement": "The text a certificate's validity dates are shown as tells any two of them apart, and so does the text its subject and issuer are shown as.", "quantifier": "every certificate, every pair of names and of dates", "why_tests_cant": "it is about all pairs of names and dates", "anchors": ["anothertls/src/utils/x509.rs: impl Display for UtcTime, impl Display for Name"]}
{"id": "C94", "title": "Text that is not base64 is refused", "statement": "base64::decode returns None for every text that is not the base64 encoding of some bytes, without a panic, and a PEM file with such a block is refused.", "quantifier": "every text, every PEM file and body of a block", "why_tests_cant": "all texts of all lengths; the tests decode encodings only", "anchors": ["anothertls/src/utils/base64.rs: decode", "anothertls/src/utils/pem.rs: get_pem_content_from_file"]}
{"id": "C95", "title": "The secret of a handshake depends on the keys of both ends", "statement": "With an honest peer different private keys give different shared secrets and none of them is zero; a peer's key share that would fix the secret whatever key is drawn here (RFC 8446 7.4.2, RFC 7748 6.1) is refused by server and client.", "quantifier": "every private key drawn, every share an honest peer can send, every share of small order, every configuration, hello and cipher suite", "why_tests_cant": "all 2^252 scalars and all honest shares: it rests on the order of the base point being prime; the known bad shares are never tried by a test", "anchors": ["anothertls/src/crypto/ellipticcurve/math.rs: multiply", "anothertls/src/net/key_schedule.rs: KeySchedule::from_handshake", "anothertls/src/net/server/server_hello.rs: ServerHello::from_client_hello", "anothertls/src/net/client/connection.rs: handle_server_hello"]}
