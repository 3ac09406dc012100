# Formal model of AnotherTLS: design

## 1. What is built

`rocq/theories/` holds five folders.

* `Model/` — executable Gallina functions, one per Rust function of `/repo/anothertls/src`. Each
  definition cites `file:lines`. No proofs.
* `Spec/` — small independent specifications (RFC 4648, FIPS 180-4, RFC 2104, RFC 5869, RFC 8446,
  RFC 8439, FIPS 197, SP 800-38D, RFC 7748, affine curve law, Gregorian calendar ...). Those
  of standards do not import `Model/` (apart from shared byte-list notation). Those that say what a
  connection is, what causes a crash and the like speak of the model's types (configurations, records,
  certificates, errors, results), not of its functions for the step they specify.
* `Proofs/` — lemmas.
* `Props/` — only the property theorems (closed by `exact`), non-vacuity `Example`s, and
  `Print Assumptions`.
* `Tests/` — the repository's own unit tests, run on the model (validation of the transcription; no
  property rests on them).

## 2. Modelling conventions

* A byte is a `Z` in `[0,256)` (predicate `is_byte`); a byte string is `list Z`. `IBig`/`UBig` are `Z`.
* Fixed width words are `Z` with the wrap (`mod 2^w`) written out where the Rust code uses
  `wrapping_*`, shifts or `as` casts. Plain `+`, `-`, `*` on `usize`/`u8`/... panic on overflow in the
  default (dev) profile: where an overflow is reachable the model returns `Panic`; comments say where
  the release profile differs.
* `Result<T,E>` is `outcome E T` with three cases: `Ok v`, `Err e`, `Panic`. `Panic` stands for a Rust
  panic (index out of bounds, `unwrap` on `None`, `todo!`, overflow).
* `&mut` arguments become returned values. `Box<dyn Trait>` becomes a sum type. Loops become
  structural recursion, or recursion on fuel with a separate out-of-fuel value that theorems exclude.
* `usize` is 64 bit. Allocation failure and stack exhaustion are not modelled.
* Logging macros have no effect on results and are left out.
* The operating system (TCP, `/dev/urandom`, clock, files) is an explicit argument: a list of TCP
  reads, a stream of random bytes, a current time, the text of a file.

## 3. Plan per property

| id | modelled | proof |
|----|----------|-------|
| C01 | base64.rs | 3-byte group induction; sextet lemmas by finite sweep |
| C02 | pem.rs line machine on lists of characters | induction on blocks and lines |
| C03 | x509.rs UtcTime | refuted for Mar–Dec of leap years; exact characterisation of the error by a day-count spec |
| C04 | Validity::is_valid | case analysis on all four presence combinations |
| C05 | der.rs, x509.rs parse with fuel | termination: fuel = length suffices; panic freedom refuted by witnesses; which bytes can panic: Spec/CertPanics.v says what the reader stumbles over, proved necessary for a panic and never accepted; Spec/CertFalls.v says where it comes before anything refused with an error, proved sufficient |
| C06 | signature.rs | round trip for r,s >= 2^248; refuted below; exact value computed |
| C07 | bytes.rs | induction on byte lists |
| C08, C09 | sha256.rs, sha384.rs | refinement to FIPS 180-4 spec (padding as one byte string, schedule by recursion) |
| C10 | update/finalize | invariant: state = (fold of full blocks, tail, length) |
| C11 | hmac.rs | equality with RFC 2104; refuted for SHA-384 keys of 65..128 bytes |
| C12, C13, C14 | hkdf.rs, key_schedule.rs | equality with RFC 5869/8446 spec functions |
| C15 | chacha20/cipher.rs | equality with RFC 8439 when 64 does not divide the length; refuted (last block left in the clear) otherwise |
| C16, C17 | poly1305.rs | equality with RFC 8439; f32 block count modelled exactly |
| C18 | aes/cipher.rs | S-box from GF(2^8) inversion + affine map; round by round refinement and inversion |
| C19, C20 | aes/gcm.rs | bit-reflection lemma to the SP 800-38D block product; counter mode |
| C21–C23 | record.rs, key_schedule.rs | nonce injectivity by XOR; induction on histories |
| C24, C25 | record.rs | round trip; panic witnesses |
| C26 | math.rs inv | Bezout invariant of the extended Euclid loop |
| C27 | jacobian.rs | field identities over Z/p (primality by Pocklington certificates; associativity proved from the field axioms; order of the base point by computation; a counting argument shows every point is killed by n) |
| C28, C29 | ecdsa.rs | unfolding to the FIPS 186 equation; sign/verify via the group law |
| C30, C31 | curve25519.rs | limb bounds by interval invariants; refinement to an RFC 7748 ladder over Z mod p |
| C32 | from_handshake | refuted for leading zero bytes; proved otherwise |
| C33, C34, C56, C58 | hello, extension and handshake codecs | encode/parse round trips; refutations for skipped bodies and unknown groups |
| C35–C38 | from_client_hello | fold invariants over extension and suite lists; refutations |
| C39 | parsers | panic witnesses, totality under guards; the panicking hellos exactly, as a grammar (`Spec/HelloPanics.v`), by showing of each parser which inputs panic and which are read |
| C40–C43, C47 | connection.rs of server and client as `step` functions over TCP reads | invariants over all reachable states, ghost-free: evidence is stated in terms of received bytes and config |
| C44 | composition of both machines | C68 and C71 applied to each other's flights (Proofs/Loopback.v); what the two ends must meet is `compatible_up_to` in Spec/Loopback.v, with the sizes as arguments; every delivery that C50 covers leads to the same two connections (C44_any_delivery) |
| C45 | handle_server_certificate | refuted: no trust anchor is consulted |
| C46 | alert.rs | finite case analysis; refuted for bad_record_mac |
| C48, C49, C51, C52 | stream.rs | invariant over operation lists; refutations for segmentation, alerts overtaking, oversize writes |
| C50 | do_handshake | server: refutations for fragmented input, proved for whole-record segmentation; client: the relation `delivers` (Spec/Handshaking.v) says which cuts are survived, refutations for the others (Proofs/ClientReads.v) |
| C53 | server/config.rs, client/config.rs | induction over the calls; each field is the last value set (Spec/Config.v) |
| C54 | rand/urandom.rs, rand/simplerng.rs | arithmetic of the range reduction; refuted for sizes over 100 and for SimpleRng::bytes |
| C55 | key_log.rs, both connections | what the file holds, from the key schedule theorems |
| C73 | rand/urandom.rs, rand/simplerng.rs | a read of /dev/urandom is built for each number; refuted above 91 bytes and for SimpleRng |
| C74 | config.rs, rand | invariants of the PEM parser and the builders, giving `server_ok` and `client_ok` |
| C75 | `tls_read` | case analysis of the read for any chunk; refuted for close_notify: any sealed alert gives the same error as any sealed handshake message |
| C76 | `tls_read`, both ends | induction over a sequence of sealed data and messages, read one record at a time; refuted for tickets |
| C77 | `server_hello_from_raw`, key_share parser, `connect` | any ServerHello whose key_share has the form of a HelloRetryRequest; refuted: panic for every known group |
| C78 | `server_hello_from_raw`, `connect` | refusal of every well-formed ServerHello outside the offer; what a successful `connect` implies, from C42; refuted for the echo of the session id |
| C79 | `accept`, `connect` | refuted: cut reads and empty protected records panic at every stage, a secp256r1 share in front at the first; proved for every sequence of records by somebody without the keys once they are agreed; for both sides a list of all causes once they are agreed, whoever sends, by an invariant over records and reads (`Proofs/Crashes.v`, `Proofs/ClientCrashes.v`); the Certificate messages that crash are in `Spec/CertMessagePanics.v` (exactly, given what the certificate reader does with the first certificate; none is one of `Spec/Proper.v`; each brings down every client it is sent to under agreed keys, `Proofs/CertCrash.v`, and every server that asked for it, `Proofs/ServerCrash.v`, as do the CertificateVerify messages below and, first under the keys, the records of `Spec/Broken.v`, for the client by `Proofs/ClientBroken.v`; short records at any stage in `Proofs/Anytime.v`, the others by way of the invariants of `Proofs/Crashes.v` and `Proofs/ClientCrashes.v` in `Proofs/AnyStage.v` and `Proofs/AnyStageClient.v`), the CertificateRequest messages that do in `Spec/RequestPanics.v` (exactly, by induction over the extensions; each from a server that conforms otherwise brings the client down, `Proofs/RequestCrash.v`), the CertificateVerify messages that do in `Spec/VerifyPanics.v` (each step of the signature reader sorted into panic, error and read) unless the key is no uncompressed point; the causes before the keys are agreed are in `Spec/HelloCrashes.v` (hellos by way of C39), and each hello of `Spec/HelloPanics.v` is shown to be one, so that the two lists together cover every sequence of reads |
| C80 | `accept`, `connect`, `tcp_read` | induction on the reads |
| C81 | C40's handshake with a certificate altered after its signed part | instance of C68's handshake with C61's forgery; C40 with C61 for the key |
| C82 | the accept loops of the example servers, over `accept` and `tls_read` | C79 for the ends of one connection; induction over the connections |
| C83 | the example clients and servers, over C44's handshake, for every delivery of C50 | C44, that no proper part of a delivery completes the handshake (`Proofs/Shorter.v`), and the record layer's round trip in both directions; UTF-8; refuted (`C83_joined_refuted`) for a request in the read of the reply's last record, by what C50 says of records after the Finished |
| C84 | server_client_auth with the shipped files, byte for byte | the files by computation; C40 and C81 for the connection; C03 for the times |
| C85 | utils/log.rs | case analysis, induction over the environment |
| C86 | the texts of the example programs | RFC 9112 in `Spec/Http.v`; the first line end of a text is unique, so every reading of the request fails at the Host line; unique body |
| C87 | whole handshakes of both sides (as for C41, C42); the key schedule of RFC 8446 | HMAC, HKDF and the schedule are injective up to a collision among the strings they hash, which `Spec/Agreement.v` lists; the transcripts of two runs of connect and accept then agree, and framing makes them decode to the same messages. No assumption on the hash: the collision is one disjunct of the conclusion |
| C88 | URandomRng as a function of one read of 100 bytes | `Spec/Chance.v` counts the reads that give a number; split by the eight bytes that choose the size, the strings in order are the numbers in order, and a residue occurs in an interval as often as its length allows; nonces modulo the order: refuted |
| C89 | `X509::from_raw` and `get_public_key`, `Certificate::has_signed`, the client's Certificate message | `Spec/X509Any.v` has certificates with any algorithm, key and date; the parser is followed up to the element it has no code for (`Proofs/X509Any.v`); refuted for RSA, also for a whole connection (`Proofs/CertCrash.v`: an invariant over the records up to the Certificate message) |
| C90 | the loops of both handshakes; the client's buffer `defragmented` (`Model/ClientMemory.v`: `Model/Client.v` with the buffer in the result, tied to `connect` by C90_client_memory) | `Proofs/Bounded.v`: every accepted record moves the server on, unless it has refused the client; refuted by induction on the number of records, each sealed under the next nonce (`Proofs/Endless.v`) and for the buffer (`Proofs/ClientMemory.v`) |
| C91 | `UtcTime::from_utc_timestamp`, `get_unix_timestamp`, `Validity::is_valid`, the client's Certificate message | `Proofs/TimeText.v`: what any byte string is read as, by cases on where characters start; `Proofs/Dates.v`: for which numbers there is a timestamp; the connection as for C89 |
| C92 | `SignatureAlgorithms::server_parse` (`Model/SigAlgs.v`; public, but not called while a hello is parsed) | `Proofs/SigAlgs.v`: the scan over any list of codes by induction; the writer as for C65 |
| C93 | the two `Display` impls of x509.rs (`Model/Display.v`) | `Proofs/Shown.v`: decimal digits are read back; split at separators for names |
| C94 | `base64::decode` and the PEM reader on any text | `Proofs/Base64Any.v`: by groups of four; a sweep over the 123 characters of the table; the line machine with any body and with carriage returns |
| C95 | `shared_secret` and the two ends' hellos (`Model/Kex.v`, `Server.v`, `Client.v`) with any key | `Spec/SmallOrder.v`; `Proofs/SmallOrder.v`: the order of the base point is prime (Pocklington chain) and a ladder with a quick reduction, proved equal to RFC 7748's modulo p, shows that its multiple is infinity; equal u-coordinates are equal or opposite points; `Proofs/SmallShares.v`: the ends |
| C72 | certificate.rs from_pem, pem.rs | from the PEM file theorems of C02; refuted for chain files |
| C57 | has_signed | proved for 4-byte headers, refuted for others |
| C59 | record.rs, chacha20.rs | refuted for lengths 63 mod 64; proved otherwise |
| C60, C61 | x509.rs, der.rs | induction over the encoded structure; refuted for elements placed after the signed part |
| C62 | privatekey.rs | direct; refuted for long-form lengths |
| C63 | curve25519.rs | x-only ladder equals multiplication in the Montgomery curve group; commutativity from the group law |
| C64 | from_handshake on both sides | C63 and the byte conversions; leading zero bytes excluded |
| C66 | finished.rs, certificate.rs | equality with the RFC 8446 section 4.4 formulas (Spec/Rfc8446Auth.v); ECDSA facts from C28, C29 |
| C67 | server/connection.rs, stream.rs, record.rs | invariant over the records processed (Proofs/ServerFlow.v) in the vocabulary of Spec/Connection.v |
| C68 | the same | forward execution of the handlers; the converse of C40 and C41 |
| C70, C71 | client/connection.rs, stream.rs, record.rs | as C67 and C68, for the client (Proofs/ClientFlow.v, Proofs/ClientAccept2.v; vocabulary in Spec/ClientConnection.v, Spec/ClientAccept.v) |
| C69 | stream.rs tls_read | case analysis of the read; the record that opened and its inner type |
| C65 | hello encoders, send_client_hello | equality with an encoder written from RFC 8446 section 4 |

Not expressible here: timing side channels, memory zeroisation, cryptographic hardness (unforgeability,
pseudorandomness), OS scheduling. They are not claimed.

## 4. Trusted base

* Coq 8.16.1's kernel, including `vm_compute` (the bytecode machine), which some proofs use for
  finite computations (tables, primality certificates, the order of the P-256 base point). `coqchk`
  re-checks everything with its own lazy conversion.
* `Print Assumptions` says "Closed under the global context" beneath every theorem in `Props/`: no axiom
  is used, neither of ours nor of the standard library. `coqchk` lists seven entries
  `Coq.ssr.ssrunder.Under_rel.*`: these are the module-type fields of the ssreflect part of the standard
  library that is loaded with it. No theorem depends on them.
* The transcription of Rust into Gallina, which is by hand. Every definition in `Model/` cites the lines
  it follows; simplifications are in those comments.
* The specifications in `Spec/`, written from the standards.

Modelled: utils/{base64,pem,bytes,der,x509}.rs, hash/, crypto/ (AES, GCM, ChaCha20, Poly1305, elliptic curves,
ECDSA, X25519), net/{alert,record,key_schedule,stream}.rs, handshake messages, extensions, both connection
state machines, configuration builders, the random number generators, the key log, the log level, the
programs in examples/ (as far as the files in
`Model/` go; MANIFEST.json says which properties are done).

Not modelled: which messages are logged where, the text of error messages, thread and socket set-up, the
`ibig` crate (its integers are `Z`; its byte conversions are modelled by their documentation), the
standard library's collections (lists and association lists), memory and time consumption.
