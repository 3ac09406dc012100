{
 "claims": [
  {
   "property": "C01",
   "status": "proved",
   "theorems": [
    "C01_base64_encode_is_rfc4648",
    "C01_base64_round_trip"
   ],
   "note": "Encoder equals RFC 4648 base64 and decode inverts encode, for all byte strings."
  },
  {
   "property": "C02",
   "status": "proved",
   "theorems": [
    "C02_pem_blocks_are_read_back",
    "C02_pem_without_block_is_rejected",
    "C02_pem_truncated_is_rejected"
   ],
   "note": "For every text made of explanatory lines and BEGIN/END blocks (arbitrary wrapping, LF ends): last block per title wins; texts without a block, or ending inside one, are rejected."
  },
  {
   "property": "C03",
   "status": "partial",
   "theorems": [
    "C03_unix_time_partial",
    "C03_unix_time_refuted"
   ],
   "note": "False of the code: from 1 March of a leap year the timestamp is exactly one day early (refuted with 2024-03-01); right for every other date 1970-2049."
  },
  {
   "property": "C04",
   "status": "partial",
   "theorems": [
    "C04_window",
    "C04_missing_bound",
    "C04_calendar_partial",
    "C04_calendar_refuted",
    "C04_before_1970_refuted"
   ],
   "note": "The window comparison is exact in terms of the converted bounds and a missing bound is not enforced; in calendar terms it inherits the C03 error (refuted), and bounds before 1970 panic (refuted)."
  },
  {
   "property": "C05",
   "status": "partial",
   "theorems": [
    "C05_terminates_partial",
    "C05_panic_refuted",
    "C05_panics_partial",
    "C05_trouble_refused",
    "C05_falls_refuted"
   ],
   "note": "Termination proved for every input. Panic-freedom is false of the code: refuted with four short inputs. C05_panics_partial: only bytes with the troubles of Spec/CertPanics.v panic; C05_trouble_refused: no bytes with such trouble are accepted. C05_falls_refuted: those in which only SEQUENCEs, SETs and BIT STRINGs being entered, INTEGERs and context-specific elements come before the trouble do panic. Missing: which of the others are refused with an error rather than a panic. Stack depth is not modelled."
  },
  {
   "property": "C06",
   "status": "partial",
   "theorems": [
    "C06_round_trip_partial",
    "C06_round_trip_refuted",
    "C06_from_der"
   ],
   "note": "Round trip proved when both numbers are >= 2^248; refuted for every pair where one is smaller (left-aligned conversion). Reading of any DER signature proved."
  },
  {
   "property": "C07",
   "status": "partial",
   "theorems": [
    "C07_reads_are_positional",
    "C07_writes_invert_reads",
    "C07_hex_round_trip",
    "C07_hex_read",
    "C07_u64_le_refuted",
    "C07_u64_reads_big_endian"
   ],
   "note": "All readers and writers are positional inverses except to_u64_le, which reads big-endian (C07_u64_le_refuted); its actual meaning is proved. from_hex is characterised for every text."
  },
  {
   "property": "C08",
   "status": "proved",
   "theorems": [
    "C08_sha256_is_fips180"
   ],
   "note": "Messages below 2^53 bytes (the code writes only 7 length bytes)."
  },
  {
   "property": "C09",
   "status": "proved",
   "theorems": [
    "C09_sha384_is_fips180"
   ],
   "note": "Messages below 2^117 bytes (the code writes only 15 length bytes)."
  },
  {
   "property": "C10",
   "status": "proved",
   "theorems": [
    "C10_chunking_does_not_matter",
    "C10_finalize_does_not_disturb"
   ],
   "note": "Any chunking, any interleaving of update and finalize."
  },
  {
   "property": "C11",
   "status": "partial",
   "theorems": [
    "C11_hmac_is_rfc2104_partial",
    "C11_hmac_sha384_refuted"
   ],
   "note": "Equal to RFC 2104 except SHA-384 with keys of 65..128 bytes, where the code hashes the key although the block size is 128 (C11_hmac_sha384_refuted)."
  },
  {
   "property": "C12",
   "status": "partial",
   "theorems": [
    "C12_extract_is_rfc5869_partial",
    "C12_expand_is_rfc5869_partial",
    "C12_expand_size"
   ],
   "note": "Equal to RFC 5869 except for SHA-384 salts/PRKs of 65..128 bytes (inherited from C11). Output size and refusal are proved for every input."
  },
  {
   "property": "C13",
   "status": "proved",
   "theorems": [
    "C13_label_is_rfc8446",
    "C13_label_unambiguous"
   ],
   "note": "Exact HkdfLabel bytes and injectivity."
  },
  {
   "property": "C14",
   "status": "proved",
   "theorems": [
    "C14_traffic_keys",
    "C14_peers_agree"
   ],
   "note": "Each of the three suites, both roles; RFC 8446 7.1/7.3 stated over the reference HMAC/SHA of Spec/. Transcripts below 2^53 bytes."
  },
  {
   "property": "C15",
   "status": "partial",
   "theorems": [
    "C15_chacha20_is_rfc8439_partial",
    "C15_last_block_in_clear",
    "C15_every_byte_encrypted_refuted",
    "C15_wrong_sizes_refused"
   ],
   "note": "RFC 8439 at every byte when the length is below 16 MiB and not a non-zero multiple of 64. For multiples of 64 the code leaves the last 64 bytes in the clear (C15_every_byte_encrypted_refuted; exact output in C15_last_block_in_clear). Wrong key/nonce sizes are refused."
  },
  {
   "property": "C16",
   "status": "partial",
   "theorems": [
    "C16_poly1305_is_rfc8439_partial",
    "C16_covers_every_byte_refuted"
   ],
   "note": "Equal to RFC 8439 for messages below 2^24 bytes; above, the block count is rounded through f32 and trailing bytes can be ignored (C16_covers_every_byte_refuted)."
  },
  {
   "property": "C17",
   "status": "partial",
   "theorems": [
    "C17_round_trip",
    "C17_tag_checked",
    "C17_is_rfc8439_partial"
   ],
   "note": "Round trip and tag check proved for every input below 16 MiB in total; equality with the RFC 8439 AEAD additionally needs a length that is not a multiple of 64 (see C15)."
  },
  {
   "property": "C18",
   "status": "proved",
   "theorems": [
    "C18_encrypt_is_fips197",
    "C18_decrypt_inverts_encrypt",
    "C18_encrypt_gives_block",
    "C18_spec_inverse"
   ],
   "note": "FIPS 197 stated from the field definition (S-box = inverse in GF(2^8) then affine map), all three key sizes."
  },
  {
   "property": "C19",
   "status": "proved",
   "theorems": [
    "C19_gmult_is_sp80038d_product",
    "C19_gmult_commutes",
    "C19_gmult_distributes",
    "C19_gmult_associates",
    "C19_gmult_unit"
   ],
   "note": "Product of SP 800-38D Algorithm 1; commutative, associative, distributive, with unit."
  },
  {
   "property": "C20",
   "status": "proved",
   "theorems": [
    "C20_encrypt_is_sp80038d",
    "C20_decrypt_is_sp80038d",
    "C20_round_trip",
    "C20_wrong_tag_refused",
    "C20_other_nonces",
    "C20_other_nonces_refuted"
   ],
   "note": "96-bit nonces (all TLS uses), data and associated data below 2^61 bytes (the 64-bit bit counts of SP 800-38D). Other nonce lengths: equal when the 32-bit counter does not wrap; otherwise the code can panic (C20_other_nonces_refuted), which the property does not cover."
  },
  {
   "property": "C21",
   "status": "proved",
   "theorems": [
    "C21_nonces",
    "C21_no_wrap"
   ],
   "note": "Any run of nonces from one key; the counter stops (panic) at 2^64 instead of wrapping."
  },
  {
   "property": "C22",
   "status": "proved",
   "theorems": [
    "C22_history",
    "C22_wire_is_rfc8446_partial",
    "C22_handshake_wire_partial",
    "C22_padding_partial"
   ],
   "note": "Arbitrary interleavings of sends and deliveries in both directions, all suites. Equality of the wire bytes with RFC 8446 5.2, and acceptance of padded records, are proved except for ChaCha20-Poly1305 inner plaintexts that are multiples of 64 bytes (C15), hence the two _partial companions."
  },
  {
   "property": "C23",
   "status": "proved",
   "theorems": [
    "C23_only_authentic",
    "C23_wrong_tag_is_error"
   ],
   "note": "Delivery implies the right tag for header, ciphertext and current nonce; every other record of at least 16 bytes is DecryptError. Shorter payloads: see C25."
  },
  {
   "property": "C24",
   "status": "proved",
   "theorems": [
    "C24_round_trip",
    "C24_wire_format",
    "C24_parses_only_encodings"
   ],
   "note": "Encode/parse, any suffix, and the converse (only encodings parse)."
  },
  {
   "property": "C25",
   "status": "partial",
   "theorems": [
    "C25_never_panics_refuted",
    "C25_panics_exactly",
    "C25_short_is_error",
    "C25_decrypt_panics_refuted",
    "C25_decrypt_panics_exactly"
   ],
   "note": "False of the code: buffers 1..3 bytes short panic, and so does decryption of payloads under 16 bytes. Both refutations are proved together with the exact set of panicking inputs."
  },
  {
   "property": "C26",
   "status": "proved",
   "theorems": [
    "C26_inverse",
    "C26_zero"
   ],
   "note": "All moduli n>1 and all x>=0 coprime to n."
  },
  {
   "property": "C27",
   "status": "proved",
   "theorems": [
    "C27_add",
    "C27_multiply",
    "C27_multiply_negative",
    "C27_group",
    "C27_contains"
   ],
   "note": "All pairs of curve points, all scalars (also negative or >= n); the group laws of the specification itself are proved, including associativity and that n kills every point. Primality of p and n is proved in Proofs/Primes.v."
  },
  {
   "property": "C28",
   "status": "proved",
   "theorems": [
    "C28_verify",
    "C28_verify_is_fips186"
   ],
   "note": "Exactly the FIPS 186-4 verification for hashes up to 32 bytes (the library only passes SHA-256); longer hashes are not truncated (general form C28_verify)."
  },
  {
   "property": "C29",
   "status": "proved",
   "theorems": [
    "C29_sign_is_fips186",
    "C29_signatures_verify",
    "C29_public_key"
   ],
   "note": "All private keys not divisible by n, all hashes, all nonces. Termination of the retry loop depends on the nonces drawn: sign returns the first usable one."
  },
  {
   "property": "C30",
   "status": "proved",
   "theorems": [
    "C30_add",
    "C30_sub",
    "C30_mul",
    "C30_inverse",
    "C30_inverse_zero",
    "C30_pack",
    "C30_unpack",
    "C30_reduced_within"
   ],
   "note": "Addition, subtraction, multiplication, inversion, packing and unpacking; the bounds each operation guarantees are those the next accepts."
  },
  {
   "property": "C31",
   "status": "proved",
   "theorems": [
    "C31_x25519"
   ],
   "note": "All 32-byte points and scalars."
  },
  {
   "property": "C32",
   "status": "partial",
   "theorems": [
    "C32_sent",
    "C32_shared_exact",
    "C32_shared_partial",
    "C32_traffic_secrets_partial",
    "C32_other_groups_refused",
    "C32_secret_with_leading_zero_refuted",
    "C32_key_with_leading_zero_refuted"
   ],
   "note": "The share sent is exactly X25519(private, 9). The secret used is exact unless the peer key or the secret starts with a zero byte; both exceptions are refuted (one peer key forces the all-zero secret for every private key)."
  },
  {
   "property": "C33",
   "status": "proved",
   "theorems": [
    "C33_round_trip",
    "C33_parse"
   ],
   "note": "Round trip of the library's own hellos, and the exact parse of every well-formed ClientHello (any extensions, suites, shares of named groups)."
  },
  {
   "property": "C34",
   "status": "proved",
   "theorems": [
    "C34_round_trip",
    "C34_parse"
   ],
   "note": "Round trip, and the exact parse of every well-formed ServerHello."
  },
  {
   "property": "C35",
   "status": "proved",
   "theorems": [
    "C35_connection_suite_needed",
    "C35_chosen",
    "C35_chosen_parsed",
    "C35_none_fails"
   ],
   "note": "For every hello that parses, and in wire terms for every well-formed ClientHello."
  },
  {
   "property": "C36",
   "status": "partial",
   "theorems": [
    "C36_connection_partial",
    "C36_listed_partial",
    "C36_no_versions_refuted"
   ],
   "note": "A hello listing versions without TLS 1.3 is refused, the connection fails and at most an alert is sent; one with no supported_versions at all is served (refuted for every such hello that is otherwise acceptable)."
  },
  {
   "property": "C37",
   "status": "partial",
   "theorems": [
    "C37_connection_partial",
    "C37_other_name_partial",
    "C37_no_name_refuted",
    "C37_other_name_type"
   ],
   "note": "A different name is refused, and so is a list that does not start with a host name; the connection fails and at most an alert is sent. Naming no host is accepted (refuted for every such hello)."
  },
  {
   "property": "C38",
   "status": "partial",
   "theorems": [
    "C38_connection_x25519_needed",
    "C38_served_partial",
    "C38_secp256r1_first_refuted",
    "C38_unknown_group_refuted",
    "C38_x25519_needed"
   ],
   "note": "Served whenever X25519 comes before any secp256r1 share and all groups are named ones; both exceptions are refuted: a secp256r1 share first panics, an unnamed group is an error."
  },
  {
   "property": "C39",
   "status": "partial",
   "theorems": [
    "C39_handshake",
    "C39_handshake_short",
    "C39_handshake_refuted",
    "C39_client_hello_refuted",
    "C39_server_hello_refuted",
    "C39_client_hello_exact",
    "C39_server_hello_exact",
    "C39_session_id_refuted",
    "C39_fuel"
   ],
   "note": "Refuted. Handshake framing characterised exactly, with its panics; the ClientHello and ServerHello bodies that panic are listed exactly, field by field (Spec/HelloPanics.v); session ids of 1..31 bytes are never echoed. Loops always terminate."
  },
  {
   "property": "C40",
   "status": "proved",
   "theorems": [
    "C40_authenticated"
   ],
   "note": "Every run of accept that returns a connection, for every cut of the input into TCP reads. The certificate is the first one in the Certificate message; the records are the first three after the ClientHello that are not change_cipher_spec."
  },
  {
   "property": "C41",
   "status": "proved",
   "theorems": [
    "C41_finished"
   ],
   "note": "Every run of accept that returns a connection; bytes after the Finished message inside its record are ignored by the code and by the statement."
  },
  {
   "property": "C42",
   "status": "proved",
   "theorems": [
    "C42_server_authenticated"
   ],
   "note": "Every run of connect that returns a connection, for every cut of the input into TCP reads (up to 2^25 bytes). Because the client processes a fragmented record again with the next read, the records are stated as parts of the bytes received, in the order of their numbers."
  },
  {
   "property": "C43",
   "status": "partial",
   "theorems": [
    "C43_client_reports_partial",
    "C43_client_alert_received",
    "C43_client_sealed_alert_received",
    "C43_client_short_alert_refuted",
    "C43_client_unknown_type_refuted",
    "C43_server_reports_partial",
    "C43_server_alert_received",
    "C43_server_sealed_alert_received",
    "C43_server_short_alert_refuted",
    "C43_server_unreadable_alert_refuted"
   ],
   "note": "Server and client: which alert is sent under which keys and what the caller gets, for every failing run; received alerts, in the clear or sealed, are reported. Refuted: alerts under two bytes panic; an error in the read of the ClientHello loses the ServerHello and encrypts the alert under a key the client cannot derive; a client that reads a byte which is no record type waits for ever; codes of decode_error, decrypt_error and bad_record_mac are wrong (C46)."
  },
  {
   "property": "C44",
   "status": "partial",
   "theorems": [
    "C44_handshake_partial",
    "C44_conversation_partial",
    "C44_any_delivery_partial",
    "C44_waits_partial"
   ],
   "note": "Both ends finish and hold the same application keys, and the two connections then carry data both ways (C49): as one read per write, with every segment fitting its reader (certificates up to 1500/3500 bytes), and for certificates and names up to 65000 bytes in every delivery that C50 covers. Excluded: key shares starting with a zero byte (C32), signatures with a number below 2^248 (C06), larger certificates and names, and the deliveries C50 excludes."
  },
  {
   "property": "C45",
   "status": "partial",
   "theorems": [
    "C45_any_server_refuted",
    "C45_self_signed_refuted"
   ],
   "note": "Refuted: a server with any valid-in-time certificate for any name, issued by anyone, is accepted. What the client does check is C42."
  },
  {
   "property": "C46",
   "status": "partial",
   "theorems": [
    "C46_codes_partial",
    "C46_bad_record_mac_refuted",
    "C46_decode_decrypt_swapped_refuted",
    "C46_error_code_round_trip",
    "C46_codes_distinct",
    "C46_only_close_notify_is_a_warning"
   ],
   "note": "bad_record_mac is sent as 0 (close_notify), and decode_error/decrypt_error carry each other's code (C46_*_refuted). All other codes, injectivity, the round trip and the level rule are proved."
  },
  {
   "property": "C47",
   "status": "partial",
   "theorems": [
    "C47_client_ignores_ccs",
    "C47_client_early_ccs_refuted",
    "C47_server_ignores_ccs",
    "C47_server_refuses_early_ccs"
   ],
   "note": "Server and client proved for any number of change_cipher_spec records at any place after the first message of the peer. Refuted for the client before the ServerHello: it fails with an alert where RFC 8446 says to drop the record."
  },
  {
   "property": "C48",
   "status": "partial",
   "theorems": [
    "C48_in_order",
    "C48_direct_write",
    "C48_alert_overtakes_refuted"
   ],
   "note": "Order and completeness for every operation list on every socket, with alerts after a flush; an alert written while records are buffered overtakes them (refuted for every stream)."
  },
  {
   "property": "C49",
   "status": "partial",
   "theorems": [
    "C49_one_segment_per_write_partial",
    "C49_joined_refuted",
    "C49_split_refuted"
   ],
   "note": "All histories with one TCP segment per write of at most 4074 bytes; joined segments lose data silently and split records are errors (both refuted for all streams)."
  },
  {
   "property": "C50",
   "status": "partial",
   "theorems": [
    "C50_client_delivery_partial",
    "C50_client_cut_refuted",
    "C50_client_handled_twice_refuted",
    "C50_client_hello_cut_refuted",
    "C50_server_regroup_partial",
    "C50_server_cut_refuted",
    "C50_server_drops_data_refuted",
    "C50_server_alert_refuted"
   ],
   "note": "Server: same result for every grouping that keeps records whole, without alerts. Client: same result for every delivery, also of cut records, if no read ends one to three bytes before the end of a record and none ends one cut record and begins another. Refuted: the server fails on a read that ends inside a record, drops records in the read of the Finished, and an alert there counts or not depending on the read; the client panics when one to three bytes are missing and handles a record twice when a read ends it and begins the next."
  },
  {
   "property": "C51",
   "status": "partial",
   "theorems": [
    "C51_one_record_partial",
    "C51_wraps_refuted",
    "C51_unreadable_refuted"
   ],
   "note": "Up to 65518 bytes one record carries the buffer; above, the length field wraps (refuted); from 4075 bytes on the library's own reader cannot read it (refuted)."
  },
  {
   "property": "C52",
   "status": "partial",
   "theorems": [
    "C52_refused_without_keys",
    "C52_one_ciphertext_partial",
    "C52_clear_text_refuted"
   ],
   "note": "Proved except for ChaCha20-Poly1305 at lengths 63 mod 64, where 63 bytes go out in the clear (refuted)."
  },
  {
   "property": "C53",
   "status": "proved",
   "theorems": [
    "C53_server",
    "C53_complete_or_refused",
    "C53_unloadable",
    "C53_client",
    "C53_client_unloadable"
   ],
   "note": "Server and client builders, every sequence of calls; a file that does not load panics."
  },
  {
   "property": "C54",
   "status": "partial",
   "theorems": [
    "C54_urandom_between",
    "C54_urandom_bytes_partial",
    "C54_urandom_bytes_refuted",
    "C54_simple_between",
    "C54_simple32_between",
    "C54_simple_bytes_refuted",
    "C54_simple_no_bytes_refuted",
    "C54_simple_server_refuted"
   ],
   "note": "URandomRng: between always in range, bytes(n) right for n <= 100 and a panic above (refuted). SimpleRng: between in range; bytes(n) is empty for n > 0 and never returns for n = 0 (refuted), so a server configured with it panics on a ClientHello."
  },
  {
   "property": "C55",
   "status": "proved",
   "theorems": [
    "C55_client_key_log",
    "C55_server_key_log"
   ],
   "note": "Client and server, for established connections."
  },
  {
   "property": "C56",
   "status": "partial",
   "theorems": [
    "C56_frame",
    "C56_certificate",
    "C56_certificate_list",
    "C56_certificate_verify_partial"
   ],
   "note": "Handshake framing, Certificate (one certificate and lists) proved for all sizes; CertificateVerify is read back when both numbers of the signature have 256 bits (C06: shorter ones are misread)."
  },
  {
   "property": "C57",
   "status": "partial",
   "theorems": [
    "C57_signed_part_partial",
    "C57_signed_part_refuted"
   ],
   "note": "Right exactly when both DER headers are four bytes long; refuted for every certificate whose TBS content is under 256 or over 65535 bytes."
  },
  {
   "property": "C58",
   "status": "partial",
   "theorems": [
    "C58_extension_ignored",
    "C58_suite_ignored",
    "C58_server_extension_ignored",
    "C58_group_refuted"
   ],
   "note": "Extensions (client and server hello) and suites are skipped at any place; unknown groups in key_share are an error (refuted, e.g. GREASE)."
  },
  {
   "property": "C59",
   "status": "partial",
   "theorems": [
    "C59_clear_text_refuted"
   ],
   "note": "False of the code: refuted for every ChaCha20-Poly1305 record with 64k+63 content bytes."
  },
  {
   "property": "C60",
   "status": "proved",
   "theorems": [
    "C60_parses_to_its_fields",
    "C60_null_parameters_refuted"
   ],
   "note": "Every certificate of the ECDSA P-256 profile of Spec/X509.v (single-valued RDNs, UTCTime validity) parses to its fields. NULL parameters panic (separate refutation)."
  },
  {
   "property": "C61",
   "status": "partial",
   "theorems": [
    "C61_key_is_signed_partial",
    "C61_not_after_refuted",
    "C61_subject_refuted"
   ],
   "note": "Key, serial, algorithm, issuer, notBefore are taken from the signed bytes whatever follows them. notAfter and subject are not: refuted for every certificate by inserting one element after the signed part."
  },
  {
   "property": "C62",
   "status": "partial",
   "theorems": [
    "C62_key_file_partial",
    "C62_long_key_file_refuted"
   ],
   "note": "Right whenever the encoded key has a one-byte length (content under 128 bytes: no explicit curve parameters); refuted for longer ones, which silently give another key."
  },
  {
   "property": "C63",
   "status": "proved",
   "theorems": [
    "C63_agreement",
    "C63_total"
   ],
   "note": "Via the group law of the Montgomery curve (associativity proved in Proofs/EcGroup.v) and the correctness of the x-only ladder, including u = 0."
  },
  {
   "property": "C64",
   "status": "partial",
   "theorems": [
    "C64_endpoints_agree_partial"
   ],
   "note": "Proved when neither share starts with a zero byte; with one the receiver computes with another key (C32_shared_exact)."
  },
  {
   "property": "C65",
   "status": "proved",
   "theorems": [
    "C65_client_hello",
    "C65_client_hello_built",
    "C65_server_hello",
    "C65_handshake_frame",
    "C65_scheme_list",
    "C65_group_list"
   ],
   "note": "ClientHello, ServerHello and the handshake header."
  },
  {
   "property": "C66",
   "status": "proved",
   "theorems": [
    "C66_finished",
    "C66_certificate_verify_sent",
    "C66_certificate_verify_accepted",
    "C66_certificate_verify_complete"
   ],
   "note": "Finished: both directions. CertificateVerify: what is sent, what acceptance implies, and that a valid signature with 256-bit numbers is accepted."
  },
  {
   "property": "C67",
   "status": "proved",
   "theorems": [
    "C67_flight"
   ],
   "note": "For server certificates under 2^16-64 bytes (a larger one does not fit a record length field, C51)."
  },
  {
   "property": "C68",
   "status": "proved",
   "theorems": [
    "C68_hello_answered",
    "C68_accepted"
   ],
   "note": "For sockets that do not fail, certificates under 2^16-64 bytes and nonces one of which yields a signature. Records may be grouped into reads in any way that keeps them whole (split records: C50)."
  },
  {
   "property": "C69",
   "status": "proved",
   "theorems": [
    "C69_only_application_data",
    "C69_other_types_refused"
   ],
   "note": "For keys as the key schedule produces them and record numbers below 2^64-1."
  },
  {
   "property": "C70",
   "status": "proved",
   "theorems": [
    "C70_client_flight"
   ],
   "note": "For client certificates under 2^16-512 bytes. Without a client certificate the Certificate message is malformed (00 00 00 02 00 00), as the statement says. The first TCP write may take only part of the ClientHello."
  },
  {
   "property": "C71",
   "status": "proved",
   "theorems": [
    "C71_conforming_server_accepted",
    "C71_conforming_server_accepted_cut"
   ],
   "note": "For sockets that do not fail; records may be delivered in any way C50_client_delivery_partial allows."
  },
  {
   "property": "C72",
   "status": "partial",
   "theorems": [
    "C72_certificate_file",
    "C72_parsed_certificate_file",
    "C72_unparsed_certificate_file_refuted",
    "C72_chain_file_refuted",
    "C72_server_from_files"
   ],
   "note": "The last CERTIFICATE block of the file is used; a chain file with the server certificate first serves the wrong certificate (refuted). A file whose certificate does not parse is a panic, not an error (refuted)."
  },
  {
   "property": "C73",
   "status": "partial",
   "theorems": [
    "C73_every_value_partial",
    "C73_every_value_refuted",
    "C73_simple_refuted"
   ],
   "note": "URandomRng: every number for ranges up to 91 bytes; above, the largest is never drawn (refuted). SimpleRng<IBig> returns one and the same number for all seeds below 2^96 (refuted)."
  },
  {
   "property": "C74",
   "status": "proved",
   "theorems": [
    "C74_server",
    "C74_client",
    "C74_drawn_numbers"
   ],
   "note": "Server and client."
  },
  {
   "property": "C75",
   "status": "partial",
   "theorems": [
    "C75_cut_is_an_error",
    "C75_read_errors",
    "C75_close_notify_refuted"
   ],
   "note": "Proved: a read returns BrokenPipe exactly when TCP has ended, and which errors a read can return at all. Refuted: close_notify, like every alert, is returned as UnexpectedMessage, the error for any other record that is not application data."
  },
  {
   "property": "C76",
   "status": "partial",
   "theorems": [
    "C76_ticket_refuted",
    "C76_data_between_messages_partial"
   ],
   "note": "Refuted: every message after the handshake, a NewSessionTicket among them, makes a read fail with UnexpectedMessage. Proved instead: the state stays in step, so that an application which ignores that error gets all data, in order."
  },
  {
   "property": "C77",
   "status": "partial",
   "theorems": [
    "C77_retry_refuted"
   ],
   "note": "Refuted: the client panics for every group it knows. For the other groups: one illegal_parameter alert. A second ClientHello is never sent."
  },
  {
   "property": "C78",
   "status": "partial",
   "theorems": [
    "C78_not_offered_refused",
    "C78_established_selects_offered",
    "C78_echo_refuted"
   ],
   "note": "Proved for suite, version and group, for every well-formed ServerHello and for every established connection. Refuted for the session id echo and the compression byte, which the client does not look at."
  },
  {
   "property": "C79",
   "status": "partial",
   "theorems": [
    "C79_certificate_exact",
    "C79_proper_certificate",
    "C79_client_certificate_refuted",
    "C79_client_verify",
    "C79_bad_key_refuted",
    "C79_client_verify_refuted",
    "C79_has_signed_exact",
    "C79_client_first_record_refuted",
    "C79_client_short_record_refuted",
    "C79_client_any_stage_refuted",
    "C79_cut_read_refuted",
    "C79_client_cut_read_refuted",
    "C79_empty_record_refuted",
    "C79_secp256r1_refuted",
    "C79_hello_refuted",
    "C79_server_hello_refuted",
    "C79_server_unkeyed_partial",
    "C79_client_unkeyed_partial",
    "C79_server_crashes_partial",
    "C79_server_every_crash_partial",
    "C79_signature_exact",
    "C79_client_verify_exact",
    "C79_server_verify_exact",
    "C79_proper_verify",
    "C79_client_crashes_partial",
    "C79_client_every_crash_partial",
    "C79_request_refuted",
    "C79_request_exact",
    "C79_proper_request",
    "C79_client_request_refuted",
    "C79_server_certificate_refuted",
    "C79_server_signed_part_refuted",
    "C79_server_verify_refuted",
    "C79_server_first_record_refuted",
    "C79_server_short_record_refuted",
    "C79_server_any_stage_refuted"
   ],
   "note": "Refuted at every stage of the handshake: a read that ends one to three bytes before the end of a record, an empty protected record, a ClientHello with a secp256r1 share in front, every ClientHello and ServerHello of Spec/HelloPanics.v, every Certificate message of Spec/CertMessagePanics.v. Proved: with the keys agreed, any number of change_cipher_spec records, alerts of two bytes and more, protected records of 16 bytes and more that do not open, and other bytes leave the side waiting or failed, never connected or down. For both sides and every sequence of reads the causes of a crash are listed (Spec/HelloCrashes.v before the keys are agreed, Spec/Crashes.v and Spec/ClientCrashes.v after that); hellos are causes only if they are those of Spec/HelloPanics.v or have a secp256r1 share in front or a first X25519 share of more than 32 bytes, Certificate messages only if they are those of Spec/CertMessagePanics.v (exact for the reader of the message) or, for a server, have a signed part that is cut short (exact), CertificateVerify messages only if they are those of Spec/VerifyPanics.v (exact) or the key is no uncompressed point (exact for signatures that can be read). Each such Certificate or CertificateVerify message is shown to bring down every client that gets it from a server it has agreed on keys with, and every server that asks for certificates and gets it from anybody (the CertificateVerify message after a certificate of the CA), in any records and reads. So do, for both sides, the records of Spec/Broken.v (alerts of fewer than two bytes, protected or not, protected records without room for their tag, messages that are said to be longer than they are) as the first ones under the agreed keys. Alerts of fewer than two bytes at the beginning of a read bring down every side that waits, at any stage, and so do protected records without room for their tag once it has read anything. The other records of Spec/Broken.v do so too, under the next number, once keys are agreed. CertificateRequest messages are causes only if they are those of Spec/RequestPanics.v (exact) or the client has a certificate of a megabyte or more or no usable number for its signature; each of the first kind is shown to bring down every client that gets it from a server that conforms otherwise. Missing: the converse for the second kind."
  },
  {
   "property": "C80",
   "status": "proved",
   "theorems": [
    "C80_accept_ends",
    "C80_connect_ends",
    "C80_accept_final",
    "C80_connect_final"
   ],
   "note": "An empty read is how the model has the end of the TCP connection."
  },
  {
   "property": "C81",
   "status": "partial",
   "theorems": [
    "C81_any_name_refuted",
    "C81_expired_refuted",
    "C81_certified_key_partial"
   ],
   "note": "Refuted: the holder of any certificate of the CA is let in under any name, and with an expired one, by inserting one element after the signed part. Proved: who is let in has signed the handshake with a key the CA signed, provided the certificate starts with the header every certificate of 256 bytes and more has."
  },
  {
   "property": "C82",
   "status": "partial",
   "theorems": [
    "C82_cut_read_refuted",
    "C82_silent_refuted",
    "C82_request_refuted",
    "C82_independent_partial",
    "C82_unkeyed_partial",
    "C82_no_request_partial"
   ],
   "note": "Refuted: a client ends the process by sending a record of which one to three bytes are missing, or a request of fewer than four bytes or that is not UTF-8, and holds up all others by sending nothing. Proved: connections are independent of each other, and a client without the keys that hangs up is turned away and the next is served."
  },
  {
   "property": "C83",
   "status": "partial",
   "theorems": [
    "C83_exchange_partial",
    "C83_any_delivery_partial",
    "C83_joined_refuted",
    "C83_request",
    "C83_clients"
   ],
   "note": "Proved for compatible ends as in C44 and every response that is UTF-8 and fits one record, with the handshake delivered in any of the ways of C44_any_delivery_partial. Refuted when the request arrives in the read of the last of the reply: both programs then wait for each other. The request and the configurations of the clients are given literally. Missing: what C44 misses."
  },
  {
   "property": "C84",
   "status": "partial",
   "theorems": [
    "C84_configuration",
    "C84_authenticated_partial",
    "C84_any_holder_refuted",
    "C84_shipped_client_refuted",
    "C84_shipped_server_refuted"
   ],
   "note": "Refuted: the holder of any certificate of the shipped CA gets in (C81); the shipped certificates end one day early (C03). Proved: an answer means that the client signed the handshake with the key of a certificate signed by the shipped CA, with the name otsmr, and valid. The signatures on the shipped certificates are not checked in Coq."
  },
  {
   "property": "C85",
   "status": "partial",
   "theorems": [
    "C85_silent_partial",
    "C85_levels_partial",
    "C85_environment_refuted"
   ],
   "note": "Refuted where the environment has a variable that is not Unicode before RUST_LOG: init panics. Proved for all other environments, all values and messages."
  },
  {
   "property": "C86",
   "status": "partial",
   "theorems": [
    "C86_request_refuted",
    "C86_response_refuted",
    "C86_framing_partial"
   ],
   "note": "Refuted: the Host line of the request ends in LF alone, so no reading of the request is a message of RFC 9112; the responses lack the space after the status code, which RFC 9112 requires. Proved: the responses are messages with one possible body, whose length the Content-Length field gives."
  },
  {
   "property": "C87",
   "status": "proved",
   "theorems": [
    "C87_secrets",
    "C87_finished",
    "C87_agreement",
    "C87_fresh"
   ],
   "note": "Up to a collision of SHA-256 or SHA-384 among the strings the two ends hash, which the conclusion names. The server takes bytes behind the ClientHello in its record into the transcript and the client those behind the ServerHello, so that both hellos are the same follows only when nothing was appended."
  },
  {
   "property": "C88",
   "status": "partial",
   "theorems": [
    "C88_reads",
    "C88_keys_and_nonces",
    "C88_numbers",
    "C88_bytes",
    "C88_same_signature",
    "C88_nonces_refuted"
   ],
   "note": "Counted over all reads of 100 bytes: every number of the range is drawn with the same probability up to one part in 2^80, every byte string with exactly the same. Refuted for the nonce of a signature, which counts modulo the order n of P-256: residues below 2^256 - n are twice as likely as the others. Distribution of /dev/urandom itself is assumed in the reading of the theorem, not in Coq."
  },
  {
   "property": "C89",
   "status": "partial",
   "theorems": [
    "C89_rsa_signed_refuted",
    "C89_rsa_key_refuted",
    "C89_client_rsa_refuted",
    "C89_other_signature_partial",
    "C89_other_key_partial",
    "C89_generalized_time_partial",
    "C89_stray_string_partial",
    "C89_time_short_partial",
    "C89_time_text_refuted",
    "C89_client_time_refuted",
    "C89_ec_key_refuted",
    "C89_ca_key_refuted"
   ],
   "note": "Refuted for RSA: every certificate signed with sha256WithRSAEncryption and every ECDSA-signed one with an RSA key panics the parser, and a server that presents one brings down any client. Also refuted: an EC key on another curve or in compressed form parses, but a CA with one panics whoever checks a signature with it. Proved: every other algorithm or kind of key, GeneralizedTime, a UTCTime of fewer than twelve bytes and stray strings are refused with an error. A UTCTime with a character that is not ASCII panics the parser and so a client (refuted)."
  },
  {
   "property": "C90",
   "status": "partial",
   "theorems": [
    "C90_server_bounded_partial",
    "C90_server_refused_refuted",
    "C90_server_ccs_refuted",
    "C90_client_empty_refuted",
    "C90_client_requests_refuted",
    "C90_client_ccs_refuted",
    "C90_client_memory",
    "C90_client_memory_partial",
    "C90_client_memory_unknown_refuted",
    "C90_client_memory_handled_refuted"
   ],
   "note": "Proved: a server that has not refused its client reads at most one record (three with a client CA) beside change_cipher_spec records, and one that has refused it never accepts; a client whose reads end well keeps no more than a part of one record. Refuted: change_cipher_spec records at both ends, any number of Certificate messages to a server that has refused the client, empty protected records and CertificateRequests to a client keep it waiting; the client keeps all bytes after an unknown record type, and all records whose reads each end inside the next one."
  },
  {
   "property": "C91",
   "status": "partial",
   "theorems": [
    "C91_any_numbers_refuted",
    "C91_not_digits_refuted",
    "C91_past_month_refuted",
    "C91_check_refuted",
    "C91_client_refuted",
    "C91_short_partial",
    "C91_date_partial"
   ],
   "note": "Refuted: any six two-digit numbers are taken for a date whatever follows them, bytes that are not digits count as 0, days past the end of a month run on into the next, and a month, day or year there is no time for panics the validity check; a certificate valid from before 1970 brings down any client. Proved: what is shorter is refused, and the numbers of an existing day are read for it (up to the error of C03)."
  },
  {
   "property": "C92",
   "status": "partial",
   "theorems": [
    "C92_last_lost_refuted",
    "C92_round_trip_refuted",
    "C92_unknown_refuted",
    "C92_short_refuted",
    "C92_odd_refuted",
    "C92_offer_refuted"
   ],
   "note": "Refuted: the last scheme of every list is lost, so the one-scheme list of the client reads as empty; a scheme without a name anywhere but at the end makes the list an error, a length past the end a panic, an odd length an empty list. For lists of known schemes what is read is stated exactly. The function is public but not reached from the wire."
  },
  {
   "property": "C93",
   "status": "partial",
   "theorems": [
    "C93_time_partial",
    "C93_time_told_apart_partial",
    "C93_name_partial",
    "C93_hidden_refuted",
    "C93_name_refuted",
    "C93_no_semicolon_partial"
   ],
   "note": "Proved for dates (any six 16-bit numbers). Refuted for names: locality, unit and address are not shown, and an organization may contain \"; CN=...\". Proved for names whose country, state and organization have no semicolon."
  },
  {
   "property": "C94",
   "status": "partial",
   "theorems": [
    "C94_length_partial",
    "C94_read_refuted",
    "C94_stray_refuted",
    "C94_panic_refuted",
    "C94_block_refuted",
    "C94_crlf_refuted"
   ],
   "note": "Refuted: every text of groups of four without a character past z decodes, other characters counting as A and each = cutting one byte off the end; a character past z is a panic. Proved: exactly what is read, and that other lengths are refused. PEM blocks behave as their bodies do; of files with CR LF ends no block is found under its title."
  },
  {
   "property": "C95",
   "status": "partial",
   "theorems": [
    "C95_honest_nonzero_partial",
    "C95_honest_different_partial",
    "C95_shares_different",
    "C95_fixed_refuted",
    "C95_server_refuted",
    "C95_client_refuted"
   ],
   "note": "Refuted: four shares of small order are not refused by server or client and make the secret zero, so that the traffic secrets are functions of the hellos. Proved: with an honest share (not starting with a zero byte, see C32) the secret is not zero and tells private keys apart up to sign; shares do, without exception."
  }
 ]
}