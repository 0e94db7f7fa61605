{
 "claims": [
  {
   "property": "C01",
   "status": "proved",
   "theorems": [
    "C01_hex_roundtrip",
    "C01_unhexlify_domain",
    "C01_unhexlify_throws",
    "C01_unhexlify_faithful"
   ],
   "note": ""
  },
  {
   "property": "C02",
   "status": "proved",
   "theorems": [
    "C02_makehex_big_endian",
    "C02_toint_inverse",
    "C02_toint_exact",
    "C02_toint_reads_big_endian"
   ],
   "note": ""
  },
  {
   "property": "C03",
   "status": "proved",
   "theorems": [
    "C03_radix64_roundtrip",
    "C03_radix64_alphabet",
    "C03_radix64_roundtrip_any_letters",
    "C03_decode_outcomes",
    "C03_decode_undefined_iff"
   ],
   "note": "decoding is undefined exactly on empty/all-= text of length 4k (F1)"
  },
  {
   "property": "C04",
   "status": "proved",
   "theorems": [
    "C04_constants",
    "C04_crc_is_remainder",
    "C04_burst_detection",
    "C04_three_octets"
   ],
   "note": ""
  },
  {
   "property": "C05",
   "status": "proved",
   "theorems": [
    "C05_mpi_roundtrip",
    "C05_bitsize",
    "C05_mpi_65529_to_65535_bits_unreadable"
   ],
   "note": "65529..65535-bit values refuted separately (F2)"
  },
  {
   "property": "C06",
   "status": "partial",
   "theorems": [
    "C06_new_writer_rfc",
    "C06_new_reader_rfc",
    "C06_new_roundtrip_partial",
    "C06_new_roundtrip_refuted",
    "C06_two_octet_request_refuted"
   ],
   "note": "false for bodies of 8128..8383 octets (F5) and for two-octet requests below 192 (F6); proved for every other length"
  },
  {
   "property": "C07",
   "status": "partial",
   "theorems": [
    "C07_old_writer_rfc",
    "C07_old_reader_rfc_partial",
    "C07_old_roundtrip_partial",
    "C07_old_roundtrip_refuted"
   ],
   "note": "false for four-octet lengths (F7); proved for one- and two-octet lengths"
  },
  {
   "property": "C08",
   "status": "proved",
   "theorems": [
    "C08_subpacket_writer_rfc",
    "C08_subpacket_reader_rfc",
    "C08_subpacket_roundtrip"
   ],
   "note": ""
  },
  {
   "property": "C09",
   "status": "partial",
   "theorems": [
    "C09_reader_gathers_partial",
    "C09_reader_cursor_refuted",
    "C09_roundtrip_partial",
    "C09_roundtrip_refuted",
    "C09_short_body_throws"
   ],
   "note": "false whenever another packet follows (F8, F9); the reader gathers the body of any legal partial sequence"
  },
  {
   "property": "C10",
   "status": "partial",
   "theorems": [
    "C10_sequence_roundtrip_partial",
    "C10_sequence_inside_partial",
    "C10_two_recipients_refuted",
    "C10_length_223_refuted",
    "C10_old_long_refuted",
    "C10_partial_refuted"
   ],
   "note": "proved for every sequence of packets whose headers and positions the reader understands; false for two recipients, new-format bodies of 8128..8383 octets, old-format four-octet lengths and partial packets followed by others"
  },
  {
   "property": "C11",
   "status": "proved",
   "theorems": [
    "C11_terminates",
    "C11_progress",
    "C11_count",
    "C11_packet_terminates"
   ],
   "note": ""
  },
  {
   "property": "C12",
   "status": "partial",
   "theorems": [
    "C12_header_partial",
    "C12_stream_partial",
    "C12_truncated_refuted",
    "C12_header_cut_refuted",
    "C12_partial_cut_refuted"
   ],
   "note": "proved for headers other than partial ones and for packets holding one string; truncated bodies, headers and partial lengths read out of range (refuted)"
  },
  {
   "property": "C13",
   "status": "partial",
   "theorems": [
    "C13_prefix_partial",
    "C13_own_body_partial",
    "C13_tag3_refuted",
    "C13_tag5_refuted",
    "C13_tag11_refuted"
   ],
   "note": "false for tags 3, 5/7 and 11 with short bodies, and for tags 1, 17 and v3 signatures, whose readers use absolute positions; proved for all other tags"
  },
  {
   "property": "C14",
   "status": "partial",
   "theorems": [
    "C14_armor_data_partial",
    "C14_armor_roundtrip_partial",
    "C14_binary_partial",
    "C14_unknown_type_refuted",
    "C14_signed_type_refuted",
    "C14_bad_type_refuted",
    "C14_empty_refuted",
    "C14_empty_value_refuted",
    "C14_reread_refuted"
   ],
   "note": "proved for types 1..6, keys with non-empty trimmed values and non-empty data; types 0 and 7, empty values, empty objects refuted"
  },
  {
   "property": "C15",
   "status": "proved",
   "theorems": [
    "C15_format",
    "C15_restore",
    "C15_unique"
   ],
   "note": ""
  },
  {
   "property": "C16",
   "status": "proved",
   "theorems": [
    "C16_roundtrip",
    "C16_standard_mode",
    "C16_short_prefix",
    "C16_other_packet",
    "C16_all_ciphers"
   ],
   "note": ""
  },
  {
   "property": "C17",
   "status": "proved",
   "theorems": [
    "C17_roundtrip",
    "C17_standard_mode",
    "C17_decrypt_length",
    "C17_all_ciphers"
   ],
   "note": ""
  },
  {
   "property": "C18",
   "status": "proved",
   "theorems": [
    "C18_quick_check"
   ],
   "note": ""
  },
  {
   "property": "C19",
   "status": "proved",
   "theorems": [
    "C19_roundtrip",
    "C19_key_length",
    "C19_unknown_hash"
   ],
   "note": ""
  },
  {
   "property": "C20",
   "status": "partial",
   "theorems": [
    "C20_hashed_octets_partial",
    "C20_octets_hashed"
   ],
   "note": "passphrase and key together below 4 GiB; beyond that the hash objects themselves go wrong (C51)"
  },
  {
   "property": "C21",
   "status": "proved",
   "theorems": [
    "C21_roundtrip",
    "C21_too_long",
    "C21_decode_safe"
   ],
   "note": ""
  },
  {
   "property": "C22",
   "status": "proved",
   "theorems": [
    "C22_length",
    "C22_injective",
    "C22_hash_distinct"
   ],
   "note": ""
  },
  {
   "property": "C23",
   "status": "partial",
   "theorems": [
    "C23_roundtrip_partial",
    "C23_other_hash_refuted",
    "C23_checked"
   ],
   "note": "with s2k usage 254 the check is made with the hash of the specifier and verified with SHA-1, so only SHA-1 specifiers work (others refuted); proved for every other protection"
  },
  {
   "property": "C24",
   "status": "partial",
   "theorems": [
    "C24_generated_partial",
    "C24_subkey_refuted",
    "C24_subkey_extra",
    "C24_closed_refuted"
   ],
   "note": "proved for primary keys and unprotected subkeys; subkeys protected by a passphrase are encrypted with a second checksum and never give back their values (refuted for all): mostly exactly one value too many comes back, and some can never be opened"
  },
  {
   "property": "C25",
   "status": "partial",
   "theorems": [
    "C25_public_view",
    "C25_secret_independent",
    "C25_same_key_partial",
    "C25_validity_refuted"
   ],
   "note": "version, time, algorithm, values, fingerprint and key ID proved equal and independent of the secret part; the validity period of an old key can be misread (refuted)"
  },
  {
   "property": "C26",
   "status": "partial",
   "theorems": [
    "C26_v4",
    "C26_public_only",
    "C26_input_injective",
    "C26_v3_partial",
    "C26_v3_short_refuted",
    "C26_v3_fingerprint"
   ],
   "note": "version 4 proved; version 3 key IDs proved for moduli of more than 56 bits and refuted for all others"
  },
  {
   "property": "C27",
   "status": "partial",
   "theorems": [
    "C27_v4_roundtrip_partial",
    "C27_notation_refuted"
   ],
   "note": "notation data subpackets are always lost (C27_notation_refuted); proved for signatures without them"
  },
  {
   "property": "C28",
   "status": "partial",
   "theorems": [
    "C28_v3_roundtrip_partial",
    "C28_v3_position_refuted"
   ],
   "note": "v3 signatures are only read at the start of the data (C28_v3_position_refuted); proved there"
  },
  {
   "property": "C29",
   "status": "partial",
   "theorems": [
    "C29_v4",
    "C29_v4_only",
    "C29_v3",
    "C29_versions",
    "C29_standalone",
    "C29_text_partial",
    "C29_text_refuted"
   ],
   "note": "binary documents, standalone and timestamp signatures proved for versions 3 and 4; for text documents the canonical text is determined, a final line feed is not covered (refuted)"
  },
  {
   "property": "C30",
   "status": "proved",
   "theorems": [
    "C30_v4",
    "C30_binding_v4",
    "C30_direct_v4",
    "C30_v3_refuted"
   ],
   "note": "version 3 certifications do not tell attributes from user IDs (refuted separately)"
  },
  {
   "property": "C31",
   "status": "partial",
   "theorems": [
    "C31_creation",
    "C31_hashed_partial",
    "C31_expiration_refuted",
    "C31_key_expiration_refuted"
   ],
   "note": "creation time proved; expiration times are overridden by unhashed subpackets (refuted for every signature)"
  },
  {
   "property": "C32",
   "status": "partial",
   "theorems": [
    "C32_sound",
    "C32_complete",
    "C32_meaningful",
    "C32_ends",
    "C32_range_refuted",
    "C32_increment_refuted"
   ],
   "note": "acceptance is exactly the grammar; sequences outside it, such as session keys without data, read past the end of the token list (refuted), and one-pass signed messages advance an iterator past the end (refuted)"
  },
  {
   "property": "C33",
   "status": "partial",
   "theorems": [
    "C33_exact",
    "C33_reader",
    "C33_answers_partial",
    "C33_range_refuted"
   ],
   "note": "acceptance is exactly the grammar; a primary key followed by revocations only is read past its end (refuted)"
  },
  {
   "property": "C34",
   "status": "proved",
   "theorems": [
    "C34_public"
   ],
   "note": ""
  },
  {
   "property": "C35",
   "status": "proved",
   "theorems": [
    "C35_check",
    "C35_bad_key",
    "C35_unverified"
   ],
   "note": "the check looks at signature types only (proved): nothing is verified"
  },
  {
   "property": "C36",
   "status": "partial",
   "theorems": [
    "C36_key",
    "C36_subkey",
    "C36_uid_partial",
    "C36_uid_refuted",
    "C36_cert_key_partial",
    "C36_cert_subkey_partial",
    "C36_cert_no_subkey_refuted",
    "C36_cert_secret_refuted",
    "C36_cert_user_refuted",
    "C36_cert_loss_refuted"
   ],
   "note": "C36_key and C36_subkey: proved for every meaningful target (a text that occurs in several key IDs puts the same revocation after each). C36_uid_partial needs every user ID to contain the text; C36_uid_refuted: the others are lost. with_cert: right for a certificate of the primary key when the key is public with a subkey or secret with one, and for the only subkey; refuted otherwise: no subkey is undefined behaviour, a second secret subkey stays secret, a user certificate loses packets or never returns."
  },
  {
   "property": "C37",
   "status": "partial",
   "theorems": [
    "C37_present",
    "C37_nothing_new",
    "C37_below",
    "C37_kept",
    "C37_meaningful",
    "C37_self_partial",
    "C37_different",
    "C37_attribute_refuted",
    "C37_order_refuted",
    "C37_shared_refuted"
   ],
   "note": "Every packet of both keys is present up to equality of tag and body, nothing new, nothing twice, signatures stay below their packet, and the result is meaningful, for keys in which no signature is shared and attributes follow a user ID; merging with itself permutes the packets (C37_self_partial). Refuted: order depends on object addresses, a shared binding signature leaves the key broken, an attribute before the first user ID makes merge throw."
  },
  {
   "property": "C38",
   "status": "proved",
   "theorems": [
    "C38_escaped",
    "C38_roundtrip",
    "C38_final_newline"
   ],
   "note": ""
  },
  {
   "property": "C39",
   "status": "partial",
   "theorems": [
    "C39_roundtrip_partial",
    "C39_blank_lines_refuted",
    "C39_form_feed_refuted",
    "C39_space_return_refuted"
   ],
   "note": "Blank lines at the end and unusual white space at line ends change the signed octets (refuted by the C39 refuted theorems)."
  },
  {
   "property": "C40",
   "status": "proved",
   "theorems": [
    "C40_crlf",
    "C40_idempotent",
    "C40_no_bare_lf",
    "C40_signed",
    "C40_signed_octets"
   ],
   "note": ""
  },
  {
   "property": "C41",
   "status": "proved",
   "theorems": [
    "C41_decrypt",
    "C41_verify",
    "C41_verify_octets",
    "C41_verify_only",
    "C41_generated"
   ],
   "note": "for odd moduli; key generation can produce the prime 2, whose modulus stops the program (example)"
  },
  {
   "property": "C42",
   "status": "proved",
   "theorems": [
    "C42_decrypt",
    "C42_decrypt_octets",
    "C42_generated"
   ],
   "note": "the octets returned are those of the value, without leading zeros"
  },
  {
   "property": "C43",
   "status": "partial",
   "theorems": [
    "C43_verify",
    "C43_generated",
    "C43_range_partial",
    "C43_forgery_refuted",
    "C43_malleable_refuted"
   ],
   "note": "signatures made are accepted; r is checked but s is not: (1,0) is a signature of everything (refuted)"
  },
  {
   "property": "C44",
   "status": "partial",
   "theorems": [
    "C44_detached_partial",
    "C44_cleartext_partial",
    "C44_timestamp_partial",
    "C44_binary_partial",
    "C44_public_partial",
    "C44_sign_only_refuted",
    "C44_version3_refuted",
    "C44_subkey_refuted",
    "C44_binding_refuted",
    "C44_rsa",
    "C44_compressed_partial",
    "C44_detached_written_partial",
    "C44_binary_written_partial"
   ],
   "note": "proved for version 4 signatures by the primary key (RSA encrypt-or-sign, DSA), messages also compressed (C44_compressed_partial); sign-only RSA keys, version 3 and signing subkeys refuted"
  },
  {
   "property": "C45",
   "status": "partial",
   "theorems": [
    "C45_detached",
    "C45_cleartext",
    "C45_timestamp",
    "C45_binary_partial",
    "C45_literal_refuted",
    "C45_forged_refuted",
    "C45_certification",
    "C45_revoke"
   ],
   "note": "proved for detached, cleartext, timestamp, certification and revocation; unsigned literal messages are accepted, DSA integers (1,0) are accepted for all data (refuted)"
  },
  {
   "property": "C46",
   "status": "partial",
   "theorems": [
    "C46_verdicts",
    "C46_documents_partial",
    "C46_certification_partial",
    "C46_packet_refuted",
    "C46_algorithm_refuted",
    "C46_even_refuted"
   ],
   "note": "answers proved for all functions; range safety proved under matching algorithms and value counts; other combinations refuted"
  },
  {
   "property": "C47",
   "status": "partial",
   "theorems": [
    "C47_signed_compressed_partial",
    "C47_armored_partial",
    "C47_literal_partial",
    "C47_signed_partial",
    "C47_written_partial",
    "C47_whole_partial"
   ],
   "note": "Proved for every offered cipher, RSA and ElGamal key large enough for the session key, any randomness with enough nonzero octets; unsigned or signed, compressed or not; written and read back in binary and in armor, from the data to the armored text and back (C47_whole_partial). Missing: packets whose length cannot be read back (C06), and session key integers of fewer than five octets (C58)."
  },
  {
   "property": "C48",
   "status": "partial",
   "theorems": [
    "C48_signed_compressed_partial",
    "C48_armored_partial",
    "C48_literal_partial",
    "C48_signed_partial",
    "C48_written_partial",
    "C48_length_refuted",
    "C48_whole_partial",
    "C48_whole_signed_partial"
   ],
   "note": "As C47, for every passphrase and offered hash; C48_whole_partial and C48_whole_signed_partial go from the data to the armored text and back. C48_length_refuted: literal packets of 8128..8383 octets are encrypted but never come back."
  },
  {
   "property": "C49",
   "status": "partial",
   "theorems": [
    "C49_sym_partial",
    "C49_pka_partial",
    "C49_marker_refuted"
   ],
   "note": "The SHA-1 over everything before the hash is always checked; C49_marker_refuted: the two octets 0xd3 0x14 are not."
  },
  {
   "property": "C50",
   "status": "partial",
   "theorems": [
    "C50_ciphers_invert",
    "C50_other_algorithm",
    "C50_des_inverts",
    "C50_tdes_encrypts",
    "C50_tdes_two_keys_partial",
    "C50_tdes_decrypt_refuted",
    "C50_idea_second_decrypt_refuted"
   ],
   "note": "proved for every cipher but triple DES, whose decrypt applies the keys in the order of encrypt (refuted; proved when the first and third keys agree); an IDEA object must not be used again after decrypt (refuted)"
  },
  {
   "property": "C51",
   "status": "partial",
   "theorems": [
    "C51_ops_partial",
    "C51_chunking_partial",
    "C51_use_partial",
    "C51_large_update_refuted"
   ],
   "note": "proved for every split where each update stays below the 32-bit bound on its block shift; a single larger update is refuted"
  },
  {
   "property": "C52",
   "status": "proved",
   "theorems": [
    "C52_whole_blocks",
    "C52_injective",
    "C52_digest_length",
    "C52_use_length"
   ],
   "note": ""
  },
  {
   "property": "C53",
   "status": "proved",
   "theorems": [
    "C53_output",
    "C53_level",
    "C53_constructor"
   ],
   "note": ""
  },
  {
   "property": "C54",
   "status": "partial",
   "theorems": [
    "C54_packet_write",
    "C54_packet_write_invalid",
    "C54_packet_raw",
    "C54_pgp_invalid",
    "C54_pgp_valid",
    "C54_pgp_empty_refuted"
   ],
   "note": "proved; PGP::write of an object without packets leaves the status as it was (refuted)"
  },
  {
   "property": "C55",
   "status": "partial",
   "theorems": [
    "C55_valid_partial",
    "C55_packets_partial",
    "C55_specifier_refuted",
    "C55_cipher_throws_refuted",
    "C55_embedded_valid_refuted",
    "C55_embedded_invalid_refuted"
   ],
   "note": "embedded signature test is inverted, specifiers of secret keys are not looked at, some ciphers throw (refuted); the rest proved for packets of every kind"
  },
  {
   "property": "C56",
   "status": "partial",
   "theorems": [
    "C56_equality_partial",
    "C56_same_packets",
    "C56_tags_refuted"
   ],
   "note": "tags are not compared (refuted); what equality means is proved exactly"
  },
  {
   "property": "C57",
   "status": "proved",
   "theorems": [
    "C57_trim",
    "C57_trim_idempotent"
   ],
   "note": "strings shorter than 2^64-1 octets"
  },
  {
   "property": "C58",
   "status": "partial",
   "theorems": [
    "C58_packet_roundtrip_partial",
    "C58_session_position",
    "C58_second_recipient_refuted",
    "C58_attribute_position",
    "C58_attribute_position_refuted",
    "C58_v3_key_days_refuted"
   ],
   "note": "session keys and user attributes are only read back at certain offsets (exactly characterised), v3 validity days with an octet of 128 or more are misread; proved for everything else"
  },
  {
   "property": "C59",
   "status": "partial",
   "theorems": [
    "C59_subpacket_roundtrip_partial",
    "C59_notation_refuted",
    "C59_followed",
    "C59_area_roundtrip_partial"
   ],
   "note": "notation data (type 20) loses its name and value; proved for every other subpacket"
  },
  {
   "property": "C60",
   "status": "partial",
   "theorems": [
    "C60_bits",
    "C60_bytes_partial",
    "C60_bytes_refuted",
    "C60_openssl_bits",
    "C60_first_bit",
    "C60_numbers",
    "C60_modulus_partial",
    "C60_modulus_refuted"
   ],
   "note": "number of digits and octets proved below 2^29 octets; the second prime need not be 3 modulo 4 (refuted)"
  },
  {
   "property": "C61",
   "status": "partial",
   "theorems": [
    "C61_pkcs5_refuted",
    "C61_pkcs5_length_refuted",
    "C61_pkcs5_partial"
   ],
   "note": "property is false of the code (C61_*_refuted); C61_pkcs5_partial is what holds"
  },
  {
   "property": "C62",
   "status": "proved",
   "theorems": [
    "C62_checked"
   ],
   "note": "Contents come out of Decrypt::pka only when the decoded session key is algorithm, key and the 16-bit sum of the key."
  },
  {
   "property": "C63",
   "status": "partial",
   "theorems": [
    "C63_type_refuted"
   ],
   "note": "refuted: a binding signature is accepted as a document signature"
  },
  {
   "property": "C64",
   "status": "partial",
   "theorems": [
    "C64_rsa_refuted",
    "C64_dsa_refuted"
   ],
   "note": "refuted for RSA and DSA: the empty value list is indexed"
  },
  {
   "property": "C65",
   "status": "partial",
   "theorems": [
    "C65_quine_refuted",
    "C65_chain_refuted",
    "C65_ends_partial",
    "C65_stored"
   ],
   "note": "refuted for self-reproducing compressed data; otherwise proved to end"
  },
  {
   "property": "C66",
   "status": "partial",
   "theorems": [
    "C66_plain_partial",
    "C66_armored_partial",
    "C66_compressed_partial"
   ],
   "note": "proved for sequences C10 and C14 read back; compressed messages are compressed twice and lose the armored flag"
  },
  {
   "property": "C67",
   "status": "partial",
   "theorems": [
    "C67_no_integers_refuted",
    "C67_data_partial"
   ],
   "note": "C67_no_integers_refuted: a session key packet without integers makes Decrypt::pka index an empty list, for every key whose ID it names. C67_data_partial: the decryption of the data itself is sound for every ciphertext; what remains is reading the decrypted octets (C12)."
  },
  {
   "property": "C68",
   "status": "partial",
   "theorems": [
    "C68_key_partial",
    "C68_subkey_partial",
    "C68_uid_partial",
    "C68_version3_refuted"
   ],
   "note": "For version 4 signatures and keys when the signing key is the primary key; C68_version3_refuted: version 3 certificates are never accepted."
  },
  {
   "property": "C69",
   "status": "partial",
   "theorems": [
    "C69_standard_partial",
    "C69_pieces_partial",
    "C69_identifiers"
   ],
   "note": "Digests equal the standards' functions for all data fed in pieces below 2^32-127 octets; larger pieces give wrong digests (C51_large_update_refuted)."
  },
  {
   "property": "C70",
   "status": "proved",
   "theorems": [
    "C70_standard",
    "C70_deciphers",
    "C70_identifiers",
    "C70_des",
    "C70_cfb",
    "C70_openpgp_cfb"
   ],
   "note": "Every offered cipher and both cipher feedback modes; the Blowfish and CAST-128 S-boxes are taken from the code. Deciphering with triple DES is C50_tdes_decrypt_refuted."
  },
  {
   "property": "C71",
   "status": "proved",
   "theorems": [
    "C71_signature_version",
    "C71_signature_type",
    "C71_signature_key",
    "C71_creation_time",
    "C71_unknown_subpacket",
    "C71_short_salt",
    "C71_missing_s2k",
    "C71_not_a_key",
    "C71_not_mergeable",
    "C71_not_a_message"
   ],
   "note": ""
  },
  {
   "property": "C72",
   "status": "proved",
   "theorems": [
    "C72_adds",
    "C72_verifies",
    "C72_meaningful",
    "C72_key_verifies",
    "C72_again",
    "C72_refuses",
    "C72_rsa"
   ],
   "note": "also existence for RSA keys; for DSA whenever the draws suffice"
  },
  {
   "property": "C73",
   "status": "partial",
   "theorems": [
    "C73_dsa_q",
    "C73_dsa_p_partial",
    "C73_dsa_p_refuted",
    "C73_dsa_secret",
    "C73_dsa_draw",
    "C73_elgamal_partial",
    "C73_elgamal_small",
    "C73_rsa_partial",
    "C73_rsa_refuted",
    "C73_rsa_exponent_refuted"
   ],
   "note": "DSA subgroup exactly; DSA and ElGamal moduli up to the size of q; RSA has no lower bound (refuted)."
  },
  {
   "property": "C74",
   "status": "partial",
   "theorems": [
    "C74_contents",
    "C74_usable",
    "C74_made",
    "C74_protected",
    "C74_fresh",
    "C74_subkey_secret_partial",
    "C74_subkey_secret_refuted",
    "C74_accepted",
    "C74_sign_only_refuted",
    "C74_dsa_size_refuted",
    "C74_cipher_refuted",
    "C74_expire_refuted",
    "C74_checked",
    "C74_only_acceptable",
    "C74_sizes",
    "C74_subkey_protected"
   ],
   "note": "Contents, signatures, secret values, protection and freshness proved for every request; existence for RSA. Refuted: sign-only RSA, DSA sizes, unavailable ciphers, expiration times, secret values of protected subkeys."
  },
  {
   "property": "C75",
   "status": "partial",
   "theorems": [
    "C75_unchanged",
    "C75_kept",
    "C75_verifies_partial",
    "C75_refuses",
    "C75_algorithm_refuted",
    "C75_secret_refuted",
    "C75_unfilled_refuted"
   ],
   "note": "Full statement: every signature naming the primary key is made and accepted, and failure is reported otherwise. Proved for RSA (1) and DSA keys whose secret comes out under the passphrase, with the exact reasons of refusal; refuted: other algorithms, revocations of certifications below a subkey, wrong passphrases."
  },
  {
   "property": "C76",
   "status": "proved",
   "theorems": [
    "C76_written",
    "C76_public",
    "C76_signed",
    "C76_rsa_signs",
    "C76_encrypted"
   ],
   "note": "For names the length reader understands (C06) and values below 2^8192; the modulus of an RSA key is odd unless one of its primes is 2."
  },
  {
   "property": "C77",
   "status": "partial",
   "theorems": [
    "C77_symmetric",
    "C77_recipient",
    "C77_public_partial",
    "C77_even_refuted",
    "C77_small_refuted"
   ],
   "note": "Passphrases: proved for every request. Public keys: proved for keys with all values and odd moduli; even moduli stop the program and moduli of at most 10 octets make it wait for ever (refuted for all such keys). Requests with a signer: see C64."
  },
  {
   "property": "C78",
   "status": "partial",
   "theorems": [
    "C78_key",
    "C78_refused_partial",
    "C78_range_refuted",
    "C78_armored",
    "C78_binary",
    "C78_kind_refuted",
    "C78_certificate",
    "C78_certificate_refused",
    "C78_detached_partial",
    "C78_detached_refuted",
    "C78_cleartext_partial",
    "C78_cleartext_kind"
   ],
   "note": "Exact acceptance for keys and revocation certificates, round trips from armored text and octets, refusal by exception. Refuted: a key with revocations only (reads past the packets), PublicKey and SecretKey accept each other's texts, DetachedSignature accepts any one packet."
  },
  {
   "property": "C79",
   "status": "partial",
   "theorems": [
    "C79_inflate",
    "C79_bz2_partial",
    "C79_bz2_refuted",
    "C79_bz2_trailing_refuted",
    "C79_bz2_truncated_refuted",
    "C79_bz2_broken_refuted",
    "C79_compress",
    "C79_round_trip",
    "C79_bz2_compress_partial",
    "C79_bz2_compress_refuted",
    "C79_truncates_refuted",
    "C79_wrap_refuted"
   ],
   "note": "zlib: complete for sizes below 2^32 - 16384 octets (C79_inflate, C79_compress, C79_round_trip). bzip2: exactly the streams whose last piece does not fill the buffer (C79_bz2_partial); for the others, for cut off or broken streams, for octets behind the stream and for sizes of 4 GiB the claim is refuted."
  },
  {
   "property": "C80",
   "status": "partial",
   "theorems": [
    "C80_declare",
    "C80_run",
    "C80_usage",
    "C80_every",
    "C80_dashes_refuted",
    "C80_modules",
    "C80_commands",
    "C80_dispatch",
    "C80_lookups_partial",
    "C80_keypair_refuted",
    "C80_show_refuted"
   ],
   "note": "Parsing, defaults, dispatch and the check of declarations are complete. The claim that no function looks up a missing name is refuted for generate-keypair and show-cleartext-signature and holds for the other 27 modules; the word -- cannot be given as an argument (refuted)."
  },
  {
   "property": "C81",
   "status": "partial",
   "theorems": [
    "C81_clone",
    "C81_clone_ends",
    "C81_copy",
    "C81_public",
    "C81_assign",
    "C81_assign_refuted",
    "C81_get_s2k_clone_refuted",
    "C81_set_packets",
    "C81_cycle_refuted"
   ],
   "note": "Clones, copies, get_public and assignments: complete, for every history of later changes. Refuted: assigning a Tag3 packet without specifier or session key and the get_s2k_clone functions dereference null; cloning a signature that embeds itself does not end."
  },
  {
   "property": "C82",
   "status": "partial",
   "theorems": [
    "C82_separate",
    "C82_copy",
    "C82_assigned_refuted"
   ],
   "note": "Proved for threads whose messages do not share the packet for compressed data, which copying guarantees (C82_copy); refuted for messages made by assignment (C82_assigned_refuted). Steps are the accesses to that packet; other shared state is not modelled."
  },
  {
   "property": "C83",
   "status": "partial",
   "theorems": [
    "C83_roundtrip",
    "C83_dropped",
    "C83_salted",
    "C83_decrypts",
    "C83_literal_partial",
    "C83_second_refuted"
   ],
   "note": "Round trip and decryption with one such packet are complete (the literal form inherits the packet length gap of C06); only the first of several packets is tried (refuted)."
  },
  {
   "property": "C84",
   "status": "partial",
   "theorems": [
    "C84_date",
    "C84_order",
    "C84_time",
    "C84_unique",
    "C84_duration",
    "C84_duration_read",
    "C84_smallest_refuted"
   ],
   "note": "Complete for all times of 32 bits and all durations but the smallest of 64 bits, where the negation overflows (refuted). gmtime is an argument constrained by the calendar."
  },
  {
   "property": "C85",
   "status": "partial",
   "theorems": [
    "C85_exact",
    "C85_other",
    "C85_listed",
    "C85_lines_partial",
    "C85_forged_refuted",
    "C85_empty_refuted",
    "C85_whole_refuted"
   ],
   "note": "The listing is exactly the lines of the packets (complete); it exists for every key whose packets have integers, known algorithms, times and issuers, and is taken apart uniquely without newlines in user IDs. Refuted: empty key packets (undefined behaviour), one unlistable packet hides the whole key, newlines in user IDs forge lines."
  },
  {
   "property": "C86",
   "status": "partial",
   "theorems": [
    "C86_sym_partial",
    "C86_sym_signed_partial",
    "C86_pka_partial",
    "C86_failed_refuted",
    "C86_plaintext_refuted",
    "C86_bzip2_refuted",
    "C86_refused",
    "C86_binary_refuted",
    "C86_extract"
   ],
   "note": "Armored output: content, options, algorithms and signatures as the help says, read back by the decrypting command; refusals exact. The printed text ends in one more newline than the content per command. Missing: -c with bzip2 (refuted), output without armor (refuted), signing keys that cannot sign (refuted), lengths new-format headers cannot carry."
  },
  {
   "property": "C87",
   "status": "partial",
   "theorems": [
    "C87_detached_verdict",
    "C87_file_verdict",
    "C87_cleartext_verdict",
    "C87_timestamp_verdict",
    "C87_key_verdict",
    "C87_status_refuted",
    "C87_detached_partial",
    "C87_timestamp_partial",
    "C87_cleartext_partial",
    "C87_file_partial",
    "C87_refused"
   ],
   "note": "Verdict texts complete for every outcome of verification. Made-saved-verified for armored output, moderate keys that match, messages without compression and the texts C39 covers. Refuted: the exit status is 0 for good and wrong signatures."
  },
  {
   "property": "C88",
   "status": "partial",
   "theorems": [
    "C88_verdict",
    "C88_subkey_cert_partial",
    "C88_uid_cert_partial",
    "C88_key_cert_refuted",
    "C88_sign_subkey_refuted",
    "C88_subkey_id_refuted",
    "C88_revoke_key",
    "C88_code_refuted",
    "C88_refused",
    "C88_certified_partial",
    "C88_revoke_subkey",
    "C88_revoke_uid_partial",
    "C88_with_key_cert_partial",
    "C88_with_subkey_cert_partial",
    "C88_with_cert_refused",
    "C88_with_cert_refuted",
    "C88_number_refuted"
   ],
   "note": "Missing: output without armor is not read back, keys of more than 16384 bits, signee keys with attributes or version 3 signatures, reasons of more than 3900 octets; revoke-with-cert for secret targets, for one of several subkeys and for user IDs."
  },
  {
   "property": "C89",
   "status": "partial",
   "theorems": [
    "C89_one",
    "C89_fingerprint",
    "C89_id",
    "C89_refused",
    "C89_not_key_refuted",
    "C89_list",
    "C89_list_missing"
   ],
   "note": "Refusing a file that is not a key is refuted (C89_not_key_refuted); the rest is proved."
  },
  {
   "property": "C90",
   "status": "partial",
   "theorems": [
    "C90_written",
    "C90_binary",
    "C90_no_secret",
    "C90_unknown",
    "C90_algorithm_refuted",
    "C90_refused",
    "C90_emptied_refuted",
    "C90_signs",
    "C90_encrypts_partial",
    "C90_subkey_partial"
   ],
   "note": "the two files, read back and used, and the refusals; refuted where an unknown algorithm throws and where the public file is emptied although the command is refused; encryption with the files for RSA keys (C90_encrypts_partial) and for DSA keys with an ElGamal subkey that opens, as it does without a passphrase (C90_subkey_partial); missing there: a signer, and encrypted session keys of fewer than five octets"
  },
  {
   "property": "C91",
   "status": "partial",
   "theorems": [
    "C91_listing",
    "C91_total",
    "C91_read",
    "C91_session_refuted",
    "C91_empty_key_refuted",
    "C91_secret_refuted",
    "C91_forged_refuted",
    "C91_images",
    "C91_look_refuted",
    "C91_expiry",
    "C91_expiry_refuted",
    "C91_reason_refuted",
    "C91_key_faithful",
    "C91_show",
    "C91_show_file",
    "C91_show_missing",
    "C91_cleartext",
    "C91_cleartext_line_refuted",
    "C91_cleartext_missing_refuted",
    "C91_outline",
    "C91_faithful_partial",
    "C91_printable",
    "C91_bits",
    "C91_iv_refuted",
    "C91_cipher_refuted",
    "C91_flags_refuted",
    "C91_compressed",
    "C91_packed_refuted",
    "C91_attribute_refuted"
   ],
   "note": "Printing is total only for files without session keys, secret keys, compressed packets and keys without a version: others are read but printing them is undefined or throws (refuted); forged lines, a wrong expiry date, a missing comment and a joined line are findings. C91_faithful_partial: what is printed tells packets apart, except where it does not: compressed packets, attributes, secret keys protected in the older ways, flags of several octets (C91_packed_refuted, C91_attribute_refuted, C91_iv_refuted, C91_cipher_refuted, C91_flags_refuted), keys of version 3, other numbers of values, and texts with line ends."
  },
  {
   "property": "C92",
   "status": "partial",
   "theorems": [
    "C92_manual",
    "C92_explained",
    "C92_all",
    "C92_matching",
    "C92_unknown",
    "C92_known",
    "C92_regex_refuted",
    "C92_prefix_refuted",
    "C92_usage",
    "C92_status"
   ],
   "note": "Complete, with std::regex as an argument. Refuted: a first argument that is no valid regular expression ends the program with an uncaught exception instead of status -1; every word that begins with help is taken for help."
  }
 ]
}