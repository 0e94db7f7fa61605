{"id": "C01", "title": "Hex codec round trip", "statement": "unhexlify(hexlify(s)) == s for every octet string s; unhexlify succeeds exactly on even-length strings of hexadecimal digits and throws on every other string.", "quantifier": "every octet string, every hex string", "why_tests_cant": "The input space is infinite; tests try a handful of strings and cannot exclude a digit pair or length that is mishandled.", "anchors": ["src/common/includes.cpp: hexlify, unhexlify"]}
{"id": "C02", "title": "Fixed-width integer encoding", "statement": "unhexlify(makehex(v, 2n)) is the n-octet big-endian encoding of v mod 2^(8n), and toint(.,256) of it gives back v exactly when v < 2^(8n).", "quantifier": "every unsigned value and every field width up to 8 octets", "why_tests_cant": "Every length, time, count and checksum field of the format goes through these helpers; 2^64 values cannot be enumerated.", "anchors": ["include/common/includes.h: makehex", "src/common/includes.cpp: unhexlify, toint"]}
{"id": "C03", "title": "Radix-64 round trip", "statement": "Decoding the radix-64 text of any non-empty octet string yields the string; encoded text uses only the 64-letter alphabet and trailing '=' and has length 4*ceil(n/3). Decoding any text either returns octets or throws, except exactly for the texts (empty or all '=') where the code indexes before the start of the string.", "quantifier": "every octet string; every text", "why_tests_cant": "Padding and boundary behaviour depends on length mod 3 and on every octet value; tests sample.", "anchors": ["src/Misc/radix64.cpp: ascii2radix64, radix642ascii"]}
{"id": "C04", "title": "CRC-24 error detection", "statement": "The armor checksum equals the remainder of the RFC 4880 generator polynomial, and two different strings of equal length that differ only inside one window of at most 24 bits (3 consecutive octets) always have different checksums.", "quantifier": "every octet string and every burst error position and value", "why_tests_cant": "Error detection is a universally quantified statement over pairs of messages of unbounded length.", "anchors": ["src/Misc/CRC-24.cpp: crc24"]}
{"id": "C05", "title": "Multiprecision integer round trip", "statement": "Reading an MPI back from write_MPI(x) followed by arbitrary further data returns x and leaves the cursor exactly after it, for every non-negative x of at most 65528 bits.", "quantifier": "every non-negative integer x and every trailing data", "why_tests_cant": "Integers are unbounded; bit-length boundary cases (multiples of 8, 65535) are not reachable by sampling.", "anchors": ["src/Misc/mpi.cpp: write_MPI, read_MPI, bitsize, mpitoraw, rawtompi"]}
{"id": "C06", "title": "New-format packet length round trip", "statement": "A new-format packet header written for a body of any length below 2^32 is read back with the same tag and length and with the cursor at the start of the body.", "quantifier": "every tag 0..63, every body length < 2^32, every body", "why_tests_cant": "The failing lengths (8128..8383) form a narrow window in 2^32; unit tests with small packets never see it.", "anchors": ["src/Misc/Length.cpp: write_new_length", "src/PGP.cpp: read_packet_header, read_packet_unformatted"]}
{"id": "C07", "title": "Old-format packet length round trip", "statement": "An old-format packet header written for a body of any length below 2^32 and tag <= 15 is read back with the same tag and length and with the cursor at the start of the body.", "quantifier": "every tag 0..15, every body length < 2^32, every requested length-of-length", "why_tests_cant": "Same as above: three length classes with boundaries at 256 and 65536.", "anchors": ["src/Misc/Length.cpp: write_old_length, read_one_octet_lengths, read_two_octet_lengths", "src/PGP.cpp: read_packet_unformatted"]}
{"id": "C08", "title": "Subpacket length round trip", "statement": "The length prefix written for a signature or attribute subpacket of any size below 2^32 is read back as the same size with the cursor at the subpacket's first octet.", "quantifier": "every body length < 2^32", "why_tests_cant": "Boundaries at 192, 8383, 16320, 65536.", "anchors": ["src/Packets/Subpacket.cpp: write_subpacket, read_subpacket"]}
{"id": "C09", "title": "Partial body lengths", "statement": "Data written with partial body lengths is read back as the same octets followed by the next packet.", "quantifier": "every body of at least 512 octets, every following data", "why_tests_cant": "Requires chunk decompositions of arbitrary length; tests use no partial lengths.", "anchors": ["src/Misc/Length.cpp: write_new_length", "src/PGP.cpp: read_packet_unformatted"]}
{"id": "C10", "title": "Packet sequence round trip", "statement": "Writing a sequence of packets and parsing the octets gives the same sequence of packets (same tags, same bodies, same order), nothing lost or invented.", "quantifier": "every finite list of packets whose bodies re-read and whose length headers are representable", "why_tests_cant": "Sequences of arbitrary length and content; failures only occur at particular offsets (e.g. a PKESK packet that is not first).", "anchors": ["src/PGP.cpp: read_raw, read_packet, raw", "src/Packets/Packet.cpp: write, read"]}
{"id": "C11", "title": "The packet parser terminates", "statement": "Parsing any octet string as a packet sequence returns or throws after finitely many steps: each packet consumes at least one octet.", "quantifier": "every octet string", "why_tests_cant": "Termination is a statement about all inputs; fuzzing only samples.", "anchors": ["src/PGP.cpp: read_raw, read_packet_raw, read_packet_unformatted"]}
{"id": "C12", "title": "The packet parser stays inside its input", "statement": "Parsing any octet string never reads outside the string: the outcome is a packet list or an exception.", "quantifier": "every octet string", "why_tests_cant": "Memory safety is a for-all-inputs property; a test only shows absence of a crash on its own inputs.", "anchors": ["src/PGP.cpp: read_raw, read_packet_raw", "src/Packets/Tag*.cpp: actual_read", "src/Misc/Length.cpp: read_*_lengths"]}
{"id": "C13", "title": "A packet's contents come from its own body", "statement": "The fields of a parsed packet depend only on the octets of that packet's body, not on what precedes or follows it in the stream.", "quantifier": "every packet body of every tag, every surrounding data", "why_tests_cant": "Needs quantification over all contexts; tests parse packets in isolation.", "anchors": ["src/Packets/Tag1.cpp, Tag2.cpp, Tag11.cpp, Tag17.cpp: actual_read"]}
{"id": "C14", "title": "ASCII armor round trip", "statement": "Text written with armor is parsed back to the same block type, the same armor header keys and the same packet data.", "quantifier": "every block type, header list and packet data", "why_tests_cant": "Line wrapping, header parsing and padding interact with every data length.", "anchors": ["src/PGP.cpp: read, write, format_string", "src/Misc/radix64.cpp", "src/Misc/CRC-24.cpp"]}
{"id": "C15", "title": "Armor line format", "statement": "format_string breaks text in lines of at most the given length, each terminated by a newline, and removing the newlines restores the text.", "quantifier": "every text and every positive line length", "why_tests_cant": "All lengths modulo the line length.", "anchors": ["src/PGP.cpp: format_string"]}
{"id": "C16", "title": "OpenPGP CFB round trip", "statement": "Decrypting with OpenPGP CFB what was encrypted under the same cipher key yields prefix || last two prefix octets || plaintext, for both the resynchronising (tag 9) and the non-resynchronising (tag 18) variant.", "quantifier": "every block function with block size >= 2, every plaintext length, every prefix of one block", "why_tests_cant": "Block-boundary cases depend on length modulo block size and on the resync variant.", "anchors": ["src/Misc/cfb.cpp: OpenPGP_CFB_encrypt, OpenPGP_CFB_decrypt"]}
{"id": "C17", "title": "Plain CFB round trip", "statement": "normal_CFB_decrypt(normal_CFB_encrypt(data)) == data under the same key and IV, and ciphertext length equals plaintext length.", "quantifier": "every block function, every data, every IV of one block", "why_tests_cant": "All lengths and contents.", "anchors": ["src/Misc/cfb.cpp: normal_CFB_encrypt, normal_CFB_decrypt"]}
{"id": "C18", "title": "CFB quick check", "statement": "OpenPGP_CFB_decrypt returns data only if the decrypted repeat octets match, and throws otherwise.", "quantifier": "every ciphertext, every block function", "why_tests_cant": "2^16 check values times all ciphertexts.", "anchors": ["src/Misc/cfb.cpp: OpenPGP_CFB_decrypt"]}
{"id": "C19", "title": "String-to-key specifier round trip and key length", "statement": "Each S2K specifier is read back from its serialisation, and deriving a key returns exactly the requested number of octets.", "quantifier": "every S2K type, hash, salt, count octet, passphrase, requested length", "why_tests_cant": "Key length is reached by multiple hash contexts; the count octet encodes values up to 65 million.", "anchors": ["src/Misc/s2k.cpp: S2K0, S2K1, S2K3 read/raw/run"]}
{"id": "C20", "title": "Iterated S2K hashes exactly the coded count", "statement": "The iterated and salted S2K hashes the first `coded_count` octets of the infinite repetition of salt||passphrase (at least one full copy), preceded by i zero octets in the i-th context.", "quantifier": "every count octet, salt and passphrase", "why_tests_cant": "Counts up to 65011712 octets; unit tests use one count.", "anchors": ["src/Misc/s2k.cpp: S2K3::run, coded_count"]}
{"id": "C21", "title": "EME-PKCS1 round trip", "statement": "Decoding an EME-PKCS1-v1_5 encoding returns the message for every message that fits the key, whatever non-zero padding was drawn.", "quantifier": "every message, every key length >= message length + 11, every random padding", "why_tests_cant": "Random padding and message lengths are unbounded.", "anchors": ["src/Misc/PKCS1.cpp: EME_PKCS1v1_5_ENCODE, EME_PKCS1v1_5_DECODE"]}
{"id": "C22", "title": "EMSA-PKCS1 encoding is injective", "statement": "For a fixed hash and key length, two different digests have different EMSA encodings, and every encoding has exactly the key length.", "quantifier": "every supported hash, digest, key length", "why_tests_cant": "Digest space is 2^512.", "anchors": ["src/Misc/PKCS1.cpp: EMSA_PKCS1_v1_5"]}
{"id": "C23", "title": "Secret key protection round trip", "statement": "Secret values encrypted into a secret-key packet with a passphrase are returned by decrypt_secret_keys with the same passphrase.", "quantifier": "every list of secret values, passphrase, S2K, cipher, IV and protection mode", "why_tests_cant": "Only one hash (SHA-1) satisfies it for usage octet 254; tests use that hash.", "anchors": ["src/Packets/Tag5.cpp: encrypt_secret_keys, decrypt_secret_keys, calculate_key"]}
{"id": "C24", "title": "Generated subkeys give back their secret values", "statement": "The secret values stored in a generated passphrase-protected (sub)key are exactly those returned by decrypt_secret_keys.", "quantifier": "every generated key pair, passphrase and cipher", "why_tests_cant": "Random key material; the extra trailing values are not compared by tests.", "anchors": ["src/keygen.cpp: generate_key", "src/Packets/Tag5.cpp: decrypt_secret_keys"]}
{"id": "C25", "title": "Public view of a secret key", "statement": "The public packet derived from a secret key packet has the same version, creation time, algorithm, public values, fingerprint and key ID, and none of its octets depend on the secret part.", "quantifier": "every secret key packet of version 3 or 4, every S2K usage", "why_tests_cant": "Non-interference is a statement about pairs of keys.", "anchors": ["src/Packets/Tag5.cpp: get_public_obj, get_public_ptr", "src/Packets/Tag7.cpp", "src/Key.cpp: SecretKey::get_public"]}
{"id": "C26", "title": "Fingerprint and key ID agree", "statement": "For version 4 keys the key ID is the low 64 bits of the fingerprint and both depend only on the public fields; for version 3 the key ID is the low 64 bits of the modulus.", "quantifier": "every key packet", "why_tests_cant": "All key material.", "anchors": ["src/Packets/Key.cpp: get_fingerprint, get_keyid"]}
{"id": "C27", "title": "Version 4 signature packet round trip", "statement": "A version 4 signature packet with well-formed subpackets is read back with the same fields and subpackets from any position of a stream.", "quantifier": "every list of hashed/unhashed subpackets, every MPI list, every stream position", "why_tests_cant": "Arbitrary numbers and sizes of subpackets.", "anchors": ["src/Packets/Tag2.cpp: actual_read, actual_raw, read_subpackets"]}
{"id": "C28", "title": "Version 3 signature packet round trip", "statement": "A version 3 signature packet is read back with the same fields from any position of a stream.", "quantifier": "every version 3 signature, every stream position", "why_tests_cant": "Only position 0 works; unit tests read packet bodies at position 0.", "anchors": ["src/Packets/Tag2.cpp: actual_read"]}
{"id": "C29", "title": "Signed octets determine what was signed", "statement": "The octet string hashed for a version 4 signature is different whenever the document or any hashed signature field (type, algorithms, hashed subpackets) is different, so one signature cannot be reinterpreted over another document or type.", "quantifier": "every pair of documents and version 4 signatures", "why_tests_cant": "Injectivity is a statement about all pairs.", "anchors": ["src/Misc/sigcalc.cpp: addtrailer, to_sign_00, to_sign_01", "src/Packets/Tag2.cpp: get_up_to_hashed"]}
{"id": "C30", "title": "Key certification input is unambiguous", "statement": "For version 4 certifications the hashed octets determine the key and the user ID or attribute.", "quantifier": "every key, user packet and signature", "why_tests_cant": "Pairs of keys and user IDs of arbitrary content.", "anchors": ["src/Misc/sigcalc.cpp: overkey, certification, to_sign_cert, to_sign_30"]}
{"id": "C31", "title": "Expiration times come from signed data", "statement": "The times reported by a signature are those of its hashed subpackets: data that is not covered by the signature cannot change them.", "quantifier": "every signature and every unhashed subpacket area", "why_tests_cant": "An attacker chooses the unhashed area freely.", "anchors": ["src/Packets/Tag2.cpp: get_times, find_subpacket, get_keyid"]}
{"id": "C32", "title": "OpenPGP message grammar", "statement": "A packet sequence is reported meaningful exactly when it is a sentence of the RFC 4880 section 11.3 message grammar.", "quantifier": "every finite sequence of packet tags", "why_tests_cant": "The grammar is recursive and generates sequences of unbounded length.", "anchors": ["src/Message.cpp: match, meaningful and the reduction rules"]}
{"id": "C33", "title": "Transferable key grammar", "statement": "Key::meaningful accepts exactly: primary key, key revocations, user IDs/attributes each with certifications (at least one user ID), subkeys each with signatures including a binding; no subkeys for version 3; and never reads past the packet list.", "quantifier": "every finite packet sequence and block type", "why_tests_cant": "Sequences of unbounded length; the out-of-range read happens only when the list ends right after revocations.", "anchors": ["src/Key.cpp: Key::meaningful"]}
{"id": "C34", "title": "Public extraction preserves key structure", "statement": "SecretKey::get_public of a meaningful secret key is a meaningful public key with the same user IDs, signatures and number of packets, and no secret packet.", "quantifier": "every meaningful secret key", "why_tests_cant": "Unbounded packet lists.", "anchors": ["src/Key.cpp: SecretKey::get_public"]}
{"id": "C35", "title": "Revocation check", "statement": "Revoke::check reports revoked exactly when a meaningful key carries a key, subkey or certification revocation signature.", "quantifier": "every meaningful key", "why_tests_cant": "Unbounded packet lists.", "anchors": ["src/revoke.cpp: check"]}
{"id": "C36", "title": "Revoking keeps the rest of the key", "statement": "Revoke::key, subkey, uid and with_cert return a public key containing every public packet of the input in order plus the revocation signature at the right place, and no secret packets.", "quantifier": "every meaningful key and revocation", "why_tests_cant": "Depends on the number and order of user IDs and subkeys.", "anchors": ["src/revoke.cpp: key, subkey, uid, with_cert"]}
{"id": "C37", "title": "Merging keys loses nothing", "statement": "After Key::merge every packet of both keys is present, the key is meaningful, and merging a key with itself changes nothing.", "quantifier": "every pair of meaningful keys with equal primary key", "why_tests_cant": "Unbounded packet lists with arbitrary repetition.", "anchors": ["src/Key.cpp: merge, flatten, get_pkey"]}
{"id": "C38", "title": "Dash escaping", "statement": "No line of dash-escaped text starts with '-' unless followed by a space, and reverse_dash_escape(dash_escape(t)) == t for every text not ending in a newline.", "quantifier": "every text", "why_tests_cant": "All texts.", "anchors": ["src/CleartextSignature.cpp: dash_escape, reverse_dash_escape"]}
{"id": "C39", "title": "Cleartext signatures survive transport", "statement": "Writing a cleartext-signed message and reading it back gives text with the same signed octets.", "quantifier": "every message text and signature block", "why_tests_cant": "Fails only for particular trailing newlines/whitespace.", "anchors": ["src/CleartextSignature.cpp: write, read, data_to_text", "src/Misc/sigcalc.cpp: to_sign_01, text_to_canonical"]}
{"id": "C40", "title": "Text canonicalisation", "statement": "text_to_canonical converts LF and CRLF line endings to CRLF and is idempotent; the octets signed for a text document do not depend on which of the two endings is used.", "quantifier": "every text", "why_tests_cant": "All texts.", "anchors": ["src/Misc/sigcalc.cpp: text_to_canonical, to_sign_01"]}
{"id": "C41", "title": "RSA correctness", "statement": "RSA decryption inverts encryption and RSA verification accepts every signature made with the matching key.", "quantifier": "every key n=pq with e*d = 1 mod (p-1)(q-1), every message < n", "why_tests_cant": "Number-theoretic statement over unbounded integers.", "anchors": ["src/PKA/RSA.cpp: encrypt, decrypt, sign, verify, keygen"]}
{"id": "C42", "title": "ElGamal correctness", "statement": "ElGamal decryption returns the encrypted value for every random k.", "quantifier": "every prime p, generator, secret x, message < p, random k", "why_tests_cant": "Unbounded integers and randomness.", "anchors": ["src/PKA/ElGamal.cpp: encrypt, decrypt"]}
{"id": "C43", "title": "DSA correctness and range checks", "statement": "DSA verification accepts every signature made with the matching key, and accepts only pairs with 0 < r < q and 0 < s < q.", "quantifier": "every domain parameters, key, digest, nonce, candidate signature", "why_tests_cant": "Unbounded integers; the range check is only wrong for out-of-range s.", "anchors": ["src/PKA/DSA.cpp: sign, verify"]}
{"id": "C44", "title": "Sign then verify", "statement": "A detached, cleartext or one-pass signature created with a secret key is accepted by the matching verify function with the corresponding public key.", "quantifier": "every document, key, hash", "why_tests_cant": "All documents and keys.", "anchors": ["src/sign.cpp", "src/verify.cpp"]}
{"id": "C45", "title": "Verification accepts only signed data", "statement": "If a verify function returns true, then the public-key check of the signature over the digest of the presented data succeeded under a signing key of the given key.", "quantifier": "every key, message and signature", "why_tests_cant": "Soundness is about all inputs an attacker may craft, e.g. an unsigned literal message.", "anchors": ["src/verify.cpp: with_pka, detached_signature, binary, cleartext_signature, primary_key, revoke, timestamp"]}
{"id": "C46", "title": "Verification never leaves its arrays", "statement": "The verify functions return 1, 0 or -1 or throw for every key and signature; they never index outside the key's or the signature's values.", "quantifier": "every key and signature as produced by the parser", "why_tests_cant": "The failing combinations pair a key of one algorithm with a signature of another.", "anchors": ["src/verify.cpp: with_pka", "src/PKA/DSA.cpp: verify", "src/DetachedSignature.cpp: meaningful"]}
{"id": "C47", "title": "Public-key encryption round trip", "statement": "Decrypt::pka of Encrypt::pka yields a message whose literal data is the original data.", "quantifier": "every data, filename, cipher, compression, key, randomness", "why_tests_cant": "All data and randomness.", "anchors": ["src/encrypt.cpp: pka, data", "src/decrypt.cpp: pka, data"]}
{"id": "C48", "title": "Passphrase encryption round trip", "statement": "Decrypt::sym of Encrypt::sym with the same passphrase yields a message whose literal data is the original data.", "quantifier": "every data, passphrase, cipher, hash, randomness", "why_tests_cant": "All data and randomness.", "anchors": ["src/encrypt.cpp: sym, data", "src/decrypt.cpp: sym, data", "src/Packets/Tag3.cpp: get_session_key"]}
{"id": "C49", "title": "Integrity-protected data is checked", "statement": "Decrypting an integrity-protected message returns contents only if the decrypted data ends in a modification detection code packet (0xd3 0x14) with the SHA-1 of everything before the hash.", "quantifier": "every ciphertext, key, cipher", "why_tests_cant": "All ciphertexts an attacker may produce.", "anchors": ["src/decrypt.cpp: data"]}
{"id": "C50", "title": "Block ciphers invert", "statement": "For every supported cipher, decrypt(encrypt(block)) == block under every key of the right length.", "quantifier": "every key and every block of each cipher", "why_tests_cant": "2^128 blocks times 2^256 keys; known-answer tests cover a few.", "anchors": ["src/Encryptions/DES.cpp, TDES.cpp, Blowfish.cpp, CAST128.cpp, IDEA.cpp, AES.cpp, Camellia.cpp, Twofish.cpp"]}
{"id": "C51", "title": "Hash updates are chunking-independent", "statement": "Feeding a hash object a message in any pieces gives the same digest as feeding it at once, and asking for the digest does not change the state.", "quantifier": "every hash, every way of splitting every message", "why_tests_cant": "All splits of all messages.", "anchors": ["src/Hashes/Unsafe/*.cpp: update, hexdigest"]}
{"id": "C52", "title": "Hash padding", "statement": "The padded message processed by each hash is a whole number of blocks, is different for different messages (below the length limit), and the digest has the advertised length.", "quantifier": "every message shorter than 2^61 octets", "why_tests_cant": "All lengths modulo the block size.", "anchors": ["src/Hashes/Unsafe/*.cpp: hexdigest", "include/Hashes/Hashes.h: LENGTH"]}
{"id": "C53", "title": "Indentation balance of displayed structures", "statement": "HumanReadable prints every line at the current nesting level and never goes below level zero.", "quantifier": "every sequence of up/down/print operations", "why_tests_cant": "All histories.", "anchors": ["src/common/HumanReadable.cpp"]}
{"id": "C54", "title": "Write reports invalid contents", "statement": "Asking a packet or PGP object to write with a status returns an empty string exactly when validation reports a problem, and the status is the packet's validation result.", "quantifier": "every packet", "why_tests_cant": "All packet contents.", "anchors": ["src/Packets/Packet.cpp: raw, write", "src/PGP.cpp: raw, write"]}
{"id": "C55", "title": "Validation accepts exactly well-formed packets", "statement": "A packet of any kind is reported valid exactly when its version, algorithms, types, flags and lengths are those RFC 4880 knows; for signatures this includes all subpackets and embedded signatures.", "quantifier": "every packet of every kind", "why_tests_cant": "Depends on nested structure and on every entry of every table.", "anchors": ["src/Packets: actual_valid of every Tag and Sub class", "src/Packets/Tag2/Sub32.cpp: actual_valid"]}
{"id": "C56", "title": "PGP equality", "statement": "Two PGP objects compare equal exactly if they have the same type and the same packets.", "quantifier": "every pair of PGP objects", "why_tests_cant": "All pairs.", "anchors": ["src/PGP.cpp: operator==", "src/Packets/Packet.cpp: operator=="]}
{"id": "C57", "title": "Whitespace trimming", "statement": "trim_whitespace removes exactly the maximal runs of whitespace at the requested ends and is idempotent.", "quantifier": "every string", "why_tests_cant": "All strings.", "anchors": ["src/common/includes.cpp: trim_whitespace"]}
{"id": "C58", "title": "Per-packet round trips", "statement": "Every packet type other than signatures (session keys, one-pass, keys, compressed, encrypted, marker, literal, user ID, user attribute, MDC, private) is read back from its own raw octets with the same fields.", "quantifier": "every packet contents representable in the format, at every stream position", "why_tests_cant": "All contents and positions.", "anchors": ["src/Packets/Tag1.cpp .. Tag63.cpp: actual_read, actual_raw"]}
{"id": "C59", "title": "Per-subpacket round trips", "statement": "Every signature subpacket type is read back from its own raw octets with the same fields.", "quantifier": "every subpacket contents", "why_tests_cant": "Notation data is only lost when the data is exactly as long as declared, which is the normal case.", "anchors": ["src/Packets/Tag2/Sub*.cpp: actual_read, actual_raw"]}
{"id": "C60", "title": "Random bits and bytes have the requested size", "statement": "rand_bits(n) returns n binary digits and rand_bytes(n) n octets, and the generator modulus is a product of two primes congruent to 3 mod 4.", "quantifier": "every n and generator state", "why_tests_cant": "All sizes and states.", "anchors": ["src/RNG/BBS.cpp"]}
{"id": "C61", "title": "PKCS5 padding", "statement": "remove_pkcs5(pkcs5(s, b)) == s and pkcs5 output is a positive multiple of b.", "quantifier": "every string and block size 1..255", "why_tests_cant": "All lengths.", "anchors": ["src/common/includes.cpp: pkcs5, remove_pkcs5"]}
{"id": "C62", "title": "Encrypted session key checksum", "statement": "Decrypt::pka uses a decrypted session key only if its 16-bit sum matches the transmitted checksum.", "quantifier": "every decrypted octet string", "why_tests_cant": "All strings.", "anchors": ["src/decrypt.cpp: pka"]}
{"id": "C63", "title": "Signature types are honoured by verification", "statement": "A verification function accepts only signatures of the kind it is meant for: a signature made over keys or user IDs (types 0x10-0x1f, 0x28, 0x30) is never accepted as a document signature.", "quantifier": "every signature, key and document", "why_tests_cant": "The signed octets of the two kinds can be made equal by choosing the document; no finite sample shows the absence of such documents.", "anchors": ["src/verify.cpp: detached_signature, binary, cleartext_signature, timestamp"]}
{"id": "C64", "title": "Signing with a wrong passphrase fails cleanly", "statement": "Signing with a passphrase that does not open the secret key returns an object without signature or throws, and never reads outside a value list.", "quantifier": "every key, passphrase, document and signing function", "why_tests_cant": "Memory faults on an empty vector may go unnoticed in a test run.", "anchors": ["src/sign.cpp: with_pka; src/Packets/Tag5.cpp: decrypt_secret_keys; src/PKA/RSA.cpp, DSA.cpp"]}
{"id": "C65", "title": "Reading a message terminates", "statement": "Message::read finishes for every input, whatever is nested in compressed packets.", "quantifier": "every octet string and every decompression function", "why_tests_cant": "A quine-like compressed packet must be constructed on purpose.", "anchors": ["src/Message.cpp: decompress, read"]}
{"id": "C66", "title": "Message serialization round trip", "statement": "Reading what Message::write produced gives a message with the same packets, compressed or not.", "quantifier": "every meaningful message and compression algorithm", "why_tests_cant": "All packet sequences and all compression functions.", "anchors": ["src/Message.cpp: write, read, raw"]}
{"id": "C67", "title": "Decrypting hostile messages is memory safe", "statement": "Decrypt::pka and Decrypt::sym never read outside a string or list, whatever the message says: its packets, its session key and its data are made by whoever sent it.", "quantifier": "every message that can be read, every key and passphrase", "why_tests_cant": "The faulty inputs are single odd packets among all messages.", "anchors": ["src/decrypt.cpp: pka, sym, data; src/Packets/Tag1.cpp"]}
{"id": "C68", "title": "Revocation certificates verify", "statement": "A certificate made by Revoke::key_cert, subkey_cert or uid_cert is accepted by Verify::revoke for every key with the signer's primary key and the subkey or user revoked.", "quantifier": "every secret key, key revoked, reason, time and random draws", "why_tests_cant": "The digest, the order of subkeys and users and the random values range over everything.", "anchors": ["src/revoke.cpp: key_cert, subkey_cert, uid_cert; src/verify.cpp: revoke"]}
{"id": "C69", "title": "The hash functions are the standards' functions", "statement": "For every identifier that is accepted, the digest of any data is the value of the function of RFC 1321, FIPS 180-4 or the RIPEMD-160 paper, however the data is fed.", "quantifier": "every identifier, data and division into updates", "why_tests_cant": "Test vectors are a handful of points of functions on all octet strings; a wrong constant or carry may show on none of them.", "anchors": ["src/Hashes: MD5, SHA1, RIPEMD160, SHA224, SHA256, SHA384, SHA512; include/Hashes/Unsafe/*_Const.h"]}
{"id": "C70", "title": "The block ciphers are the standards' ciphers", "statement": "For every algorithm number that is accepted and every key of its size, a block is enciphered to the value of the cipher the standards define (IDEA, triple DES, CAST-128, Blowfish, AES, Twofish, Camellia), and data in cipher feedback mode to the standard mode over that cipher.", "quantifier": "every algorithm number, key, block, initial value and data", "why_tests_cant": "Published vectors are a few points among 2^64 blocks and 2^128 keys; a wrong table entry, carry or round key may show on none of them, and a round trip hides any error made on both sides.", "anchors": ["src/Encryptions: IDEA.cpp, TDES.cpp, DES.cpp, CAST128.cpp, Blowfish.cpp, AES.cpp, Twofish.cpp, Camellia.cpp and their _Const.h; src/Misc/cfb.cpp"]}
{"id": "C71", "title": "Misuse is reported by an exception", "statement": "A signature of unknown version or of another type than asked for, a signature without creation time, an unknown subpacket, a specifier cut in its salt, a protected key without specifier, and packets that are no key or no message are refused by std::runtime_error, not by undefined behaviour and not by a result.", "quantifier": "every such signature, specifier, key and packet sequence", "why_tests_cant": "Each refusal has to hold for all values of the other fields.", "anchors": ["src/Misc/sigcalc.cpp; src/Packets/Tag2.cpp: get_times, get_keyid, read_subpackets; src/Misc/s2k.cpp: read; src/Packets/Tag5.cpp: calculate_key; src/Key.cpp: keyid, get_pkey; src/Message.cpp: read"]}
{"id": "C72", "title": "Certifying a user ID", "statement": "Sign::primary_key adds exactly one certification, of the type and hash asked for, to the first user ID with the given text and changes nothing else; the result is a transferable key and verifies under the signer's key; a second call changes nothing; revoked keys, other types and missing users are refused.", "quantifier": "every signer's and signee's key, user text, certification type, time and random draws", "why_tests_cant": "Positions, existing signatures, keys and random values range over everything.", "anchors": ["src/sign.cpp: primary_key; src/verify.cpp: primary_key"]}
{"id": "C73", "title": "Generated keys have the size asked for", "statement": "Asked for a key of a given number of bits, key generation returns a DSA group whose subgroup order has exactly and whose modulus has about the requested number of bits, an ElGamal prime of about that size, an RSA modulus made of primes of that size; the secret exponent can be any value of its range, and public exponents are not degenerate.", "quantifier": "all sizes, all sequences of random numbers, all behaviours of the prime search", "why_tests_cant": "the size depends on the random numbers drawn and on where the next prime lies; tests see a few draws", "anchors": ["src/PKA/DSA.cpp: new_public, keygen", "src/PKA/ElGamal.cpp: keygen", "src/PKA/RSA.cpp: keygen", "src/PKA/PKAs.cpp: generate_params"]}
{"id": "C74", "title": "Key generation returns the key asked for", "statement": "A key returned by generate_key is either empty or a meaningful secret key of version 4 with the requested algorithm, user IDs and subkeys in order, each with a certification or binding by the primary key that verifies; the secret values come back under the passphrase and belong to the public ones; a passphrase protects them with the requested cipher and hash and fresh random octets; every request that passes the check gives a key, and expiration times and sizes are honoured.", "quantifier": "all requests, all random octets and numbers, all behaviours of the prime search, all times", "why_tests_cant": "the key depends on random numbers of unbounded size and on every field of the request", "anchors": ["src/keygen.cpp: generate_key", "include/keygen.h: Config::valid", "src/Packets/Tag13.cpp: set_info", "src/sign.cpp: primary_key, subkey_binding"]}
{"id": "C75", "title": "Filling in the signatures of a secret key", "statement": "fill_key_sigs makes, with the primary key, every signature of a secret key that names that key as its issuer: afterwards each of them is accepted by the primary key over the user or subkey it stands below. Nothing but the values of those signatures changes, the key stays meaningful, and when it reports failure the key is unchanged, which happens only for keys that are not meaningful or with a signature of a type that has no place. A wrong passphrase is reported as failure.", "quantifier": "all secret keys with any number of users, subkeys and signatures in any order the format allows, all passphrases, all random numbers", "why_tests_cant": "the signatures depend on their position among unboundedly many packets and on random numbers", "anchors": ["src/keygen.cpp: fill_key_sigs", "src/sign.cpp: with_pka", "src/Misc/sigcalc.cpp: to_sign_18, to_sign_20, to_sign_28, to_sign_30, to_sign_cert"]}
{"id": "C76", "title": "A generated key can be stored, published and used", "statement": "The octets and the armored text of a key made by generate_key are read back as exactly that key. The public key taken from it consists of the same packets with the secret parts left out, is meaningful, is not reported as revoked, and is read back from its own armored text. Whatever is signed with the generated key and its passphrase - detached, cleartext, timestamp, message - is accepted by that public key, and an RSA key does sign with every hash that fits its modulus. Whatever is encrypted to the public part of an RSA key comes back with the secret key and the passphrase. (User IDs of 8128 to 8383 octets, which cannot be read back, and values of more than 8192 bits are left out.)", "quantifier": "all requests, random octets and numbers, behaviours of the prime search, times, all data signed or encrypted", "why_tests_cant": "it composes generation, writing, reading, signing, verification, encryption and decryption over keys of unbounded variety", "anchors": ["src/keygen.cpp: generate_key", "src/PGP.cpp: read, write", "src/Key.cpp: get_public", "src/sign.cpp", "src/verify.cpp", "src/encrypt.cpp: pka", "src/decrypt.cpp: pka"]}
{"id": "C77", "title": "Encryption is safe for every recipient's key", "statement": "Encrypting with a passphrase, or to any public key that was read, returns a message, an empty message or throws: it never reads out of range, divides by zero or stops the program, and does not wait for more random data than the block holds. Every message made is addressed to the first packet of the key that can encrypt, with as many integers as its algorithm has.", "quantifier": "all requests without a signer, all public keys (values included), all random octets", "why_tests_cant": "public keys come from others, and their integers, packets and algorithms can be anything", "anchors": ["src/encrypt.cpp: pka, sym, data", "src/Misc/PKCS1.cpp: EME_PKCS1v1_5_ENCODE", "src/PKA/RSA.cpp: encrypt", "src/PKA/ElGamal.cpp: encrypt", "include/common/includes.h"]}
{"id": "C78", "title": "Constructors that read their argument", "statement": "Constructing a key, a revocation certificate, a detached signature or a cleartext signature from a string succeeds exactly when the packets in it form such an object, refuses everything else by std::runtime_error, and gives back what was written, from armored text and from octets.", "quantifier": "all strings", "why_tests_cant": "the strings come from anywhere: what is accepted has to be settled for every sequence of packets and every text around them", "anchors": ["src/Key.cpp: Key(data), PublicKey(data), SecretKey(data)", "src/DetachedSignature.cpp: DetachedSignature(data)", "src/RevocationCertificate.cpp: RevocationCertificate(data), get_revoke_type", "src/CleartextSignature.cpp: CleartextSignature(data)"]}
{"id": "C79", "title": "Compression does not depend on how data is cut into pieces", "statement": "Compressing data and decompressing the result gives the data back. The data is fed to the library in pieces and collected from a buffer of fixed size; for every library that keeps its contract the loops end, no assertion fails, a whole stream is made, decompression returns exactly the data of the stream, and a broken or incomplete stream is reported as an error.", "quantifier": "all compressed formats and libraries that keep the contract, all data, all ways the library splits its output", "why_tests_cant": "whether the last call fills the buffer exactly depends on the data and the library; tests see a few sizes, and none of 4 GiB", "anchors": ["src/Compress/pgpzlib.cpp: zlib_compress, zlib_decompress", "src/Compress/pgpbzip2.cpp: bz2_compress, bz2_decompress"]}
{"id": "C80", "title": "What a command line means", "statement": "For every command line, the function of the module named first is called with the last value given for each option or its default, the opposite of the default for each flag that is given and the default for the others, and the other words in order as positional arguments; words behind -- are never options. With too few words or an option without its value the usage is shown and the function is not called. The program's modules have distinct names, each is called by its name, and no function looks up an argument that is not there. A module is constructed exactly if its names are usable and distinct.", "quantifier": "all module declarations, all command lines, all functions", "why_tests_cant": "command lines combine options, flags and words in any number and order", "anchors": ["cli/modules/module.cpp: check_names_ws, check_duplicate, parse, operator()", "cli/modules/*.h", "cli/modules/modules.h: ordered", "cli/main.cpp: main"]}
{"id": "C81", "title": "Copies are copies, and independent", "statement": "Cloning a packet, copying a block of packets, taking the public part of a key and assigning a packet give objects with the same contents as the original (or its public part), and afterwards no change to the original - setting a field, embedding another packet, creating and changing further objects - is seen through the copy, nor the other way round. Copying ends for every packet that has a finite contents. set_packets in contrast shares.", "quantifier": "all packets with all objects behind their pointers, all histories of changes to one side", "why_tests_cant": "sharing shows only after the right sequence of changes to the right object, and there is no bound on the sequence or on the nesting of embedded packets", "anchors": ["src/Packets/*.cpp: clone, operator=", "src/PGP.cpp: PGP(const PGP&), get_packets_clone, set_packets, set_packets_clone", "src/Key.cpp: get_public", "src/Subpackets/*: clone"]}
{"id": "C82", "title": "Separate messages can be written by separate threads", "statement": "Any number of threads, each writing its own message, get the results they would get alone, however their steps are interleaved; this includes messages made by copying another. (Message::raw, though const, changes the packet that holds the compressed data.)", "quantifier": "all numbers of threads, all messages, all schedules", "why_tests_cant": "an interleaving that goes wrong may be one of astronomically many", "anchors": ["src/Message.cpp: raw, Message(const Message&), comp"]}
{"id": "C83", "title": "A session key under a passphrase", "statement": "A session key stored in a symmetric-key encrypted session key packet with set_session_key is what get_session_key returns for the same passphrase. A message encrypted with that session key decrypts with the passphrase to the data encrypted, whatever cipher protects the session key; where several such packets are present, any of their passphrases works. Specifiers without a salt are refused.", "quantifier": "all ciphers, specifiers, passphrases and session keys of two octets or more", "why_tests_cant": "key derivation and cipher modes take inputs of every length", "anchors": ["src/Packets/Tag3.cpp: set_s2k, set_session_key, get_session_key", "src/decrypt.cpp: sym"]}
{"id": "C84", "title": "Texts of times", "statement": "The date shown for a time stored in a packet is its date in the Gregorian calendar (UTC), with four digits for the year and two for month and day, so that dates sort as texts; the full text names the day of the week, date and time, and different times have different texts. The text of a duration names years of 365 days, days, hours, minutes and seconds in range and without zeros, and adds up to exactly the duration.", "quantifier": "all times of 32 bits, all durations of 64 bits", "why_tests_cant": "four billion times; leap years and ends of months are where code goes wrong", "anchors": ["src/Misc/pgptime.cpp: show_time, show_date, show_dt", "include/Misc/pgptime.h: dayofweek, month"]}
{"id": "C85", "title": "What the listing of a key says", "statement": "list_keys of a key gives, in order, the lines of its packets and nothing else: for a key its kind, size, algorithm, the last half of its ID and its date; for a user ID its text; for an image its size; for a signature its kind, issuer and dates. Every key that can be read is listed, and the listing can be taken apart again: nobody who makes a user ID can make it look like other packets. What is not a key has an empty listing.", "quantifier": "all keys, all indentations", "why_tests_cant": "keys have any number of packets in many orders, and user IDs are arbitrary octets chosen by others", "anchors": ["src/Key.cpp: list_keys", "src/Misc/sigtypes.cpp: is_revocation", "include/PKA/PKAs.h: SHORT"]}
{"id": "C86", "title": "Encrypting and decrypting on the command line", "statement": "What the encrypt-sym and encrypt-pka commands print for a file, saved and given to decrypt-sym or decrypt-pka with the same passphrase or the matching key, is printed again as the file's content followed by newlines; every algorithm the help text offers by name can be chosen and has the number RFC 4880 gives it; a file that cannot be read, a name not in the list or a signing key that cannot sign is refused with status -1. What extract-public prints can be read as the public key.", "quantifier": "all command lines that fit the declarations, all file contents, passphrases, keys, times and random numbers", "why_tests_cant": "options, flags and positional words combine without bound, and contents are arbitrary octets", "anchors": ["cli/modules/encrypt_sym.h", "cli/modules/encrypt_pka.h", "cli/modules/decrypt_sym.h", "cli/modules/decrypt_pka.h", "cli/modules/extract_public.h", "cli/modules/module.cpp: operator()", "include/Compress/Compress.h", "include/Encryptions/Encryptions.h: NUMBER"]}
{"id": "C87", "title": "Signing and verifying on the command line", "statement": "What sign-detached-signature, sign-file, sign-timestamp and sign-cleartext-signature print for a file, saved and given to the matching verify command with the public key, is reported as signed by that key, with its file name and ID. The verify commands say 'was signed' exactly when verification succeeds and 'was not signed' exactly when it fails, name the right files and key IDs, and a caller can tell the two apart by the exit status. A key that cannot sign, an unknown hash name or a missing file is refused with status -1.", "quantifier": "all command lines that fit the declarations, all file contents, keys, passphrases, times and random numbers", "why_tests_cant": "contents and command lines are unbounded; a wrong verdict needs the one input nobody tried", "anchors": ["cli/modules/sign_detached_signature.h", "cli/modules/sign_file.h", "cli/modules/sign_timestamp.h", "cli/modules/sign_cleartext_signature.h", "cli/modules/verify_detached_signature.h", "cli/modules/verify_file.h", "cli/modules/verify_timestamp.h", "cli/modules/verify_cleartext_signature.h", "cli/modules/verify_primary_key.h", "cli/modules/module.cpp: operator()"]}
{"id": "C88", "title": "Revoking and certifying on the command line", "statement": "generate-revoke-key-cert, generate-revoke-subkey-cert and generate-revoke-uid-cert print a revocation certificate that can be read back and that verify-revoke accepts for the key; verify-revoke says 'revokes' exactly when the certificate verifies and 'does not revoke' exactly when it does not; revoke-primary-key prints the revoked key; what sign-primary-key prints is a public key with a certification that verifies with the signer's key; a subkey can be named by the ID the other commands print; a revocation code that is not one of the four, an unknown hash name, a missing file or a key that cannot sign is refused with status -1.", "quantifier": "all command lines that fit the declarations, all keys, reasons, codes, times and random numbers", "why_tests_cant": "command lines, keys and reasons are unbounded; revocation is used rarely and a certificate that does not work is noticed too late", "anchors": ["cli/modules/generate_revoke_key_cert.h", "cli/modules/generate_revoke_subkey_cert.h", "cli/modules/generate_revoke_uid_cert.h", "cli/modules/revoke_with_cert.h", "cli/modules/revoke_primary_key.h", "cli/modules/revoke_subkey.h", "cli/modules/revoke_uid.h", "cli/modules/sign_primary_key.h", "cli/modules/sign_subkey.h", "cli/modules/verify_revoke.h"]}
{"id": "C89", "title": "Fingerprints and listings on the command line", "statement": "fingerprint prints the fingerprint of the key in a file in groups of as many octets as asked for, every group full but the last, which is not empty, with the separator between groups and nowhere else; 0 means one group, whose last sixteen digits are the ID the other commands print. list prints the listing of the key in a file and nothing else. A missing file, a bad group size or a file that is not a key is refused with status -1.", "quantifier": "all command lines that fit the declarations, all files, group sizes up to 2^64 and separators", "why_tests_cant": "group sizes range over 64-bit numbers and need not divide the length; the last group is where code goes wrong", "anchors": ["cli/modules/fingerprint.h", "cli/modules/list.h", "src/Key.cpp: Key::Key, fingerprint, list_keys"]}
{"id": "C90", "title": "Generating a key pair on the command line", "statement": "generate-keypair makes the key the options ask for (algorithms by name, sizes as decimal numbers, one user ID, one subkey) and writes two files: <prefix>.private is read back as that key, <prefix>.public as its public part, with no secret packet in it; it prints the two names. What is signed with the private file and the passphrase is verified with the public file. A name it does not know, a request the library does not accept, a key that could not be made or a file that cannot be opened is refused with status -1, and then no file is touched.", "quantifier": "all command lines that fit the declaration, all random numbers, times, passphrases, user names and file systems", "why_tests_cant": "key generation depends on random numbers, and the files depend on which of the two can be opened", "anchors": ["cli/modules/generate_keypair.h", "src/keygen.cpp: generate_key", "src/Key.cpp: SecretKey::get_public, PublicKey::PublicKey, SecretKey::SecretKey", "src/PGP.cpp: PGP::write"]}
{"id": "C91", "title": "What is printed about packets", "statement": "show prints one outline per packet, in the order of the file, each level indented further; the first line of an outline says whether the header is new or old, which kind of packet it is and its number. It succeeds for every file the library reads that has no session key, secret key or compressed packets and no key without a version, and for every packet whose numbers are all there. Two lists of public keys of version 4, secret keys, signatures, user IDs and other texts without line ends, literal data, encrypted data, session keys and one-pass signatures that look the same are the same. Under a compressed packet the message in it is printed as it is anywhere else. The only files it writes are the images of user attributes. The end of a key's life is printed as the creation time plus the time given. A file that is not there is refused.", "quantifier": "all lists of packets, all octets read, all indentations, all correct implementations of gmtime, all sizes and numbers of images, all command lines that fit the declarations", "why_tests_cant": "what is printed depends on every field of every packet, and the cases in which printing fails are files no test has", "anchors": ["src/PGP.cpp: PGP::show", "src/Packets/Packet.cpp: Tag::show", "src/Packets/*.cpp: show_contents", "src/Packets/Tag2/*.cpp: show_contents", "src/Misc/s2k.cpp: S2K::show", "src/CleartextSignature.cpp: CleartextSignature::show", "cli/modules/show.h", "cli/modules/show_cleartext_signature.h"]}
{"id": "C92", "title": "Help on the command line", "statement": "Without arguments, or with help alone, the program explains all its functions; help with a regular expression says how many names match it and explains exactly those. The text of a function names its arguments in order and lists every option and flag it has, and no other, each once in alphabetical order with an explanation and the default value that counts when it is not given. A first argument that is no function prints an error, suggests the functions whose names match, runs nothing and ends with status -1. A function whose arguments do not fit or that fails prints its text last and ends with status -1, otherwise it ends with status 0.", "quantifier": "all command lines, all regular expression engines, all declarations of functions", "why_tests_cant": "the lists depend on the order and the duplicates of every declaration, and on what every first argument means as a regular expression", "anchors": ["cli/main.cpp: main, help, show_header", "cli/modules/module.cpp: Module::help, Module::operator()", "cli/modules/*.h: explanations of options and flags"]}
