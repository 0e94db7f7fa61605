# Formal model of calccrypto/OpenPGP in Rocq (Coq 8.16.1)

## 1. Conventions

* Octets are `N` values, strings are `list N`. A string is *well formed* (`octets s`) when every element is `< 256`.
* Every function that can throw or hit undefined behaviour returns `result A`:
  `Ok a` (returned), `Throw e` (a C++ exception of the given kind), `UB` (undefined
  behaviour: out-of-range index, dereferencing a past-the-end iterator or null pointer,
  bad downcast), `Diverge` (a loop that never ends; used only where the model proves it).
* `std::size_t` arithmetic that can wrap is written with an explicit reduction mod 2^64,
  and `uint8_t/uint16_t/uint32_t` assignments with a reduction mod 2^8/2^16/2^32.
* The default build is modelled: `GPG_COMPATIBLE` off, `USE_OPENSSL*` off (the `Unsafe`
  hashes and the BBS generator).
* External code (GMP arithmetic, zlib/bzip2, `now()`, the GMP random generator) is either
  replaced by its mathematical specification on `N`/`Z` (GMP) or is a universally
  quantified argument of the theorem (compression codecs, randomness, clock).
* Layout: `Model/` definitions only, `Spec/` independent specifications, `Proofs/` lemmas,
  `Props/` the property theorems (each file ends with `Print Assumptions`).

## 2. Plan per property

| id | what is modelled | how it is proved |
|----|------------------|------------------|
| C01 | `hexlify`, `unhexlify` | induction on the string, digit sweep over 256 octets |
| C02 | `makehex`, `unhexlify`, `toint` | induction on the width |
| C03 | `ascii2radix64`, `radix642ascii` | induction in steps of 3 octets / 4 letters |
| C04 | `crc24` | refinement to polynomial remainder over GF(2); linearity; burst lemma |
| C05 | `write_MPI`, `read_MPI`, GMP import/export | base-256 digits lemma |
| C06-C09 | `Length.cpp`, header reader in `PGP.cpp` | case analysis on length classes with `lia` |
| C10-C13 | `PGP::read_raw`, all packet readers | induction on packet list / on fuel = input size |
| C14-C15 | armor writer and reader | induction over lines |
| C16-C18 | `cfb.cpp` with the block function as a variable | induction on number of blocks |
| C19-C20 | `s2k.cpp` with the hash as a variable | induction on contexts / count |
| C21-C22 | `PKCS1.cpp` | direct |
| C23-C26 | `Tag5/6/7/14`, `Key.cpp` packets | composition of codec lemmas |
| C27-C31 | `Tag2.cpp`, `sigcalc.cpp` | parser inversion, injectivity of length-tagged encodings |
| C32-C37 | `Message.cpp`, `Key.cpp`, `revoke.cpp` | grammar as inductive predicate / independent decision procedure |
| C38-C40 | `CleartextSignature.cpp`, `sigcalc.cpp` | induction over lines |
| C41-C43 | RSA, ElGamal, DSA on `N` | Fermat, proved from the standard library |
| C44-C49, C62 | `sign.cpp`, `verify.cpp`, `encrypt.cpp`, `decrypt.cpp` | composition of the above |
| C50 | the eight block ciphers | Feistel lemma, inverse steps, finite sweeps for S-boxes |
| C51-C52 | MD5, SHA-1, SHA-2, RIPEMD-160 drivers | generic Merkle-Damgard lemma |
| C69 | the compression functions | Spec/HashStd.v written from the standards, constants from roots of primes; equality step by step under an invariant on word sizes |
| C70 | the block ciphers | one Spec file per cipher, written from its standard (FIPS 197, FIPS 46-3, RFC 2144, RFC 3713, the IDEA, Blowfish and Twofish papers) and checked on published vectors; equality round by round; tables by 256 cases from their algebraic definition (AES, Camellia, Twofish), the Twofish Reed-Solomon step by linearity |
| C71 | the error branches of sigcalc, Tag2, s2k, Tag5, Key, Message | case analysis with all other fields arbitrary |
| C72 | `sign.cpp` primary_key | decomposition of the signee's packets (Spec/Certify.v), then the key grammar of C33 and the verification of C44 |
| C73 | DSA, ElGamal and RSA key generation (`Model/Pka.v`) | bounds on what is drawn and on the prime searches; refutations by chosen draws |
| C74 | `keygen.cpp` generate_key, Config::valid (`Model/KeyGen.v`) | inversion of the loops into user IDs and subkeys with what was signed (Spec/KeyGen.v), then C24, C33, C41-C44, C73; existence for RSA from the draws; refutations for all requests of a kind |
| C75 | `keygen.cpp` fill_key_sigs (`Model/KeyGen.v`) | induction over the packets with the key and user packet last seen as functions of the packets before (Spec/KeyFill.v), the grammar of C33 for where a signature can stand, then the verification theorem of C44; refutations by keys |
| C76 | generate_key composed with write/read, get_public, sign, verify, encrypt, decrypt | every packet of a generated key is written in new format and read back at any offset (Proofs/GenWriteP.v), then C10, C14, C34, C44 and C47 applied to it |
| C77 | Encrypt::pka, sym, data for arbitrary keys | no outcome UB, by cases along the code; a meaningful key never ends with a key packet, so the key found encrypts |
| C78 | the constructors of Key, PublicKey, SecretKey, DetachedSignature, RevocationCertificate, CleartextSignature from a string | acceptance is equivalent to the grammar of C33 on what PGP::read returns; round trips from C14 and C39 |
| C79 | the loops of `Compress/pgpzlib.cpp` and `pgpbzip2.cpp` around a library that is an argument | a format is a machine reading octets (Spec/Stream.v); a library is anything that refines the machine; induction over pieces and over the room left |
| C80 | `cli/modules/module.cpp`, the 29 module declarations, dispatch in `cli/main.cpp` | command lines as lists of items (Spec/CommandLine.v); invariant of the loop by reverse induction; every line is of one of two forms; finite sweep over the modules |
| C81 | `clone`, `operator=`, copy constructors, `get_public`, `set_packets` on a heap of objects behind `shared_ptr` (Model/Heap.v) | contents of an object as a tree (Spec/Copies.v); a copy only adds objects and reaches only new ones; histories of changes by induction |
| C82 | `Message::raw` cut into its five accesses to `comp`, threads as step functions (Model/Threads.v) | invariant per thread, every schedule by induction (Spec/Concurrent.v) |
| C83 | the members of `Tag3` (Model/SessionKey.v) | CFB inverts for every cipher; composition with C48's encrypted data |
| C84 | `pgptime.cpp` (Model/Times.v); gmtime is an argument that has to meet the calendar (Spec/Calendar.v), and one that does is given | digits by induction on size; order of dates from monotonicity of the day count; durations read back by a reader in the specification |
| C85 | `Key::list_keys` with the field width of the stream (Model/Listing.v) | the relation "lines of a packet" (Spec/Listing.v); both directions by induction over the packets |
| C86 | the functions behind encrypt-sym, encrypt-pka, decrypt-sym, decrypt-pka, extract-public, list as runs of the whole program on a word list and a table of files (Model/Commands.v) | composition: the parsed words (C80), the message theorems (C47, C48, C62), and that armored text read back does not depend on the newline the command adds; statements in terms of command lines (Spec/Invocation.v) |
| C87 | the sign and verify commands (Model/Commands.v) | verdict texts by computation over the three results of verification; made-saved-verified by composing C44 with reading armored text behind which the command put a newline |
| C88 | the revoke, certify and verify-revoke commands (Model/Commands.v) | verdict texts by computation; certificates printed, saved and verified by composing C65/C66 with reading armored text; refutations by inverting what a command that prints something must have done |
| C89 | the fingerprint and list commands (Model/Commands.v) | induction over the groups with the octets already printed as the invariant; uniqueness of the grouping by induction; list from C85 |
| C90 | generate-keypair with the files it writes, strtoul (Model/Keypair.v); what can be opened for writing is an argument | the configuration read from the command line, then C74, C76 and C78 for the files, C87 for signing with them, C47 and C86 for encrypting with them |
| C91 | the show functions of all packets, subpackets and S2Ks, PGP::show, CleartextSignature::show and the two commands (Model/Show.v), as lines and moves of a HumanReadable | every function of them keeps to an outline (induction on the packets, on embedded signatures and on messages in compressed packets); totality from what the reading functions guarantee; a key is read back from its lines |
| C92 | `Module::help`, `Module::operator()`, the explanations of all options and flags, and what `main` prints (Model/Help.v); std::regex is an argument | sorted insertion keeps the map (induction); the manual of Spec/Manual.v line by line; table checks over the declarations |
| C53-C58 | `HumanReadable`, `Packet::write`, validation, equality, trimming, packets | case analysis / induction |
| C59 | all subpackets | case analysis |
| C60 | `BBS.cpp` | induction |
| C61 | `pkcs5` | direct |

| C63, C64 | `verify.cpp`, `sign.cpp` | refutation for every key |
| C65, C66 | `Message.cpp` | induction on the nesting / composition of C10, C14, C32 |
| C67 | `decrypt.cpp` | refutation for every key; case analysis for the rest |

Where the code violates a property the theorem is named `..._refuted` and proves the
negation with a concrete witness; where it holds only under an extra condition that
condition is a hypothesis of the positive theorem and the complement is refuted.

## 3. Trusted base

* Coq 8.16.1: the kernel, including the virtual machine behind `vm_compute` (used for
  finite sweeps and for the examples). `coqchk` re-checks every module without it.
* No axioms. `Print Assumptions` stands under every theorem in `Props/`; each of them
  answers `Closed under the global context`. No axiom of the standard library is used.
* Libraries: the Coq standard library only (`List`, `NArith`, `ZArith`, `Lia`, `Znumtheory`,
  `Zify` instances). No plugin other than those of the standard library; no functors,
  module types, `Declare Module`, `Admitted`, or kernel flags.
* The model is a hand translation. Nothing ties it to the C++ text except the line
  references in its comments; the code was read, never run. This is the largest part of
  the trusted base.
* What replaces external code:
  - GMP: arithmetic on `N` and `Z`. `mpz_powm_sec` with an even modulus or a zero
    exponent, and division by zero, abort and are modelled as such (Model/Pka.v).
    `nextprime` and the primality test are arguments of the theorems.
  - zlib and bzip2: arguments `zip` and `unzip` of type `N -> bytes -> option bytes`.
  - `time()`: arguments `now`, `now'`.
  - the random generator: lists of the octets or numbers drawn, arbitrary in every
    theorem; the BBS generator itself is modelled in Model/Rng.v.
  - `std::string`, `std::vector`, `std::map`, `shared_ptr`: lists with explicit outcomes
    for out-of-range `operator[]` (`UB`), `at`/`substr` (`Throw EOutOfRange`) and null
    pointers (`UB`). Allocation never fails. `std::string::max_size` is not modelled
    except where a theorem bounds a length by 2^63.
  - `static_pointer_cast`/`dynamic_pointer_cast` to the wrong class: `UB`.
* Standards: Spec/HashStd.v and the cipher files under Spec/ are transcriptions of the
  standards. The S-boxes of Blowfish (digits of pi) and CAST-128 (bent functions) have no
  short definition; their specifications take the tables of the code (Model/CipherConst.v),
  so a misprint in those two sets of tables is outside C70. All other tables are derived
  from their definition or, for DES, transcribed.

## 4. What is modelled

| source | model | remarks |
|--------|-------|---------|
| common/includes.cpp, cryptomath.h, HumanReadable.cpp | Includes.v, HumanReadable.v | `hexlify`, `unhexlify`, `toint`, `makehex`, `makebin`, trim, pkcs5, xor |
| Misc/radix64.cpp, CRC24.cpp, mpi.cpp, Length.cpp, PKCS1.cpp, cfb.cpp, s2k.cpp, sigcalc.cpp | Radix64.v, Crc24.v, Mpi.v, Length.v, Pkcs1.v, Cfb.v, S2k.v, S2kRun.v, Sigcalc.v | all functions (S2K::show is in Show.v) |
| Encryptions/*.cpp | Ciphers.v, CipherConst.v | all eight ciphers, `Sym::setup` |
| Hashes/Unsafe/*.cpp, Hashes.cpp | Hashes.v, HashConst.v | MD5, SHA-1, RIPEMD-160, SHA-2; `update`, `hexdigest`, `Hash::use` |
| PKA/*.cpp | Pka.v | RSA, ElGamal, DSA: keygen, encrypt, decrypt, sign, verify |
| RNG/BBS.cpp | Rng.v | |
| Packets/*.cpp, Packets/Tag2/*.cpp, Tag17/*.cpp | Packets.v, Signature.v, Key.v, KeyOps.v | read, raw, write, valid; all tags and all subpackets |
| PGP.cpp | Pgp.v | read, write, armor, equality |
| Message.cpp | Message.v, MessageIO.v | grammar, (de)compression, read, write |
| Key.cpp | Key.v, KeyOps.v, Merge.v, Load.v | meaningful, get_public, merge, the reading constructors |
| CleartextSignature.cpp, DetachedSignature.cpp, RevocationCertificate.cpp | Cleartext.v, Verify.v, Load.v | |
| sign.cpp, verify.cpp, encrypt.cpp, decrypt.cpp, revoke.cpp | Sign.v, Verify.v, Encrypt.v, Decrypt.v, Revoke.v | |
| Compress/pgpzlib.cpp, pgpbzip2.cpp | Compress.v | the loops; the library calls are arguments |
| cli/modules/module.cpp, declarations of cli/modules/*.h, cli/main.cpp | Cli.v | parsing and dispatch; of the functions the names they look up; the help texts are in Help.v |
| cli/modules/*.h: the functions | Commands.v | all (`generate-keypair` is in Keypair.v, `show` and `show-cleartext-signature` in Show.v); files, clock, random numbers, scanf and the help text printed on failure are arguments (Help.v says what it is) |
| Misc/pgptime.cpp, Key::list_keys | Times.v, Listing.v | gmtime is an argument |
| shared_ptr members of packets; Message::comp | Heap.v, Threads.v | objects behind pointers; interleavings |
| keygen.cpp, keygen.h | KeyGen.v | generate_key, Config::valid, fill_key_sigs |

Printing (every `show`/`show_*` function, HumanReadable) is in Show.v, for a build without
GPG_COMPATIBLE; the members Sub::size and Sub1::current, used for nothing else, are arguments.

Not modelled: zlib, bzip2 and std::regex themselves, `RAND_bytes` and the other
`OpenSSL` variants, the `GPG_COMPATIBLE` variants, `contrib/`, the global state of the
random generator (theorems quantify over what it returns), performance and memory
exhaustion. Destructors are not modelled. Elsewhere than in Model/Heap.v and Model/Threads.v objects behind
pointers are values; C81 shows that clones, copies, assignments and get_public behave that way.
Two places share packets and are modelled as values all the same: Key::merge keeps packets of its
argument, and the key returned by Sign::primary_key may share packets with the key signed.

Key::merge orders its tables by object addresses; the model takes the addresses as part of the
packets and the theorems hold for all of them.

## 5. Findings

What the proofs forced out of the code. Each line names the theorem (or, in brackets, the
example or the model definition) that carries it. Line numbers are in the model's comments.

Encodings
* Radix-64 decoding reads out of range on empty text and on text of `=` only (C03_decode_undefined_iff).
* Integers of 65529 to 65535 bits are written but cannot be read (C05_mpi_65529_to_65535_bits_unreadable).
* `pkcs5` adds nothing to aligned data and wraps for block sizes that are no power of two (C61).
* New-format lengths 8128..8383 have first octet 223, which the reader takes for a partial
  length (C06_new_roundtrip_refuted, C10_length_223_refuted, C48_length_refuted: such data is
  encrypted and then cannot be decrypted).
* A two-octet length request below 192 underflows (C06_two_octet_request_refuted).
* Old-format four-octet lengths are misread (C07_old_roundtrip_refuted).
* Partial lengths: the reader advances its cursor twice, the writer repeats an octet before the
  last piece (C09_reader_cursor_refuted, C09_roundtrip_refuted).

Packets
* Truncated bodies of tags 1-7 and 14, truncated headers and truncated partial lengths read
  out of range (C12_*_refuted).
* Tags 3, 5, 7 and 11 with short bodies take octets of the following packet (C13_*_refuted).
* Tags 1 and 17 compare an absolute position with the length of the body, so the second
  recipient of a message is lost (C10_two_recipients_refuted, C58_*_refuted).
* Version 3 signatures read their integers from the absolute offset 19 (C28_v3_position_refuted).
* Validity days of version 3 keys with an octet of 128 or more are misread (C58_v3_key_days_refuted).
* Notation data always loses name and value (C27_notation_refuted, C59_notation_refuted).
* The validity test of embedded signatures is inverted (C55_embedded_*_refuted); the specifier
  of a protected secret key is never validated (C55_specifier_refuted); validating a protected
  key whose cipher has no known block length throws (C55_cipher_throws_refuted).
* A signature with a subpacket of unknown type cannot be read, critical or not; RFC 4880
  section 5.2.3.1 says to ignore those not critical (C71_unknown_subpacket).
* Certifying takes the first user ID that contains the text anywhere, so "Bo" may certify
  "Boris" (C72_adds), and a stronger certification is not added after a weaker one (C72_again).
* RSA key generation has no lower bound on its primes nor on the public exponent: any size asked for
  can give the modulus 6, and exponent 1, under which encryption is the identity
  (C73_rsa_refuted, C73_rsa_exponent_refuted).  DSA moduli may be shorter or longer than asked
  (C73_dsa_p_refuted), and the DSA secret never uses the top bit (C73_dsa_secret).
* generate_key: the check of a request accepts sign-only RSA and DSA with 1024 or 3072 bits, for
  which the empty key comes back every time; DSA with 2048 bits gives the 160 bit subgroup of a
  1024 bit key, because half the size is passed on for every algorithm; ciphers without tables
  throw after the key pair has been made; expiration times are never used; the secret
  values of protected subkeys are lost (C74_sign_only_refuted, C74_dsa_size_refuted,
  C74_cipher_refuted, C74_expire_refuted, C74_subkey_secret_refuted).
* `fill_key_sigs` reports success although nothing was signed when the primary key's algorithm
  is none of 1, 2 and 17 (C75_algorithm_refuted) and for a revocation of a certification that
  stands below a subkey (C75_unfilled_refuted); with a wrong passphrase or a wrong stored sum it
  reads the first secret value of an empty vector (C75_secret_refuted).
* `PGP::write` of an object without packets leaves the caller's status as it was (C54_pgp_empty_refuted).
* Equality of PGP objects ignores packet tags (C56_tags_refuted).

Armor and cleartext
* Types 0 and 7 are written but not readable, larger types index out of range, an object
  without data reads out of range, keys with empty values are lost, reading twice appends
  the keys again (C14_*_refuted). A wrong CRC is only a warning [pgp_read].
* Text of a cleartext signature loses trailing blank lines, form feeds and " \r" at line ends
  on the way (C39_*_refuted). Text signatures do not cover a final line feed (C29_text_refuted).

Ciphers and hashes
* `TDES::decrypt` applies the keys in the order of `encrypt` (C50_tdes_decrypt_refuted).
* `IDEA::decrypt` destroys the key schedule (C50_idea_second_decrypt_refuted).
* A single `update` of 4 GiB or more ignores data (C51_large_update_refuted).
* AES and Twofish reduce the key size mod 2^8, Camellia mod 2^16; CAST-128 takes any key [Ciphers.v].

Keys
* Secret keys protected with S2K usage 254 are checked with the hash of the specifier on one
  side and SHA-1 on the other (C23_other_hash_refuted).
* Generated subkeys with a passphrase carry two checksums and can never be opened (C24_subkey_refuted).
* Version 3 key IDs are wrong or throw for moduli below 2^56 (C26_v3_short_refuted).
* A primary key followed by key revocations only is read past its end (C33_range_refuted).
* `Revoke::check` looks at types only, nothing is verified (C35_unverified).
* `Revoke::uid` drops every user ID that does not contain the text given (C36_uid_refuted);
  the certifications of a dropped user stay and now follow another one (C36_uid_ex).
* `Revoke::subkey` with a text occurring in several key IDs inserts the revocation of the
  first subkey after each of them (C36_subkey, C36_subkeys_ex).
* `Revoke::with_cert` indexes past the end for keys without subkeys
  (C36_cert_no_subkey_refuted), leaves every secret subkey but the first in the "public" key
  (C36_cert_secret_refuted), loops forever when the revoked user is not the first
  (C36_cert_user_refuted), and otherwise drops the key revocations and that user's first
  certification (C36_cert_loss_refuted).
* `Key::merge` orders users and subkeys by the addresses of their objects, so merging a key with
  itself may reorder it (C37_order_refuted); a binding signature shared by two subkeys is kept
  once, which leaves the key broken when the exception is thrown (C37_shared_refuted); a key whose
  first user is an attribute cannot be merged (C37_attribute_refuted).
* Version 3 revocation certificates are never accepted (C68_version3_refuted).

Signatures
* Expiration times in unhashed subpackets override the hashed ones (C31_expiration_refuted,
  C31_key_expiration_refuted).
* Version 3 certifications do not tell attributes from user IDs (C30_v3_refuted).
* DSA verification accepts r = 1, s = 0 for every key and message (C43_forgery_refuted,
  C45_forged_refuted) and s + q for s (C43_malleable_refuted).
* `Verify::binary` returns true for an unsigned literal message (C45_literal_refuted).
* Verification does not look at the signature type (C63_type_refuted).
* Version 3 signatures made by the library never verify (C44_version3_refuted); sign-only RSA
  keys never sign (C44_sign_only_refuted); detached signatures of signing subkeys do not
  verify (C44_subkey_refuted); `primary_key_binding` returns nothing (C44_binding_refuted).
* Signing with a wrong passphrase indexes an empty list (C64_*_refuted).
* A detached signature object with another packet in it, and keys of one algorithm with
  signatures of another, read out of range (C46_packet_refuted, C46_algorithm_refuted).

Messages
* The grammar check dereferences and increments the end iterator for sequences that end early
  (C32_range_refuted, C32_increment_refuted).
* bz2_decompress does not end for a stream that was cut off (C79_bz2_truncated_refuted), stops the
  program for data that is not bzip2 data (C79_bz2_broken_refuted), for octets behind the stream
  (C79_bz2_trailing_refuted) and for streams whose last piece gives a multiple of 4096 octets
  (C79_bz2_refuted); bz2_compress stops the program when the compressed form fills the buffer
  exactly (C79_bz2_compress_refuted).
* Sizes are cut to 32 bits: of 4 GiB and more only the remainder is compressed, without an error
  (C79_truncates_refuted); just below 4 GiB octets behind the string are read (C79_wrap_refuted).
* generate-keypair with an unknown public key algorithm, and show-cleartext-signature with a file
  that is not there, end in an exception instead of their error message (C80_keypair_refuted,
  C80_show_refuted). The argument "--" cannot be given (C80_dashes_refuted); misspelt options are
  taken for positional arguments.
* Compressed data that decompresses to itself never ends (C65_quine_refuted).
* `Message::write` compresses a compressed message again; the armored flag is lost (C66).
* A session key packet without integers makes `Decrypt::pka` index an empty list
  (C67_no_integers_refuted): 17 octets from anyone who knows the key ID.
* Encrypting to a key with an even modulus, and verifying with one, stops the program in GMP
  (C77_even_refuted, C46_even_refuted); a modulus of at most 10 octets makes the padding loop
  ask for 2^64 octets (C77_small_refuted). Keys are not checked for either.
* PublicKey(data) accepts the text of a secret key and SecretKey(data) that of a public key: the
  virtual test runs in the base class (C78_kind_refuted). Key(data) reads past the packet list
  for a key followed by revocations only (C78_range_refuted). DetachedSignature(data) accepts
  any single packet of any block, and verification with it is undefined (C78_detached_refuted).
* The two octets before the hash of a protected packet are not compared (C49_marker_refuted).

Random generator
* The second prime of BBS is never searched, so it may be 1 modulo 4 (C60_modulus_refuted);
  requests of 2^29 octets and more wrap (C60_bytes_refuted).

Objects and threads
* Assigning a Tag3 packet dereferences both its specifier and its encrypted session key, although
  each may be absent (C81_assign_refuted); so do the get_s2k_clone functions
  (C81_get_s2k_clone_refuted).
* A signature that embeds itself can be built with the setters; cloning it does not end
  (C81_cycle_refuted).
* Assigning a Message shares the packet for compressed data, which the const function raw changes:
  two threads that only write their own messages can get an empty compressed packet
  (C82_assigned_refuted).
* A message may carry its session key for several passphrases; decryption only tries the first
  (C83_second_refuted). set_session_key without a specifier silently drops the key (C83_dropped).

Listings
* Listing a key whose primary key packet is empty (five octets suffice, and the key counts as
  meaningful) reads the first integer of an empty list (C85_empty_refuted).
* One signature without an issuer or one key packet of an unlisted algorithm makes list_keys throw
  instead of listing the rest (C85_whole_refuted).
* User IDs are printed as they are: a user ID with newlines gives the same listing as several user
  IDs, or any other lines (C85_forged_refuted).
* Absent expiration dates leave 9 instead of 10 spaces: the width set with setw is used up by the
  next space or newline (visible in Spec/Listing.v: column).
* show_dt of the smallest time_t overflows (C84_smallest_refuted).

Commands
* Output without armor (`-a`) ends in an extra newline, which no reader accepts: the next command
  ends with an uncaught exception (C86_binary_refuted, for extract-public read by list).
* The help text offers the compression BZIP2, but the table of names has "BZip2": encrypt-sym and
  encrypt-pka refuse it (C86_bzip2_refuted).
* encrypt-sym with a signing key that cannot sign reports success and prints an empty message;
  decrypting what it printed is undefined behaviour (C86_failed_refuted).
* `--sym PLAINTEXT` is accepted as a name and ends in an uncaught exception (C86_plaintext_refuted).
* The verify commands return 1 for a wrong signature, but Module::operator() turns every result
  other than -1 into 0: the exit status is 0 for good and for wrong signatures (C87_status_refuted).
* generate-revoke-key-cert tests `if (cert.meaningful())` where the other commands test
  `if (!cert.meaningful())`: it refuses whenever there is a certificate, and prints an empty block,
  which is no certificate, when there is none (C88_key_cert_refuted).
* sign-subkey returns -1 on every path: it never prints anything but its help (C88_sign_subkey_refuted).
* `-k` of revoke-subkey and generate-revoke-subkey-cert is compared as raw octets with the 8-octet
  ID: the hexadecimal ID the other commands print is never found (C88_subkey_id_refuted).
* Revocation codes are taken modulo 256: 258 is accepted and recorded as 2 (C88_code_refuted).
  revoke-uid accepts the codes 0 to 3 of keys and refuses 32, the code for user IDs (C88_refused).
* fingerprint has a message for a file that is not a key, but the constructor of Key throws first:
  fingerprint and list end with an uncaught exception (C89_not_key_refuted).
* revoke-with-cert with a good certificate for a key without subkeys is undefined behaviour, and with
  one for a user ID other than the first it never ends (C88_with_cert_refuted).
* generate-keypair opens <prefix>.public for writing before it knows that <prefix>.private can be
  opened: when the second fails the command is refused, but an earlier public key is gone
  (C90_emptied_refuted).
* Its messages for an unknown --ppka or --spka look up options that do not exist ("--pka", "--ska"):
  the program ends with an uncaught exception (C90_algorithm_refuted).
* With the default --psig SHA1 every DSA key is refused as "bad keypair" (C90_refused_ex).
* show of a session key packet that ends after its algorithm reads mpi[0] of an empty vector, and
  so does show of an empty public key packet; both are read without an error (C91_session_refuted,
  C91_empty_key_refuted).  A secret key without its secret part ends show with an exception
  (C91_secret_refuted).
* User IDs are printed as they are: a line end in one makes a forged packet in the listing
  (C91_forged_refuted).
* show writes the images of user attributes to files in the working directory (C91_look_refuted).
* A key expiration subpacket before the creation time is printed as a date in 1970
  (C91_expiry_refuted).
* The comment of a revocation with reason 0 is not printed (C91_reason_refuted).
* show-cleartext-signature prints the title "Signature:" on the last line of the message
  (C91_cleartext_line_refuted), and ends with an uncaught exception when there is no such file
  (C91_cleartext_missing_refuted).
* sign-primary-key with a level that is no hexadecimal number (-c) is not refused with the help text:
  the exception of mpz_class ends the program (C88_number_refuted).
* C91_iv_refuted, C91_cipher_refuted: of a secret key protected with the simple S2K the IV is not printed, and of one encrypted directly under a cipher (usage octet 1 to 253) neither the cipher nor the IV; keys that differ in them look the same (Tag5.cpp 59-100).
* The program takes a first argument that is no function for a regular expression: one that is not valid
  (an open parenthesis) ends it with an uncaught exception instead of status -1; so does help with
  such a word (C92_regex_refuted, main.cpp 45, 72, 97).  Every word that begins with "help" is taken for
  help (C92_prefix_refuted, main.cpp 65).
* Key server preferences, key flags and features of several octets are printed bit by bit without the
  octet a bit is in: the flags 03 00 and 01 02 look the same (C91_flags_refuted, Sub23.cpp, Sub27.cpp and
  Sub30.cpp 11-20).
* Of a compressed packet only the message inside is printed, and of a user attribute only the size of an
  image and the file it is saved in; other packets look the same (C91_packed_refuted,
  C91_attribute_refuted).
* A generated subkey with a passphrase gives back one value too many whenever the first octet of its checksum
  is neither 0 nor 255 (C24_subkey_extra), and for some secret values, such as 707, it can never be opened:
  the right passphrase makes decrypt_secret_keys throw (C24_closed_refuted, keygen.cpp 230-247,
  Tag5.cpp 402-450).

### How far the wrong programs go

seeded/README.md says how the log of wrong programs is to be read.  Its `failed` lists follow from the
use of the lemma that broke; they were not seen theorem by theorem.  Twenty edits survived and no later
attempt with them is recorded as killed.  Among them are the names of days and months in printed times, the
newlines behind a decrypted text, the name verify-file is called by, Blum primes of the generator and
some places where undefined behaviour and an exception are exchanged.
