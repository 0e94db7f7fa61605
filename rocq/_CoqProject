-Q theories Verif
theories/Model/Base.v
theories/Model/Includes.v
theories/Spec/Bytes.v
theories/Proofs/Lib.v
theories/Proofs/IncludesP.v
theories/Model/Mpi.v
theories/Model/Crc24.v
theories/Model/Radix64.v
theories/Model/HumanReadable.v
theories/Spec/Poly.v
theories/Proofs/MpiP.v
theories/Proofs/HumanReadableP.v
theories/Proofs/CrcP.v
theories/Proofs/Radix64P.v
theories/Props/C01_C05.v
theories/Spec/Nesting.v
theories/Props/C53_C57_C61.v
theories/Model/Length.v
theories/Spec/Framing.v
theories/Proofs/LengthP.v
theories/Props/C06_C09.v
theories/Model/Tables.v
theories/Model/S2k.v
theories/Model/Signature.v
theories/Model/Packets.v
theories/Model/Pgp.v
theories/Proofs/ReadP.v
theories/Spec/Fields.v
theories/Proofs/SignatureP.v
theories/Proofs/ReaderP.v
theories/Proofs/PacketsP.v
theories/Proofs/PacketRT.v
theories/Props/C27_C28_C59.v
theories/Props/C13_C58.v
theories/Spec/Sequence.v
theories/Proofs/PgpP.v
theories/Props/C10_C12.v
theories/Spec/Valid.v
theories/Proofs/ValidP.v
theories/Props/C54_C56.v
theories/Spec/Armor.v
theories/Proofs/ArmorP.v
theories/Props/C14_C15.v
theories/Model/HashConst.v
theories/Model/Hashes.v
theories/Spec/Hash.v
theories/Proofs/HashP.v
theories/Props/C51_C52.v
theories/Spec/HashStd.v
theories/Proofs/HashStdP.v
theories/Props/C69.v
theories/Model/Cfb.v
theories/Spec/Cfb.v
theories/Proofs/CfbP.v
theories/Props/C16_C18.v
theories/Model/S2kRun.v
theories/Spec/S2k.v
theories/Proofs/S2kP.v
theories/Props/C19_C20.v
theories/Model/Pkcs1.v
theories/Props/C21_C22.v
theories/Model/CipherConst.v
theories/Model/Ciphers.v
theories/Spec/Cipher.v
theories/Proofs/CipherLib.v
theories/Proofs/FeistelP.v
theories/Proofs/DesP.v
theories/Proofs/TwofishP.v
theories/Proofs/CamelliaP.v
theories/Proofs/IdeaP.v
theories/Proofs/AesP.v
theories/Proofs/CipherP.v
theories/Props/C50.v
theories/Model/KeyOps.v
theories/Spec/Keys.v
theories/Proofs/KeyP.v
theories/Props/C23_C26.v
theories/Props/C24_extra.v
theories/Model/Sigcalc.v
theories/Spec/Signed.v
theories/Proofs/SigcalcP.v
theories/Props/C29_C31_C40.v
theories/Model/Pka.v
theories/Spec/Primes.v
theories/Proofs/FermatP.v
theories/Proofs/PkaP.v
theories/Model/Rng.v
theories/Proofs/RngP.v
theories/Props/C41_C43_C60.v
theories/Spec/Grammar.v
theories/Model/Message.v
theories/Proofs/MessageP.v
theories/Props/C32.v
theories/Model/Key.v
theories/Spec/KeyGrammar.v
theories/Proofs/KeyGrammarP.v
theories/Props/C33_C35.v
theories/Model/Cleartext.v
theories/Spec/Text.v
theories/Proofs/CleartextP.v
theories/Props/C38_C39.v
theories/Model/MessageIO.v
theories/Model/Verify.v
theories/Model/Sign.v
theories/Spec/Sigs.v
theories/Proofs/SignP.v
theories/Props/C44_C46.v
theories/Proofs/ProthP.v
theories/Props/C65_C66.v
theories/Proofs/MessageIOP.v
theories/Model/Encrypt.v
theories/Model/Decrypt.v
theories/Proofs/CryptP.v
theories/Spec/Crypt.v
theories/Proofs/MadeP.v
theories/Props/C44_written.v
theories/Props/C47_C49_C62.v
theories/Props/C44_compressed.v
theories/Props/C48_whole.v
theories/Model/Revoke.v
theories/Props/C36_C68.v
theories/Model/Merge.v
theories/Spec/KeyMerge.v
theories/Proofs/MergeP.v
theories/Props/C37.v
theories/Spec/Aes.v
theories/Spec/Des.v
theories/Spec/Idea.v
theories/Spec/Blowfish.v
theories/Spec/Camellia.v
theories/Spec/Cast.v
theories/Proofs/AesStdP.v
theories/Proofs/DesStdP.v
theories/Proofs/RotP.v
theories/Proofs/IdeaStdP.v
theories/Proofs/BlowfishStdP.v
theories/Proofs/CamelliaStdP.v
theories/Proofs/CastStdP.v
theories/Spec/Twofish.v
theories/Spec/CipherStd.v
theories/Proofs/TwofishStdP.v
theories/Proofs/CipherStdP.v
theories/Props/C70.v
theories/Props/C71.v
theories/Spec/Certify.v
theories/Proofs/CertifyP.v
theories/Props/C72.v
theories/Props/C73.v
theories/Model/KeyGen.v
theories/Spec/KeyGen.v
theories/Proofs/KeyGenP.v
theories/Props/C74.v
theories/Spec/KeyFill.v
theories/Props/C75.v
theories/Spec/KeyUse.v
theories/Proofs/GenWriteP.v
theories/Props/C76.v
theories/Props/C77.v
theories/Model/Load.v
theories/Props/C78.v
theories/Model/Compress.v
theories/Spec/Stream.v
theories/Proofs/StreamP.v
theories/Props/C79.v
theories/Model/Cli.v
theories/Spec/CommandLine.v
theories/Proofs/CliP.v
theories/Props/C80.v
theories/Model/Heap.v
theories/Spec/Copies.v
theories/Proofs/HeapP.v
theories/Model/Threads.v
theories/Spec/Concurrent.v
theories/Model/SessionKey.v
theories/Props/C81.v
theories/Props/C82.v
theories/Props/C83.v
theories/Model/Times.v
theories/Model/Listing.v
theories/Spec/Calendar.v
theories/Spec/Listing.v
theories/Proofs/TimesP.v
theories/Props/C84.v
theories/Props/C85.v
theories/Model/Commands.v
theories/Spec/Invocation.v
theories/Proofs/CommandsP.v
theories/Props/C86.v
theories/Props/C87.v
theories/Props/C88.v
theories/Props/C89.v
theories/Props/C88_keys.v
theories/Model/Keypair.v
theories/Spec/Keypair.v
theories/Props/C90.v
theories/Props/C90_encrypts.v
theories/Props/C90_subkey.v
theories/Model/Show.v
theories/Spec/Listed.v
theories/Proofs/ShowP.v
theories/Props/C91.v
theories/Spec/Printable.v
theories/Props/C91_faithful.v
theories/Props/C91_inner.v
theories/Props/C91_flags.v
theories/Model/Help.v
theories/Spec/Manual.v
theories/Props/C92.v
