{"id": "C01", "title": "Plaintext phrase round-trip", "statement": "EncodeMnemonicPlaintext of a seed and creation offset succeeds with exactly 14 words, all from the wordlist, and DecodeMnemonic of those words returns version 0, not encrypted, with exactly that seed and that offset.", "quantifier": "every seed in [0,2^128) and every creation offset in [0,2^31), for every 4096-word list of distinct lowercase words", "why_tests_cant": "2^159 payloads cannot be enumerated; the repository's test uses one seed and one timestamp.", "anchors": ["encoding.go:EncodeMnemonicPlaintext", "encoding.go:encodeMnemonic", "recovery.go:DecodeMnemonic", "recovery.go:DecodedMnemonic.Seed"]}
{"id": "C02", "title": "Encrypted phrase round-trip", "statement": "EncodeMnemonicEncrypted with a non-empty password succeeds with exactly 16 wordlist words; DecodeMnemonic of them returns version 1 with the same offset, and DecryptSeed with the same password always returns exactly the original seed.", "quantifier": "every seed, offset < 2^31, non-empty password and random salt", "why_tests_cant": "Quantifies over all passwords, seeds and salts; Argon2id takes 512MB per call, so tests try a handful.", "anchors": ["encoding.go:EncodeMnemonicEncrypted", "recovery.go:DecodedMnemonic.DecryptSeed"]}
{"id": "C03", "title": "Phrase bit layout conforms to the specification", "statement": "The integer spelled by the words of an encoded phrase (12 bits per word, most significant first) is version(4) || seed(128) || creationOffset(31) || checksum(5) for plaintext phrases and version(4) || AES-128(seed)(128) || salt(19) || encSeedVerify(5) || creationOffset(31) || checksum(5) for encrypted ones, the checksum being the low 5 bits of CRC-32/IEEE of the big-endian payload bytes.", "quantifier": "every seed, offset, password, salt", "why_tests_cant": "A wrong field order or width round-trips against itself, so round-trip tests pass while phrases stop being interoperable with other implementations of the spec.", "anchors": ["encoding.go", "README.md#Mnemonic Encoding"]}
{"id": "C04", "title": "Plaintext phrases are canonical", "statement": "If DecodeMnemonic accepts a version 0 phrase, then re-encoding the decoded seed and offset gives back the same phrase (lower-cased); hence two different lower-case phrases never decode to the same plaintext payload.", "quantifier": "every list of strings accepted by the decoder", "why_tests_cant": "Ranges over all 4096^14 phrases.", "anchors": ["recovery.go:DecodeMnemonic", "encoding.go:EncodeMnemonicPlaintext"]}
{"id": "C05", "title": "Encrypted phrases are canonical", "statement": "If DecodeMnemonic accepts a version 1 phrase and DecryptSeed(password) succeeds with some seed, then encrypting that seed with that password, the same offset and the same salt yields back the same phrase (lower-cased).", "quantifier": "every accepted encrypted phrase and every password that passes the verification bits", "why_tests_cant": "Ranges over all 4096^16 phrases and all passwords.", "anchors": ["recovery.go:DecodedMnemonic.DecryptSeed", "encoding.go:EncodeMnemonicEncrypted"]}
{"id": "C06", "title": "Phrase decoding is total and accepts exactly the valid phrases", "statement": "DecodeMnemonic never panics, and it succeeds if and only if the phrase is non-empty, every word is (case-insensitively) in the wordlist, the version in the first word is 0 or 1, the word count is the one of that version, and the checksum matches. Otherwise it returns an error that identifies the first failed check.", "quantifier": "every list of strings, of any length and content", "why_tests_cant": "Acceptance and absence of panics must hold for arbitrary user input.", "anchors": ["recovery.go:DecodeMnemonic", "recovery.go:ParseMnemonicVersion", "mnemonic/decode.go", "bit_buffer.go"]}
{"id": "C07", "title": "Phrase decoding ignores letter case", "statement": "Changing the case of any letters in a phrase never changes the result of DecodeMnemonic, DecodeWords or ParseMnemonicVersion.", "quantifier": "every phrase and every per-letter case change", "why_tests_cant": "All case variants of all phrases.", "anchors": ["recovery.go:ParseMnemonicVersion", "mnemonic/decode.go:DecodeWords"]}
{"id": "C08", "title": "Checksum coverage of one wrong word", "statement": "Replacing one word of a valid phrase by another word keeps the phrase acceptable for exactly 127 of the 4095 other words, at every position but the first (README: 128 collisions per word counting the right one), and for exactly 7 of them at the first position of a plaintext phrase; every other single-word replacement is rejected.", "quantifier": "every valid phrase, every word position, every replacement word", "why_tests_cant": "An exact count over all phrases needs the linear structure of the checksum; the test tries one substitution.", "anchors": ["recovery.go:DecodeMnemonic", "encoding.go:encodeMnemonic", "README.md#Checksum"]}
{"id": "C09", "title": "Checksum coverage of swapped words", "statement": "Exchanging two words at given positions (none being the first) of a valid phrase goes unnoticed if and only if the exclusive-or of their word numbers lies in a fixed set determined by the two positions only; for two adjacent positions this set has exactly 128 members (127 actual swaps per word).", "quantifier": "every valid phrase and every pair of positions", "why_tests_cant": "Ranges over all phrases.", "anchors": ["recovery.go:DecodeMnemonic", "encoding.go:encodeMnemonic"]}
{"id": "C10", "title": "Error detection is independent of the secret", "statement": "Whether a same-version corruption (a bit difference pattern applied to the phrase) is detected depends only on the difference pattern, never on the seed, offset or version bits; and some single-bit corruptions are never detected, at positions listed explicitly.", "quantifier": "every valid phrase and every difference pattern", "why_tests_cant": "Universal over phrases and patterns.", "anchors": ["recovery.go:DecodeMnemonic", "hash/crc32 usage in encoding.go"]}
{"id": "C11", "title": "Version dispatch from the first word", "statement": "ParseMnemonicVersion(first word) succeeds exactly for the first 512 words of the list, agrees with the version reported by DecodeMnemonic and with the leading 4 payload bits, and MnemonicSize of it is exactly the number of words (14 or 16) the encoder emits and the decoder requires.", "quantifier": "every word, every accepted phrase", "why_tests_cant": "Must hold for each of 4096 first words in combination with every tail.", "anchors": ["recovery.go:ParseMnemonicVersion", "version.go"]}
{"id": "C12", "title": "Password verification semantics", "statement": "DecryptSeed on an encrypted phrase returns ErrMnemonicDecryption exactly when the low five bits of the 17th key byte derived from the supplied password differ from those in the phrase, and otherwise returns a seed; the password used at encryption never gets that error; Seed() on an encrypted phrase always returns ErrMnemonicDecryption; DecryptSeed on a plaintext phrase equals Seed() for every password.", "quantifier": "every decoded phrase and every password", "why_tests_cant": "All passwords.", "anchors": ["recovery.go:DecodedMnemonic.DecryptSeed", "recovery.go:DecodedMnemonic.Seed"]}
{"id": "C13", "title": "Converting a phrase preserves the keys", "statement": "Decoding any phrase and re-encoding its seed and offset as plaintext or under a new password gives a phrase from which exactly the same Mnemonikey is recovered, for all key options; this holds for any sequence of conversions.", "quantifier": "every valid phrase, every sequence of conversions with arbitrary passwords and salts, all key options", "why_tests_cant": "Histories of conversions of unbounded length.", "anchors": ["cmd/mnemonikey/convert.go:decodeAndConvertPhrase", "recovery.go", "encoding.go"]}
{"id": "C14", "title": "Recovery reproduces the original key", "statement": "For a Mnemonikey built by New(seed, time, opts), RecoverPlaintext of its plaintext phrase, and RecoverEncrypted of its encrypted phrase with the password, under options opts2, return exactly what New(seed, time, opts2) returns: same secrets, fingerprints, creation time, user ID, expiry and exported packets.", "quantifier": "every seed, creation time accepted by New, options, password, salt", "why_tests_cant": "Universal over secrets, times and options.", "anchors": ["recovery.go:RecoverPlaintext", "recovery.go:RecoverEncrypted", "mnemonikey.go:New", "mnemonikey.go:Mnemonikey.EncodeMnemonicPlaintext"]}
{"id": "C15", "title": "Creation time window and rounding", "statement": "New succeeds exactly when TTL >= 0 and EpochStart <= creation <= EpochStart+(2^31-1)s; then CreatedAt is the largest whole second not after creation, so the encoded offset is in [0,2^31) and never makes phrase encoding panic. Otherwise the error is TTL, too-late, too-early in that order.", "quantifier": "every instant (nanosecond resolution), TTL, seed", "why_tests_cant": "Boundary behaviour over a continuum of instants.", "anchors": ["mnemonikey.go:New", "mnemonikey.go:Mnemonikey.creationOffset", "parameters.go:MaxCreationTime"]}
{"id": "C16", "title": "Sub-second time does not matter", "statement": "New yields the same Mnemonikey for any two creation instants within the same UTC second, so clock precision and time zone never change the key.", "quantifier": "every pair of instants in the same second", "why_tests_cant": "Universal over instants.", "anchors": ["mnemonikey.go:New"]}
{"id": "C17", "title": "Phrase encoders do not panic on values their types allow", "statement": "EncodeMnemonicPlaintext/EncodeMnemonicEncrypted never panic for any Seed returned by NewSeed and any uint32 offset. (Expected: holds exactly for non-negative seeds and offsets below 2^31; refuted otherwise.)", "quantifier": "every Seed obtainable from NewSeed/GenerateSeed/decoding and every uint32", "why_tests_cant": "Needs the exact panic set over the whole type.", "anchors": ["encoding.go:EncodeMnemonicPlaintext", "bit_buffer.go:AppendTrailingBits", "seed.go:NewSeed"]}
{"id": "C18", "title": "Seed domain", "statement": "NewSeed succeeds exactly for a supported era and an integer of at most 128 bits; Int() and Bytes() then represent the same number as 16 big-endian bytes. (The check uses the absolute value: negative integers are accepted and Int() disagrees with Bytes() for them.)", "quantifier": "every integer and era", "why_tests_cant": "Unbounded integers.", "anchors": ["seed.go:NewSeed", "seed.go:Seed.Bytes"]}
{"id": "C19", "title": "Seed generation keeps all the entropy", "statement": "GenerateSeed maps the first 16 bytes of the random source one-to-one onto all seeds: each of the 2^128 seeds comes from exactly one 16-byte string, no byte is rejected or reused, and a source with fewer than 16 bytes yields an error, never a weaker seed.", "quantifier": "every random source content", "why_tests_cant": "Uniformity is a statement about all 2^128 inputs.", "anchors": ["seed.go:GenerateSeed"]}
{"id": "C20", "title": "Salt generation", "statement": "The salt of an encrypted phrase takes every value in [0,2^19), each for exactly 32 of the 2^24 three-byte strings read from the random source, and a short read is an error.", "quantifier": "every random source content", "why_tests_cant": "Distributional statement over all inputs.", "anchors": ["encoding.go:EncodeMnemonicEncrypted"]}
{"id": "C21", "title": "Bit buffer behaves as a bit string", "statement": "For any buffer, appending a value at either end and popping as many bits from that end returns the value and restores the buffer; popping n bits from an end returns the n extreme bits of the bit string and leaves the others; Bytes() is the zero-padded big-endian form; reads or appends out of range panic and nothing else does.", "quantifier": "every buffer content, size and sequence of operations", "why_tests_cant": "Sizes and contents unbounded; tests use 20-bit literals.", "anchors": ["bit_buffer.go"]}
{"id": "C22", "title": "Word index codec round-trip", "statement": "mnemonic.DecodeIndices(mnemonic.EncodeToIndices(n, bitSize)) = n with exactly ceil(bitSize/12) indices for every n of at most bitSize bits and every bitSize whose indices fit a Go slice (up to 12*2^47), with unused space in the leading word; conversely every index list of at most 12-bit values is reproduced by encoding its decoding at size 12*len; larger n or indices are refused with an error. EncodeToIndices panics exactly for negative n that fit, for larger bitSize up to MaxUint-11, and for n > 0 within 11 of MaxUint; there 0 gets no index at all, against the documented ceil(bitSize/12).", "quantifier": "every integer, uint bit size and index list", "why_tests_cant": "Unbounded sizes.", "anchors": ["mnemonic/encode.go:EncodeToIndices", "mnemonic/decode.go:DecodeIndices"]}
{"id": "C23", "title": "Word index codec leaves its argument alone", "statement": "EncodeToIndices does not change the integer passed by the caller. (Refuted: the caller's big.Int is shifted down to zero.)", "quantifier": "every integer", "why_tests_cant": "Aliasing effect on the caller's value.", "anchors": ["mnemonic/encode.go:EncodeToIndices"]}
{"id": "C24", "title": "Word codec round-trip", "statement": "mnemonic.DecodeWords(EncodeToWords(is)) = is for every list of indices below 4096, EncodeToWords refuses others with ErrInvalidIndex without panicking, DecodeWords refuses exactly lists containing a non-wordlist word, and EncodeToWords(DecodeWords(ws)) is ws in lower case.", "quantifier": "every index list and word list", "why_tests_cant": "Unbounded lists.", "anchors": ["mnemonic/encode.go:EncodeToWords", "mnemonic/decode.go:DecodeWords"]}
{"id": "C25", "title": "Key derivation domain separation", "statement": "The HKDF info strings of the master key and of the subkeys are pairwise distinct: the info determines the key role and, for subkeys, the type and the 16-bit index.", "quantifier": "every role and every pair of indices in [0,65535]", "why_tests_cant": "3*65536+1 strings pairwise.", "anchors": ["derive.go:keyExpandInfoSubkey", "derive.go:keyExpandInfoMaster"]}
{"id": "C26", "title": "Subkeys are independent of one another", "statement": "Each key's secret depends only on seed, creation second and its own role and index: changing other subkeys' indices, which subkeys are selected, name, email or TTL never changes the master key secret or fingerprint, nor that subkey's.", "quantifier": "every seed, time, pair of option sets", "why_tests_cant": "Non-interference over all option pairs.", "anchors": ["derive.go:derivePGPKeySet", "key_options.go"]}
{"id": "C27", "title": "Subkey selection", "statement": "With a nil Subkeys list all three subkeys are derived; otherwise exactly the requested ones; SubkeyTypes reports exactly those in the order encryption, authentication, signing, and SubkeyFingerprint(t) is nil exactly when t is not among them.", "quantifier": "every Subkeys list, including nil, empty, duplicates and unknown strings", "why_tests_cant": "Lists unbounded; nil versus empty distinction.", "anchors": ["key_options.go:subkeyEnabled", "mnemonikey.go:SubkeyTypes", "mnemonikey.go:SubkeyFingerprint"]}
{"id": "C28", "title": "Unencrypted export is deterministic", "statement": "EncodePGP and EncodeSubkeysPGP without password consume no randomness and depend only on seed, creation second and options; in particular recovery at any later date yields byte-identical output.", "quantifier": "every key, option set and random source state", "why_tests_cant": "Requires independence from all ambient state.", "anchors": ["pgp/key_set.go:EncodePackets", "pgp/sign.go:Sign"]}
{"id": "C29", "title": "User ID encoding", "statement": "UserID is name, email, or 'name <email>'; supplying the complete user ID string as the name with an empty email yields exactly the same exported key as the original name and email.", "quantifier": "every name and email byte string", "why_tests_cant": "Unbounded strings.", "anchors": ["pgp/user_id.go", "recovery.go:RecoverPlaintext doc"]}
{"id": "C30", "title": "Export is a well-formed OpenPGP packet sequence in the specified order", "statement": "An independent OpenPGP new-format packet reader applied to EncodePGP output returns exactly: secret key(5), user ID(13), certification(2), then for each selected subkey a secret subkey packet(7) immediately followed by its binding signature(2), nothing else; EncodeSubkeysPGP the same with a master stub and optional certification.", "quantifier": "every key, options, password, user ID length", "why_tests_cant": "Packet lengths cross 1/2/5-octet boundaries depending on user ID; all must parse.", "anchors": ["pgp/key_set.go", "pgp/packet.go", "pgp/signature.go"]}
{"id": "C31", "title": "Subkey order is a function of the master key", "statement": "For a given master key any two subkeys appear in the same relative order in every export, whichever other subkeys are included, and every selected subkey appears exactly once whatever the shuffle draws.", "quantifier": "every master key, every pair of subsets, every random generator behaviour", "why_tests_cant": "All shuffles and subsets.", "anchors": ["pgp/key_set.go:encodeAllSubkeyPackets"]}
{"id": "C32", "title": "Subkey-only export never contains the master secret", "statement": "In EncodeSubkeysPGP output the master key packet is its public key followed by the fixed GNU-dummy marker, and the output depends on the master secret only through the public key, the signatures made with it, and the packet order.", "quantifier": "every key set, password, flag", "why_tests_cant": "Absence of information flow for all secrets.", "anchors": ["pgp/ecc_key.go:encodePrivateDummy", "pgp/key_set.go:EncodeSubkeyPackets"]}
{"id": "C33", "title": "Password-protected export decrypts to the same secrets", "statement": "With a non-empty password every secret key packet of the export is S2K-protected (usage 254, AES-256, iterated-salted SHA-256), and an independent RFC 4880 reader with the password recovers the exact secret scalar and a correct SHA-1 trailer; with an empty password the packets are cleartext and the reader recovers the same secrets and checks the 16-bit sum.", "quantifier": "every secret, password, salt, IV", "why_tests_cant": "All secrets, including those with leading zero bytes, all passwords and salts.", "anchors": ["pgp/s2k.go:EncryptS2K", "pgp/ecc_key.go:encodePrivate", "pgp/mpi.go"]}
{"id": "C34", "title": "All signatures in an export verify", "statement": "An independent OpenPGP v4 verifier accepts the self-certification over (master public key, user ID), each subkey binding over (master, subkey), and the embedded cross-certification by the signing subkey; the left 16 hash bits match and the signature time equals the key creation time.", "quantifier": "every key set and user ID", "why_tests_cant": "Signature and MPI encodings depend on leading zero bits of the signature, all of which must work.", "anchors": ["pgp/sign.go:Sign", "pgp/master_key.go:SelfCertify", "pgp/master_key.go:BindSubkey", "pgp/signature.go"]}
{"id": "C35", "title": "Key roles", "statement": "Master: EdDSA with certify flag; encryption subkey: ECDH, flags 0x0C and KDF SHA-256/AES-128; authentication: EdDSA flag 0x20; signing: EdDSA flag 0x02 with cross-certification, and only the signing subkey carries one. BindSubkey never panics.", "quantifier": "every key set", "why_tests_cant": "Must hold for each exported key.", "anchors": ["pgp/key_set.go", "pgp/master_key.go:BindSubkey"]}
{"id": "C36", "title": "Expiry", "statement": "If TTL is a whole number of seconds in [1, 2^32) then every certification and binding signature carries a key expiration of exactly TTL seconds and Expiry() is CreatedAt+TTL; with TTL 0 none carries one and Expiry() is zero. For every accepted TTL the OpenPGP meaning of the export agrees with Expiry(). (Refuted below 1 s: exported as never expiring; and from 2^32 s: not representable.)", "quantifier": "every TTL accepted by New", "why_tests_cant": "All durations, including sub-second and very large ones.", "anchors": ["derive.go:derivePGPKeySet", "pgp/master_key.go:SelfCertify", "pgp/master_key.go:BindSubkey"]}
{"id": "C37", "title": "Packet length codec", "statement": "packetLengthEncode followed by the RFC 4880 length reader (packet and subpacket variants) returns the original size and consumes exactly the encoded octets; the encoding is the shortest one and never a partial-length header.", "quantifier": "every size in [0,2^32)", "why_tests_cant": "Boundaries at 191/192 and 8383/8384 and all sizes between.", "anchors": ["pgp/packet.go:packetLengthEncode", "pgp/signature.go:Subpacket.Encode"]}
{"id": "C38", "title": "MPI codec", "statement": "Reading an encoded MPI returns the integer and leaves the following bytes, with no leading zero byte, for every non-negative integer of at most 65535 bits; the two-byte checksum is the byte sum modulo 65536.", "quantifier": "every integer", "why_tests_cant": "Unbounded integers.", "anchors": ["pgp/mpi.go"]}
{"id": "C39", "title": "S2K iteration count", "statement": "The key is the hash of exactly the first 65011712 bytes of the infinite repetition of salt||password, as RFC 4880 prescribes, whenever salt||password is not longer than that; the decoded count formula matches the RFC for every coded byte.", "quantifier": "every salt and password, every coded count", "why_tests_cant": "Lengths dividing or not dividing the count.", "anchors": ["pgp/s2k.go:stringToKey", "pgp/s2k.go:s2kCountDecode"]}
{"id": "C40", "title": "Fingerprints commit to creation time and public key", "statement": "The fingerprint preimage is 0x99 || 2-byte length || public key payload, and the payload determines creation second, algorithm, curve, public point and KDF parameters uniquely; so equal preimages mean the same key and time.", "quantifier": "every pair of keys", "why_tests_cant": "Injectivity over all keys.", "anchors": ["pgp/ecc_key.go:encodePublic", "pgp/ecc_key.go:FingerprintV4"]}
{"id": "C41", "title": "Curve25519 secret export", "statement": "The exported encryption secret, read as a big-endian integer, is the clamped little-endian scalar of the derived seed (multiple of 8, bit 254 set, bits above clear), always encoded as a 255-bit MPI of 32 bytes; its public key is the one of the exported scalar.", "quantifier": "every 32-byte seed", "why_tests_cant": "2^256 seeds.", "anchors": ["pgp/encryption_subkey.go:NewCurve25519Subkey", "pgp/encryption_subkey.go:reverse"]}
{"id": "C42", "title": "TTL parsing", "statement": "parseTTL accepts exactly <decimal><d|w|m|y> (unit case-insensitive, quantity below 2^64) and returns quantity times the unit. (Refuted for quantities whose product exceeds int64: the result silently wraps, e.g. to a shorter period.)", "quantifier": "every string", "why_tests_cant": "Unbounded strings; overflow region.", "anchors": ["cmd/mnemonikey/expiry.go:parseTTL"]}
{"id": "C43", "title": "-only option", "statement": "DecodeOnlyKeyTypes: empty means master plus all subkeys; otherwise the comma separated list is accepted iff every element is one of the four names, the master secret is exported iff 'master' is listed, and exactly the listed subkeys are derived ('master' alone derives no subkeys).", "quantifier": "every option string", "why_tests_cant": "Unbounded strings.", "anchors": ["cmd/mnemonikey/common_opts.go:DecodeOnlyKeyTypes", "cmd/mnemonikey/recover.go:recoverAndPrintKey"]}
{"id": "C44", "title": "Subkey index option bounds", "statement": "mnemonikey recover rejects any index above 65535 before reading the phrase and otherwise derives the subkeys at exactly the given indices (no wrap-around); the text of an index is read as a Go integer literal (bases 2, 8, 10, 16, single underscores between digits) below 2^64, anything else is refused with status 2.", "quantifier": "every triple of unsigned integers, every text", "why_tests_cant": "64-bit domain.", "anchors": ["cmd/mnemonikey/recover.go:recoverAndPrintKey"]}
{"id": "C45", "title": "Word file round-trip", "statement": "A phrase saved with -out-word-file is read back by -in-word-file as exactly the same words; more generally readWordFile succeeds only with a list of wordlist words of the length required by the first word. Words may be separated by any Unicode white space.", "quantifier": "every phrase, every file content", "why_tests_cant": "All file contents.", "anchors": ["cmd/mnemonikey/generate.go:saveMnemonic", "cmd/mnemonikey/recover.go:readWordFile"]}
{"id": "C46", "title": "Word file never overwrites", "statement": "saveMnemonic leaves every existing path unchanged and fails on it; on success only the new path is created, with exactly the words. Under a concurrent creation between its check and its write this is refuted.", "quantifier": "every file system state, every interleaving with one other writer", "why_tests_cant": "Race window.", "anchors": ["cmd/mnemonikey/generate.go:saveMnemonic"]}
{"id": "C47", "title": "Crash during word file save", "statement": "If the process dies while writing the word file, reading the partial file later yields an error or the complete phrase, never a different phrase (for a word list in which no word is a proper prefix of another).", "quantifier": "every phrase and crash point", "why_tests_cant": "Every crash offset.", "anchors": ["cmd/mnemonikey/generate.go:saveMnemonic", "cmd/mnemonikey/recover.go:readWordFile"]}
{"id": "C48", "title": "convert honours its output options", "statement": "mnemonikey convert -out-word-file F writes the converted phrase to F, and -in-word-file reads without touching the input. (Refuted: the output option is ignored and the input path is used for output, so every conversion from a file fails.)", "quantifier": "every file system state, phrase and option combination", "why_tests_cant": "All option combinations.", "anchors": ["cmd/mnemonikey/convert.go:decodeAndConvertPhrase"]}
{"id": "C49", "title": "Interactive phrase entry", "statement": "Whatever keys are typed, if the raw entry mode returns without error every returned word is in the wordlist, and if the left arrow was never used the number of words is the one of the version of the first word and they are the submitted words in order.", "quantifier": "every keystroke sequence", "why_tests_cant": "Unbounded keystroke histories.", "anchors": ["cmd/mnemonikey/word_input.go:userInputMnemonic"]}
{"id": "C50", "title": "Left arrow revises the previous word", "statement": "After pressing left arrow and re-entering a word, the returned phrase contains the revised word in place of the previous one. (Refuted: the old word stays, so any session that used the left arrow returns a wrong number of words.)", "quantifier": "every keystroke sequence containing a left arrow", "why_tests_cant": "Histories.", "anchors": ["cmd/mnemonikey/word_input.go:userInputMnemonic", "README.md"]}
{"id": "C51", "title": "Simple phrase entry", "statement": "The simple entry mode returns only when the number of accepted lines equals the size given by the first accepted word, returns exactly the accepted lines (trimmed, lower-cased) in order, skipping rejected ones, and fails at end of input.", "quantifier": "every sequence of input lines", "why_tests_cant": "Unbounded histories.", "anchors": ["cmd/mnemonikey/word_input.go:userInputMnemonicSimple"]}
{"id": "C52", "title": "Password prompt", "statement": "Under every interleaving of the reader, the interrupt and the selector, the prompt returns at most one result; a returned password is non-empty, was typed, and when confirmation is requested was typed twice in a row; an interrupt with no password delivered gives an error.", "quantifier": "every schedule, every sequence of typed lines, interrupt at any point", "why_tests_cant": "Scheduling.", "anchors": ["cmd/mnemonikey/word_input.go:userInputPassword"]}
{"id": "C53", "title": "Phrase password retry", "statement": "decodeMnemonicFromInput keeps asking until a password passes verification and returns the seed for the first such password; it never asks for a plaintext phrase.", "quantifier": "every sequence of typed passwords", "why_tests_cant": "Unbounded histories.", "anchors": ["cmd/mnemonikey/recover.go:decodeMnemonicFromInput"]}
{"id": "C54", "title": "Text wrapping terminates", "statement": "justifyWidth terminates for every text and width, each line is at most indent+width columns, and no word is lost. (Holds when each word plus one fits the width; otherwise refuted: it loops forever, and for width and indent zero it panics.)", "quantifier": "every text, indent and terminal width", "why_tests_cant": "Termination is not testable.", "anchors": ["cmd/mnemonikey/terminal.go:justifyWidth", "cmd/mnemonikey/generate.go:printMnemonic"]}
{"id": "C55", "title": "Command dispatch", "statement": "For every argument vector the root command runs exactly the named subcommand with the remaining arguments, prints usage at most once, and exits with failure exactly when the subcommand fails or the usage is wrong.", "quantifier": "every argument vector and subcommand outcome", "why_tests_cant": "Unbounded argument lists.", "anchors": ["cmd/mnemonikey/main.go", "cmd/mnemonikey/command.go:Run"]}
{"id": "C56", "title": "generate then recover", "statement": "The phrase produced by 'generate' (printed or saved), given to 'recover' with the same user ID, TTL, key selection and zero indices, prints byte-for-byte the same armored key when keys are not password protected, with or without phrase encryption.", "quantifier": "every random source, clock reading, option set and phrase password", "why_tests_cant": "End-to-end over all secrets and options.", "anchors": ["cmd/mnemonikey/generate.go:generateAndPrintKey", "cmd/mnemonikey/recover.go:recoverAndPrintKey"]}
{"id": "C57", "title": "Fresh salt and IV for every protected secret", "statement": "In a password-protected export the salt and IV of each secret key packet are 24 bytes of the random source that no other packet uses: the master takes the first 24 in a full export, then the encryption, authentication and signing subkeys in that order, whatever order they are written in.", "quantifier": "every key set, export form, password and random source", "why_tests_cant": "Reuse would show only for particular subkey subsets and orders; all must be disjoint.", "anchors": ["pgp/s2k.go:EncryptS2K", "pgp/key_set.go:EncodePackets", "pgp/key_set.go:EncodeSubkeyPackets"]}
{"id": "C58", "title": "Reported identity matches the export", "statement": "Fingerprint, SubkeyFingerprint, UserID, CreatedAt and SubkeyTypes of a Mnemonikey equal what an independent OpenPGP reader computes from the exported key: the fingerprint of the master and of the subkey with that role, the user ID packet, the creation second of every key, and one type per exported subkey.", "quantifier": "every seed, creation time, option set, export form and password", "why_tests_cant": "Tests compare a few fixed fingerprints with constants; agreement must hold for every key.", "anchors": ["mnemonikey.go:Fingerprint", "mnemonikey.go:SubkeyFingerprint", "pgp/ecc_key.go:FingerprintV4"]}
{"id": "C59", "title": "Public packets", "statement": "EncodePublicPacket and EncodePublicSubkeyPacket produce one packet with tag 6 resp. 14 whose body reads as exactly the public key of the exported secret packet. FingerprintV5 is SHA-256 of 0x9A, a four-byte length and that version-4 body.", "quantifier": "every key set and export", "why_tests_cant": "No test calls these functions; the claim covers all keys.", "anchors": ["pgp/ecc_key.go:FingerprintV5", "pgp/master_key.go:EncodePublicPacket", "pgp/encryption_subkey.go:EncodePublicSubkeyPacket"]}
{"id": "C60", "title": "Content of the self-certification", "statement": "The self-certification hashes exactly the subpackets of the README in the README's order, with its key flags, hash and compression preferences, features and key server preferences. Its cipher preferences are refuted: Triple-DES follows AES256 AES192 AES128 in every export.", "quantifier": "every key set, with and without expiry, and every export with a certification", "why_tests_cant": "Tests never parse the signature; presence of the expiry subpacket varies.", "anchors": ["pgp/master_key.go:SelfCertify", "README.md:709-728"]}
{"id": "C61", "title": "Subkeys in the order of the README", "statement": "The README's serialization order (encryption, authentication, signing) is refuted: the code shuffles the subkeys with a generator seeded by the master secret, and an export can have them as authentication, signing, encryption.", "quantifier": "existential witness", "why_tests_cant": "A test with one fixed seed sees one order.", "anchors": ["pgp/key_set.go", "README.md:686-699"]}
{"id": "C62", "title": "Words typed in raw mode are wiped from the terminal", "statement": "Whatever keys are pressed and however phrase entry ends (all words, Ctrl-C, Ctrl-D, end of input), on a terminal where nothing typed reaches the last column only two rows differ from the screen before: the row of the word is blank, and the row below shows fixed notices only. When a word is longer than the line this is refuted: typed letters stay.", "quantifier": "every environment with a valid word list, kind of terminal (knowing either or both ways to save the cursor), window size (at least two rows), prior screen content and key sequence", "why_tests_cant": "Tests have no terminal and look at no drawn output; key sequences and screen states are infinite.", "anchors": ["cmd/mnemonikey/word_input.go:33-165", "cmd/mnemonikey/terminal.go:16-58"]}
{"id": "C63", "title": "Words typed in simple mode are wiped from the terminal", "statement": "If every typed line ends with Enter, simple phrase entry leaves on the screen only the prompt (if the input ended) and fixed notices; all other rows are unchanged. For a last line ended by the end of input this is refuted: the word stays visible.", "quantifier": "every environment with a valid word list, kind of terminal, window, prior screen and list of printable lines", "why_tests_cant": "Tests do not emulate a terminal.", "anchors": ["cmd/mnemonikey/word_input.go:171-223"]}
{"id": "C64", "title": "A printed phrase reads back", "statement": "printMnemonic never panics on up to 999 words and shows, escape sequences removed, one line for each word in order, numbered from 1 in decimal, every word starting in the same column.", "quantifier": "every list of up to 999 words", "why_tests_cant": "The CLI is not covered by tests; alignment depends on the number of digits.", "anchors": ["cmd/mnemonikey/generate.go:177-185"]}
{"id": "C65", "title": "Verbose output tells the identity of the exported key", "statement": "printKeyDebugInfo never panics and shows an aligned table: the hex fingerprint, user ID, creation time and (iff a TTL was set) expiry time of the key as an OpenPGP reader sees it in the export, and under its name the fingerprint of each exported subkey.", "quantifier": "every Mnemonikey made by New, every export of it, every quoting and time format without escapes", "why_tests_cant": "No test reads verbose output or compares it with the exported packets.", "anchors": ["cmd/mnemonikey/terminal.go:111-146"]}
{"id": "C66", "title": "Armored exports are the binary exports", "statement": "EncodePGPArmor and EncodeSubkeysPGPArmor succeed exactly when 24 bytes of randomness are available for each secret key (none without a password). Their text, read by an RFC 4880 armor reader that checks the CRC-24, is a PGP PRIVATE KEY BLOCK holding exactly the bytes EncodePGP / EncodeSubkeysPGP return for the same arguments: a transferable key with the reported fingerprint, the user ID built from name and email, a self-certification iff the form has one, the master secret or a stub, and one subkey for every requested kind with its usage and reported fingerprint, all secrets unlocked by the password, all lifetimes the TTL in whole seconds (if below 2^32).", "quantifier": "every seed, creation time, options with bytes as user ID, password up to 65011704 bytes, random source, form of export", "why_tests_cant": "Tests import a handful of armored keys into gpg; they compare no armored text with the binary export and no selection of subkeys.", "anchors": ["mnemonikey.go:151-211", "mnemonikey.go:235-248"]}
{"id": "C67", "title": "What generate and recover print is the key asked for", "statement": "When generate or recover succeeds it has written to standard output one armored key block and a newline, readable whatever newlines of password prompts precede or follow it. It holds the key of the entered phrase (generate: of the drawn seed and the present time) under the trimmed name and email, with the subkeys of -only, the master secret iff -only includes it or is absent, the certification as -self-cert says, encrypted under the password entered twice iff -encrypt-keys was given, expiring after -ttl (never without it). Recover succeeds whenever the phrase decodes, the options are in range and enough randomness is available.", "quantifier": "every state of files, terminal and random source, every option values, every phrase and password typed", "why_tests_cant": "The CLI has no tests; the statement is about all option combinations and inputs.", "anchors": ["cmd/mnemonikey/generate.go:64-175", "cmd/mnemonikey/recover.go:137-205", "cmd/mnemonikey/word_input.go:230-292"]}
{"id": "C68", "title": "Phrase and key properties hold with the standard algorithms", "statement": "With Argon2id (RFC 9106), AES (FIPS 197), SHA-1/SHA-2 (FIPS 180-4), HKDF-Expand (RFC 5869), X25519 (RFC 7748) and Ed25519 (RFC 8032) in place of the cryptographic packages, everything the other properties assume of those packages is true: digests, derived keys, public keys and signatures have their lengths, AES decryption inverts encryption for every key, X25519 ignores the masked bits. So the encrypted phrase round trip, recovery of the same key from either kind of phrase, and preservation of the key by any chain of conversions hold with no assumption but that the word list has 4096 distinct lower-case words; the export properties keep only math/rand's range and that Ed25519 verification accepts Ed25519 signatures.", "quantifier": "every seed, time, options, password, salt, key, block and message", "why_tests_cant": "Tests run the real packages on a few values; that AES inverts itself or that a phrase round-trips is a statement about all keys and passwords.", "anchors": ["encoding.go:72-130", "recovery.go:70-128", "derive.go:38-66", "pgp/encryption_subkey.go:29-74"]}
{"id": "C69", "title": "Fingerprints are a fixed function of seed and creation second", "statement": "The fingerprint of the master key, and of each subkey present, is SHA-1 over 0x99, a two-byte length and the version 4 key body with the creation second, algorithm 22 (Ed25519) or 18 (Curve25519 with KDF parameters 3,1,8,7) and the public point, where the secret is HKDF-Expand-SHA256 of Argon2id(seed as 16 bytes, second as 4 bytes, 4 passes, 512 MiB, 2 lanes, 32 bytes) under the label of the role and, for subkeys, its 16-bit index. Subkeys not present have none. Name, email, TTL, other subkeys and sub-second time have no influence.", "quantifier": "every seed, creation time in the window, options", "why_tests_cant": "Tests pin three fingerprints of one seed.", "anchors": ["derive.go:25-122", "pgp/ecc_key.go:28-113", "mnemonikey.go:106-145"]}
{"id": "C70", "title": "Command-line options mean what they say", "statement": "Settings given as -name=value, --name=value, -name value or (switches) -name, in any order and repeated, reach the command as the last value given for each option, every other option has its documented default, and what follows the options is ignored. Every argument vector is either such settings, or settings followed by -h/-help (help, status 0), or settings followed by an unknown option, a malformed option, a value that does not fit or a missing value (help, status 2, nothing else happens).", "quantifier": "every command, every argument vector, every state", "why_tests_cant": "Argument vectors are unbounded; the CLI has no test of its options.", "anchors": ["cmd/mnemonikey/common_opts.go", "cmd/mnemonikey/command.go:27-94", "cmd/mnemonikey/generate.go:39-58", "cmd/mnemonikey/recover.go:44-76", "cmd/mnemonikey/convert.go:30-42"]}
{"id": "C71", "title": "Help shows every option", "statement": "On a terminal of unknown size or at least 42 columns, the visible words of a command's help are its name, its description, its examples and, in the order of their names, exactly the options the command accepts, each with the name of its value, its whole description and the default that is really used.", "quantifier": "every command, every terminal width from 42", "why_tests_cant": "Wrapping differs for every width.", "anchors": ["cmd/mnemonikey/command.go:35-74", "cmd/mnemonikey/terminal.go:60-109"]}
{"id": "C72", "title": "Examples in the help work", "statement": "Every usage example a command shows in its help is a command line it accepts. (Refuted: convert shows 'mnemonikey convert -encrypt', which exits with status 2 because the option is called -encrypt-phrase; all others are accepted with valid values.)", "quantifier": "every example of every command, every state", "why_tests_cant": "The CLI has no tests; help texts are not executed by anything.", "anchors": ["cmd/mnemonikey/convert.go:20-30", "cmd/mnemonikey/generate.go:28-38", "cmd/mnemonikey/recover.go:29-43"]}
{"id": "C73", "title": "Signatures verify by RFC 8032", "statement": "For every 32-byte secret and every message, what Ed25519 signing produces is accepted by RFC 8032 verification under the derived public key, both as a point equation and as a comparison of encodings. So every certification, subkey binding and cross-certification in every export verifies by the algorithm of RFC 8032, with no assumption about cryptography.", "quantifier": "every key, message, key set, form of export, password", "why_tests_cant": "2^256 keys and unbounded messages; needs the group law of the curve, the order of the base point and the primality of 2^255-19.", "anchors": ["pgp/sign.go", "pgp/master_key.go", "pgp/ed25519_subkey.go", "pgp/key_set.go"]}
{"id": "C74", "title": "Convert shows the same seed under the confirmed password", "statement": "Every phrase convert shows encodes the seed and the creation time of the phrase that was read, decrypted with a password that was typed on a line after it if it is encrypted. With -encrypt-phrase it is encrypted with a non-empty password typed on two consecutive lines after everything read for the old phrase; without the option it is not encrypted. Convert succeeds whenever the old phrase can be decoded and the new password is repeated; if the new password is never repeated it fails and shows no phrase and writes no file.", "quantifier": "every options, word list, phrase, input, random bytes, state of the file system", "why_tests_cant": "convert has no tests; needs every sequence of typed lines, including blank ones, wrong old passwords and mismatched new ones.", "anchors": ["cmd/mnemonikey/convert.go:48-85", "cmd/mnemonikey/recover.go:82-135", "cmd/mnemonikey/word_input.go:230-291"]}
{"id": "C75", "title": "The commands with the actual runtime library", "statement": "With Go's strings, math/rand, float64 arithmetic, armor encoder and the standard cryptographic algorithms in place, everything the other properties assume of external code except the word list and its Search holds. So a lifetime of n whole seconds (1 <= n < 2^32; the TTL is cut to seconds first) is exported as exactly n; generate and recover print the armored key that was asked for; and recovering from the phrase generate showed prints the same bytes.", "quantifier": "every word list, key, options, time, input, random bytes", "why_tests_cant": "float64 rounding over 2^63 durations, all exports of all keys, and all inputs of the commands.", "anchors": ["pgp/sign.go", "pgp/key_set.go:95-147", "mnemonikey.go", "cmd/mnemonikey/generate.go", "cmd/mnemonikey/recover.go"]}
{"id": "C76", "title": "Subkey order by math/rand", "statement": "In every export the subkeys appear in the order two draws (below 3, then below 2) of math/rand's generator give, seeded with a number from SHA-256 of the master secret that matters only modulo 2^31-1; every one of the six orders occurs for some seed.", "quantifier": "every key set, form of export and password", "why_tests_cant": "2^63 seeds; tests look at one key.", "anchors": ["pgp/key_set.go:124-147"]}
{"id": "C77", "title": "Which texts are read as a word", "statement": "A text is read as a word of the list exactly if it writes each letter as itself, its ASCII capital, or - for k and i only - as the Kelvin sign U+212A or the dotted capital I U+0130; at most one word is written by a text. A phrase decodes exactly if its texts write words that decode, and then to the same seed, time and salt. No other Unicode text, valid UTF-8 or not, is accepted.", "quantifier": "every word list, every list of byte strings", "why_tests_cant": "All byte strings and all of Unicode's case mappings.", "anchors": ["mnemonic/decode.go:41", "recovery.go", "version.go"]}
{"id": "C78", "title": "White space around what is typed", "statement": "The name, the address and each line of the simple phrase entry lose exactly the longest runs of Unicode white space at both ends and nothing else; a line enters a word exactly if the rest writes that word (C77).", "quantifier": "every byte string, valid UTF-8 or not", "why_tests_cant": "All byte strings; broken UTF-8 next to white space.", "anchors": ["cmd/mnemonikey/generate.go", "cmd/mnemonikey/recover.go", "cmd/mnemonikey/word_input.go"]}
{"id": "C79", "title": "What the commands say on standard error", "statement": "Writing to standard error changes nothing else a run does. A run of generate, recover or convert that succeeds writes exactly: the entry screen of the phrase, the dialogue of each password prompt (question, complaint about an empty or unequal password, again), the tables of -verbose if given (for the very key printed), the colour codes around the key, and the phrase block unless a word file is used. A run that fails with status 1 writes 'ERROR: ' and a text that is one of a list, each with the cause that brings it about, after pieces of the same kinds; the help text comes first exactly when a -ttl or -only value was wrong.", "quantifier": "every word list, options, typed input, files, time, random bytes", "why_tests_cant": "All inputs and all failures of three commands; tests do not look at standard error.", "anchors": ["cmd/mnemonikey/main.go", "cmd/mnemonikey/generate.go", "cmd/mnemonikey/recover.go", "cmd/mnemonikey/convert.go", "cmd/mnemonikey/word_input.go", "cmd/mnemonikey/terminal.go"]}
{"id": "C80", "title": "Standard error keeps the secrets", "statement": "Two successful runs of generate with -out-word-file and without -verbose write the same text to standard error whatever the seed, keys, phrase, clock and passwords, but for which of the texts typed at the prompts were empty and which equal. The same holds for recover from word files, beside whether the phrase is encrypted and which typed passwords open it.", "quantifier": "every pair of runs with the same options", "why_tests_cant": "A statement about all pairs of seeds, phrases and passwords.", "anchors": ["cmd/mnemonikey/generate.go", "cmd/mnemonikey/recover.go", "cmd/mnemonikey/word_input.go:230-291"]}
{"id": "C81", "title": "Answers to wrong command lines", "statement": "A command line a command does not understand is answered with the reason (unknown flag, bad syntax, bad or missing value), the help text and status 2; a request for help with exactly the help text and status 0; no or an unknown subcommand with the root help, an ERROR line naming it and status 1. Nothing else is written and nothing else happens.", "quantifier": "every argument vector, terminal of at least 42 columns or of unknown size", "why_tests_cant": "All argument vectors.", "anchors": ["cmd/mnemonikey/command.go", "cmd/mnemonikey/main.go"]}
{"id": "C82", "title": "-verbose changes nothing but standard error", "statement": "Two command lines that differ only in -verbose give the same status, standard output, files and use of standard input and random bytes.", "quantifier": "every command, options and world", "why_tests_cant": "All inputs.", "anchors": ["cmd/mnemonikey/generate.go", "cmd/mnemonikey/recover.go", "cmd/mnemonikey/convert.go"]}
{"id": "C83", "title": "The questions of simple phrase entry", "statement": "Simple entry asks for one word at a time, with the number one more than the words accepted so far; a line that is accepted is cleared, one that is not gets 'No matching words found in the wordlist!' or the notice of the unsupported version; it stops asking exactly when the phrase of the first word's version is complete or the input ends. None of what is typed is written.", "quantifier": "every list of lines", "why_tests_cant": "All sequences of right and wrong lines.", "anchors": ["cmd/mnemonikey/word_input.go:171-228"]}
{"id": "C84", "title": "Passwords are not echoed", "statement": "At a terminal, without a signal, no key typed while a password is read or the phrase is read in raw mode is echoed, if the run asks for at most one password (generate with at most one of -encrypt-keys and -encrypt-phrase; recover and convert with at most one prompt), or if the goroutine that restores the terminal after an earlier prompt has finished before the next password is read. Without this, and after an interrupt, a key of a password can be echoed.", "quantifier": "every schedule of the goroutines, every input and moment of typing, every terminal setting, any number of prompts", "why_tests_cant": "All interleavings; the race needs a goroutine that is late by a whole prompt.", "anchors": ["cmd/mnemonikey/word_input.go:230-291", "cmd/mnemonikey/word_input.go:33-45"]}
{"id": "C85", "title": "The terminal is left as it was", "statement": "When a run at a terminal ends without a signal, successfully or not, the terminal has the attributes it had before, and it has them whenever main is between two prompts. After an interrupt at a password prompt the process can end with echo switched off, even if the goroutine that restores the terminal has finished.", "quantifier": "every schedule, input, list of prompts and terminal setting", "why_tests_cant": "All interleavings of main, readers and watchers.", "anchors": ["cmd/mnemonikey/word_input.go:230-291", "cmd/mnemonikey/word_input.go:33-45"]}
{"id": "C86", "title": "The outcome does not depend on the schedule", "statement": "Whenever keys are typed and however the goroutines are scheduled, the passwords a run without a signal gets are those the prompts would return one after the other on the same input, the same input is left over, and on success standard output is the key with at most one extra newline for each prompt, before or after it; these newlines alone depend on the schedule. Once the input has ended no run gets stuck or goes on for ever. The sequential model of the commands stands for all schedules.", "quantifier": "every schedule, timing of keys, options and world", "why_tests_cant": "All interleavings.", "anchors": ["cmd/mnemonikey/word_input.go:230-291", "cmd/mnemonikey/generate.go:119-167", "cmd/mnemonikey/recover.go:82-201", "cmd/mnemonikey/convert.go:48-85"]}
{"id": "C87", "title": "The word file is for its owner alone", "statement": "When saveMnemonic succeeds, the place that the path leads to along symbolic links had nothing before, now has exactly the words, and its mode gives nobody but the owner any right (it is 0600 under a usual umask); nothing else on the disk changes. The same holds of every state in between, of a full disk and of a killed process. What exists at the end of the links is never touched. Three things can go wrong: a file made by another process between the check and the write keeps its own mode, be it readable by everyone; a link made then leads to the loss of the file behind it; and a link to nothing makes the file appear where the link leads.", "quantifier": "every disk, umask, path, word list and moment", "why_tests_cant": "All link structures, umasks and moments of observation.", "anchors": ["cmd/mnemonikey/generate.go:201-213"]}
{"id": "C88", "title": "Saving in the model of the commands is saving on a disk with links and modes", "statement": "A save on a disk has the outcome the model of the commands gives for the files that disk shows, and leaves a disk that shows the same at the path; other paths show what they did unless they lead to the same place, and then they show the same file. So generate with -out-word-file succeeds only if the disk has the phrase in a new file of mode 0600, and otherwise leaves the disk unchanged or with part of the phrase in such a file.", "quantifier": "every disk with a usual umask, options and world", "why_tests_cant": "All disks and options.", "anchors": ["cmd/mnemonikey/generate.go:64-175", "cmd/mnemonikey/generate.go:201-213"]}
{"id": "C89", "title": "The printed user ID can be read back and moves no cursor", "statement": "The user ID in the table of -verbose, as %q prints it, is a Go string literal for exactly the user ID of the exported key, whatever bytes the name and email have, valid UTF-8 or not. A literal stands for one text, so two user IDs are never printed alike. Every character printed is one that shows: escape sequences, newlines, other control characters, soft hyphens and no-break spaces appear as escapes.", "quantifier": "every byte string as name and email, every key", "why_tests_cant": "All byte strings, including invalid UTF-8 and every control character.", "anchors": ["cmd/mnemonikey/terminal.go:111-125", "mnemonikey.go:100-103"]}
{"id": "C90", "title": "The printed times are the calendar times of the exported key", "statement": "The creation time in the table of -verbose is a date and time in UTC that, counting days in the Gregorian calendar from 1 January 1970, is exactly the creation time in the exported public key; the expiry time, present exactly if a lifetime is set, is that time plus the lifetime in whole seconds. A printed time reads as one second only. Creation times run from 2023-01-01T00:00:00Z to 2091-01-19T03:14:07Z.", "quantifier": "every creation time in the window, every lifetime below 2^63 nanoseconds, every key", "why_tests_cant": "2^31 creation times and all lifetimes, across leap years and centuries.", "anchors": ["cmd/mnemonikey/terminal.go:111-125", "parameters.go:16", "parameters.go:54", "derive.go:56-61"]}
{"id": "C91", "title": "The program always ends, and never by a panic", "statement": "For every list of arguments, every standard input, random source, clock and file system, at a terminal at least 42 columns wide (or of unknown width): the program ends without a panic, with status 0, 1 or 2, and 2 exactly if something is wrong with the options before or after the name of the command; the same with -verbose and everything written to standard error. None of its loops (phrase entry, password prompt, asking again after a wrong password, drawing the seed, reading options) needs more turns than the input allows. At 41 columns it does not end.", "quantifier": "every argument list, every byte sequence on standard input and in files, every random source; every bound on the loops", "why_tests_cant": "All command lines and all inputs; that a loop ends for every input cannot be observed.", "anchors": ["cmd/mnemonikey/main.go:12-49", "cmd/mnemonikey/command.go:27-94", "cmd/mnemonikey/recover.go:82-135", "cmd/mnemonikey/word_input.go:171-291", "cmd/mnemonikey/terminal.go:60-109"]}
{"id": "C92", "title": "Sharing of big integers is not observable, except through NewSeed", "statement": "A program makes integers of its own (*big.Int), changes and reads them, and calls EncodeToIndices, DecodeIndices, NewSeed, GenerateSeed, Seed.Int, Seed.Bytes, the two phrase encoders, DecodeMnemonic, DecodedMnemonic.Seed, DecryptSeed, New and the phrase encoders of the key, in any order. If it leaves alone the integers it has given to NewSeed, it sees what it would see if integers, seeds, phrases and keys were values: nothing it does to one changes another. After any calls, careful or not: no call changes an integer that exists, except EncodeToIndices its argument; the package's own constants (one, the word mask) never change; an integer of the program that is part of a seed, phrase or key was given to NewSeed. Without the care it fails: after NewSeed(x) and New, EncodeToIndices(x) zeroes the seed inside the key, and the phrase of the key recovers another key.", "quantifier": "every sequence of calls with every argument; every environment", "why_tests_cant": "Aliasing shows only after particular sequences of calls; all sequences are needed to say that none but NewSeed shares.", "anchors": ["seed.go:10-61", "mnemonic/encode.go:16-59", "mnemonic/decode.go", "bit_buffer.go", "recovery.go:DecodeMnemonic", "recovery.go:DecodedMnemonic.DecryptSeed", "recovery.go:DecodedMnemonic.Seed", "encoding.go", "mnemonikey.go:New"]}
{"id": "C93", "title": "Any number of conversions between generating and recovering", "statement": "A user generates a key, then passes the phrase through any number of convert sessions, each with any options: plaintext to encrypted, encrypted to plaintext, encrypted to another password, typed word by word or in simple mode, with wrong passwords on the way (a session that reads a word file never shows a phrase: it is refused at saving). Whatever phrase and password they hold at the end gives the seed and the creation time of the first. Recovering with any of them, with the options of generate, prints exactly the armored key that generate printed; and recover with the same options prints the same and ends the same for the phrase before and after the conversions.", "quantifier": "every environment meeting the environment hypotheses; every chain of convert sessions of every length; every option set, world, entry mode and password", "why_tests_cant": "Tests convert once; a drift of the seed or of the creation time, or a password that is not carried along, may need several conversions of particular kinds to show.", "anchors": ["cmd/mnemonikey/convert.go", "cmd/mnemonikey/generate.go", "cmd/mnemonikey/recover.go", "recovery.go:DecodeMnemonic", "recovery.go:DecodedMnemonic.DecryptSeed", "encoding.go"]}
{"id": "C94", "title": "Recovery with the program, from its command lines", "statement": "The program is called as 'mnemonikey generate' with any arguments that are options of that command in any spelling and order, and shows a phrase. The phrase may then pass through any number of calls of 'mnemonikey convert'. If 'mnemonikey recover' is then called with any arguments that set name, email, ttl and only as the first call did (no -encrypt-keys in either, indices 0 and -self-cert not switched off), and the phrase and, if it has one, the password are entered, it exits with status 0 and prints the same armored key as the first call, byte for byte. The same holds for a phrase written with -out-word-file by a call that exits with 0 and read with -in-word-file. Options that a command refuses never end with status 0, in a terminal of any width.", "quantifier": "every environment meeting the environment hypotheses; every argument vector, world, number of conversions, entry mode, password", "why_tests_cant": "Argument vectors, phrases and chains of sessions are unbounded; no test drives the binary over more than one call, and none covers the option parsing together with the key output.", "anchors": ["cmd/mnemonikey/main.go", "cmd/mnemonikey/command.go:Run", "cmd/mnemonikey/common_opts.go", "cmd/mnemonikey/generate.go", "cmd/mnemonikey/recover.go", "cmd/mnemonikey/convert.go"]}
{"id": "C95", "title": "Shared memory of byte slices in the package pgp cannot be noticed", "statement": "A program makes byte slices and calls the functions of the package pgp (new keys, fingerprints, public, private and dummy packets, self-certification, Sign, signatures, user IDs, subpackets, packets, MPIs, S2K encryption, whole key sets) in any order, passing any of its slices and any results of earlier calls, and it assigns to elements of its slices between the calls, also of slices it has passed and of results. Unless it changes a slice it gave to Sign as the fingerprint or as the body of a subpacket, or writes to Private or Public of an Ed25519 key, every call gives what it would give if slices, keys and signatures were values: seeds are copied, results do not share memory, append never reaches another slice, and the spare capacity append leaves does not matter. Without these two conditions it still holds of any program that calls of the package change no array that there was (not even the room behind a slice, nor the package's own variables) and put their results in arrays of their own; only a signature may share an array with a slice of the program, and only with one given to Sign. The two conditions are needed.", "quantifier": "every program (list of calls and assignments) with every argument; every policy by which append chooses capacities; every environment whose digests and public keys have the standard sizes, in particular the standard algorithms", "why_tests_cant": "Aliasing bugs show only for particular orders of calls and writes and particular capacities chosen by the runtime; programs are unbounded.", "anchors": ["pgp/sign.go:Sign", "pgp/master_key.go:NewED25519MasterKey", "pgp/encryption_subkey.go:NewCurve25519Subkey", "pgp/key_set.go:EncodePackets", "pgp/key_set.go:encodeAllSubkeyPackets", "pgp/signature.go:Encode", "pgp/s2k.go:EncryptS2K", "pgp/packet.go:EncodePacket"]}
{"id": "C96", "title": "Which calls of the package panic: nil pointers, zero values, changed versions", "statement": "A program holds pointers it got from the functions of the root package, nil pointers, new(Seed), new(Mnemonikey) and &DecodedMnemonic{Version: v}, assigns any number to the exported field Version of phrases it holds, and calls every function and method of the package in any order. Whether the next call panics is told exactly by a table over what the program knows: how each pointer was obtained, whether that call failed, the sign of the integer given to NewSeed, the number of words of a decoded phrase and the Version it has now, and the arguments of the call. In particular a program that makes its objects with the constructors, checks errors, gives no nil, no negative entropy and no offset from 2^31 on, and does not assign to Version never sees a panic. Objects made by the constructors behave as the values of the other properties. A decoded phrase of 14 words read as version 1 is refused without a password and panics with one; a decoded phrase of 16 words read as version 0 gives out its encrypted entropy as a seed under any password or none; versions from 2 on give ErrInvalidEraNumber. The accessors that do not panic tell of a zero phrase the start of the epoch and offset 0, of a new(Seed) era 0, of a new(Mnemonikey) the zero time; assigning to Version changes neither the offset nor the creation time.", "quantifier": "every program (list of calls) with every argument of the Go types; every environment in which the word list is sorted and lowercase, Argon2id gives the number of bytes asked for and AES blocks are 16 bytes", "why_tests_cant": "Programs, arguments and orders of calls are unbounded; whether a call panics depends on the history of the pointers in it.", "anchors": ["seed.go:NewSeed", "encoding.go:EncodeMnemonicPlaintext", "encoding.go:EncodeMnemonicEncrypted", "recovery.go:DecodedMnemonic", "recovery.go:DecryptSeed", "recovery.go:Seed", "mnemonikey.go:New", "mnemonikey.go:SubkeyFingerprint"]}
{"id": "C97", "title": "Goroutines may share keys, signatures and slices of package pgp as long as none assigns to them", "statement": "A program makes any calls of package pgp and then starts any number of goroutines, each with its own list of calls on the slices, keys and signatures that are there and on those it makes itself; none assigns to a slice or key that was there before. Whatever the order in which the single accesses to memory come: no two accesses of different goroutines are to the same array with one of them a write (no data race); every array that was there keeps its bytes; each goroutine sees at any time the beginning of what it would see on its own, and all of it once it is through; it is through after a number of its own turns that depends on nothing else, unless a panic ends the process, and only a goroutine that would panic on its own does that. A goroutine that also keeps what it gave to Sign sees what it would see if slices, keys and signatures were values. If one goroutine overwrites Private of a shared key while another exports the key, there is a race and the exported packet is neither the one before nor the one after.", "quantifier": "every program before, every number of goroutines, every list of calls with every argument, every schedule of single accesses, every capacity policy of append; every environment with digests and public keys of the usual sizes", "why_tests_cant": "Programs, goroutines and interleavings are unbounded; the race detector sees only the accesses of one run.", "anchors": ["pgp/ecc_key.go:EncodePrivatePacket", "pgp/ecc_key.go:FingerprintV4", "pgp/sign.go:Sign", "pgp/signature.go:EncodePacket", "pgp/key_set.go:EncodePackets", "pgp/master_key.go:SelfCertify", "pgp/master_key.go:BindSubkey", "pgp/s2k.go:EncryptS2K"]}
{"id": "C98", "title": "Nil pointers, literals and assigned fields in package pgp: which calls panic, which fail, which fields matter", "statement": "A program of any length calls the exported functions of package pgp, builds keys, user IDs, key sets, subpackets and signatures as literals, passes nil pointers and assigns any exported field of these and the variables DefaultKDFParameters and DefaultStringToKeyHashFunc at any time. From how each pointer was obtained and what was assigned since, a table says of every call whether it panics, fails or succeeds, also which of several reasons comes first, and the table is right. A program that makes its keys and signatures with the package, assigns neither Private of a master key nor the variables nor signatures and passes no nil pointers but for missing subkeys never panics. Public of every key, KDF of encryption subkeys, and Private and Creation of subkeys can be assigned without effect on anything the program sees. The fingerprint and the public, private and dummy packets of a key stay those of its making, whatever is assigned. A key set made of keys from the constructors exports, after any other assignments, as the same set with the master key's Private, the Expiry of each key, the user ID and the set's pointers as last assigned, unless Creation of the master key was changed. The self-certification of a master key whose Private was not assigned verifies with the key as made, is dated to Creation as last assigned and has the lifetime from there to Expiry; the time in the key packet stays. False: that assigning Creation of a master key keeps the time at which an exported key expires; that a set exported after assigning 64 bytes to Private of the master key has a self-certification that verifies; that the constructor's arguments fix an encryption subkey whatever is assigned to DefaultKDFParameters.", "quantifier": "every program of calls, literals and assignments with every argument, every random source, every environment with digests and public keys of the usual sizes", "why_tests_cant": "Programs are unbounded sequences; the tests of the package use only constructors and change no field.", "anchors": ["pgp/ecc_key.go:ellipticCurveKey", "pgp/master_key.go:ED25519MasterKey", "pgp/ed25519_subkey.go:ED25519Subkey", "pgp/encryption_subkey.go:Curve25519Subkey", "pgp/master_key.go:SelfCertify", "pgp/master_key.go:BindSubkey", "pgp/key_set.go:EncodePackets", "pgp/key_set.go:EncodeSubkeyPackets", "pgp/sign.go:Sign", "pgp/signature.go:Encode", "pgp/s2k.go:EncryptS2K", "pgp/constants.go:DefaultKDFParameters"]}
{"id": "C99", "title": "Programs that assign EpochStart, MaxCreationTime, DefaultKDFParameters or DefaultStringToKeyHashFunc", "statement": "The root package has two exported variables, EpochStart and MaxCreationTime, and reads two of package pgp, DefaultKDFParameters and DefaultStringToKeyHashFunc. Whatever a program assigns to them, before and between calls: New fails for a time after MaxCreationTime or before EpochStart, panics if DefaultKDFParameters is nil and an encryption subkey is wanted, and makes a key otherwise, created at the last whole second after EpochStart. Of all this only the seconds between EpochStart and the creation time, modulo 2^32, get into a recovery phrase; from 2^31 on, and for keys older than EpochStart by a second and less than 2^31 seconds, the encoders panic. A phrase made and used with the same EpochStart brings back the key if DefaultKDFParameters are those of its making and its time is in the first 2^31 seconds and not after MaxCreationTime; other DefaultKDFParameters change nothing but the parameters of the encryption subkey. If MaxCreationTime is kept 2^31 - 1 seconds after EpochStart, wherever that is, every key New makes can be encoded and comes back. Exports without a password do not depend on the variables; with a password they are as usual with SHA-256, fail with SHA-384 and SHA-512 and panic with any other hash function. False: that every phrase brings back its key if MaxCreationTime is assigned later; that New makes only keys that can be encoded if EpochStart is assigned earlier; that a phrase brings back its key if EpochStart and MaxCreationTime change together in between.", "quantifier": "every value of the four variables at each of making, encoding, recovering and exporting; every seed, time, option, password and random source; every environment with the usual sizes of digests, and for phrases the hypotheses of C01 and C02", "why_tests_cant": "The tests never assign the variables; seeds, times and values are unbounded.", "anchors": ["parameters.go:EpochStart", "parameters.go:MaxCreationTime", "mnemonikey.go:New", "mnemonikey.go:creationOffset", "mnemonikey.go:EncodeMnemonicPlaintext", "mnemonikey.go:EncodeMnemonicEncrypted", "recovery.go:Creation", "derive.go:derivePGPKeySet", "pgp/constants.go:DefaultKDFParameters", "pgp/constants.go:DefaultStringToKeyHashFunc"]}
{"id": "C100", "title": "The terminal shows what was typed while a phrase is entered in raw mode", "statement": "After every key of phrase entry in raw mode, as long as the last column is not reached, the line of the word shows exactly the prompt with the number of the word, the text typed for it and the completion offered for that text, and the cursor is behind the text; the line below shows exactly the notices written since it was last cleared; nothing else on the screen differs. Letters add to the text, backspace takes the last letter off, tab completes; every change of the text clears the notice if some word of the list starts with it and says that there is none otherwise; Enter and space without a completion add that notice, with a first word of another version a notice with that version; otherwise they go to the next word, left arrow to the one before, and the line starts again. The lines go on exactly until phrase entry ends. This holds on terminals that know either or both ways to save and restore the cursor.", "quantifier": "every environment with a valid word list, kind of terminal, window size (at least two rows), prior screen content and key sequence", "why_tests_cant": "Tests have no terminal and look at no drawn output; key sequences and screen states are infinite.", "anchors": ["cmd/mnemonikey/word_input.go:33-165", "cmd/mnemonikey/terminal.go:16-58"]}
{"id": "C101", "title": "Goroutines may share seeds, decoded phrases, keys and integers of the root package as long as none changes a shared integer", "statement": "A program makes any calls of the root package and of package mnemonic (and changes integers of its own) and then starts any number of goroutines, each with its own list of calls on the integers, seeds, decoded phrases and keys that are there and on those it makes itself; none assigns to an integer that was there before and none gives one to EncodeToIndices. Whatever the order in which the single accesses to integers come: no two accesses of different goroutines are to the same integer with one of them a write (no data race), also not to bigOne and wordMask; every integer that was there keeps its value; each goroutine sees at any time the beginning of what it would see on its own, and all of it once it is through; it is through after a number of its own turns that depends on nothing else, unless a panic ends the process, and only a goroutine that would panic on its own does that; together with C92 it sees what it would see if integers, seeds and keys were values. Two goroutines that give the same integer to EncodeToIndices race and one can get indices that belong to no state of it; the same goes for a phrase written while the integer the seed was made of is encoded.", "quantifier": "every environment, program, number of goroutines, lists of calls and schedule", "why_tests_cant": "Tests use one goroutine; the race detector sees only the interleavings of one run.", "anchors": ["seed.go:10-77", "bit_buffer.go:15-122", "encoding.go:17-113", "recovery.go:76-245", "mnemonikey.go:55-87", "mnemonikey.go:214-233", "mnemonic/encode.go:16-43", "mnemonic/decode.go:20-32"]}
{"id": "C102", "title": "The generate command makes the key and the phrase of exactly the 16 bytes of the chosen source, and no random byte is used twice", "statement": "When generate succeeds, with whatever options, the source (the system's random source, standard input for -unsafe-entropy -, or the file named) had at least 16 bytes, and the seed is the number written by its first 16 bytes: the one phrase of the run, shown or saved, decodes (with the password typed twice at its prompt, if the phrase is encrypted) to exactly that seed and the second of the clock, and the printed key is the key of that seed and time. Salts come from the system's random source only and in order: after the 16 bytes of the seed if that was the source, 24 bytes for each protected secret, then 3 bytes for the salt of the phrase. So two runs that give the same unencrypted phrase drew the same 16 bytes in the same second. With fewer than 16 bytes, or a file that cannot be read, generate fails and gives no key, no phrase and no file. With the inputs in order it succeeds. recover draws nothing but the salts of protected keys, convert nothing but the salt of the new phrase.", "quantifier": "every environment, world (files, standard input, random bytes, clock) and option", "why_tests_cant": "Tests look at a few keys; that no byte of entropy is dropped, doubled or taken from somewhere else is a statement about all contents of the source.", "anchors": ["cmd/mnemonikey/generate.go:64-175", "cmd/mnemonikey/recover.go:137-205", "cmd/mnemonikey/convert.go:48-85", "seed.go:66-77", "encoding.go:83-90"]}
{"id": "C103", "title": "Protecting the keys, or choosing other options, never gives other keys", "statement": "Two exports of keys made of one seed in one second with the same subkey indices hold, whatever the forms (with or without the master secret, with or without self-certification), passwords, random bytes, user IDs, lifetimes and selections: the same primary key and, for each role both have, the same subkey, and each unlocked with its own password gives the same secret numbers. If user ID and TTL agree, the certifications and bindings are the same to the last bit; if the selection agrees, the subkeys are the same in the same order. So a key printed by generate, with or without -encrypt-keys, and the key printed by recover from its phrase (shown, or saved and read back from a copy of the file) after any number of conversions, with or without -encrypt-keys and -self-cert, with whatever options but index 0, are the same keys in this sense, and both contain the master secret or neither does when -only agrees.", "quantifier": "every environment, seed, time, options, forms, passwords, random bytes, sequence of conversions and worlds of generate and recover", "why_tests_cant": "The claim compares two runs over all pairs of options and passwords; the repository tests compare one recovery without passwords.", "anchors": ["pgp/key_set.go:24-218", "pgp/ecc_key.go:59-107", "mnemonikey.go:39-135", "cmd/mnemonikey/generate.go:64-175", "cmd/mnemonikey/recover.go:137-205"]}
{"id": "C104", "title": "Signatures of the package pgp share no subpackets but those given to Sign", "statement": "In every program that makes subpackets and slices of pointers to them, signs with them, takes lists and subpackets out of signatures (also those Sign made itself), changes subpackets, list elements and the lists of signatures, and encodes, every call shows what was last written to the thing it names: Sign makes three subpackets and two lists that are nowhere else in memory, and copies the pointers of the request rather than its slices. Encode shows the subpackets as they are at that time, with type, digest, R and S as Sign made them. So a signature's encoding stays the same to the last bit as long as nothing is taken out of or assigned to that signature and the subpackets given to Sign are not changed, whatever the program does to the request's slices and to other signatures made of the same request. An encoding whose hashed subpackets are those Sign left can be read and verifies whatever the unhashed ones have been changed to, also if the issuer has been changed to another key.", "quantifier": "every environment with digests of standard length, every program of any length and every key, data and request", "why_tests_cant": "Whether two signatures share memory shows only in programs that change one and encode the other; there is no bound on such programs.", "anchors": ["pgp/signature.go:26-43", "pgp/signature.go:71-88", "pgp/sign.go:39-84"]}
{"id": "C105", "title": "Sessions with one phrase print the same keys, from their command lines", "statement": "Two calls of 'mnemonikey recover' with any arguments in any spelling and order, each entering (typed, or read from a word file) a phrase that any number of calls of 'mnemonikey convert' made of one decodable phrase, that both end with status 0 and agree in the three indices, print the same primary key and, for each role both print, the same subkey, and each unlocked with its own password gives the same secret numbers: whatever -encrypt-keys, passwords, -self-cert, -only, -ttl, -name and -email say. If name, email and TTL agree, certifications and bindings agree to the last bit; if -only agrees, both have the same subkeys in the same order, and both contain the master secret or neither. The same holds for 'mnemonikey generate' ending with status 0 and a call of recover without indices, where the phrase is the one shown or the one in the word file, and its password the one asked for after that of the keys.", "quantifier": "every environment meeting the environment hypotheses; every pair of argument vectors and worlds, every sequence of conversions, every password", "why_tests_cant": "The claim compares pairs of runs of the whole program over all pairs of command lines and conversions.", "anchors": ["cmd/mnemonikey/main.go", "cmd/mnemonikey/common_opts.go", "cmd/mnemonikey/generate.go:64-175", "cmd/mnemonikey/recover.go:137-205", "cmd/mnemonikey/convert.go"]}
{"id": "C106", "title": "Simple phrase entry does not depend on how standard input arrives, and at a terminal reads nothing ahead", "statement": "The words recover and convert take with -simple, or the error they end with, depend only on the bytes of standard input up to its end, not on the pieces in which reads deliver them, though the line scanner reads into a buffer it shifts and doubles from 4096 to 65536 bytes. If the input is a terminal, each read giving at most one line, then after the last word nothing has been read ahead: the next prompt starts with the next line entered, also one typed ahead. For a pipe or file this second part is false: up to 65536 bytes after the phrase are taken and lost.", "quantifier": "every environment; every sequence of pieces of any length", "why_tests_cant": "Pieces, their lengths and the positions of their boundaries against the buffer are unbounded; tests feed standard input in one piece.", "anchors": ["cmd/mnemonikey/word_input.go:171-223", "cmd/mnemonikey/word_input.go:230-291"]}
{"id": "C107", "title": "Lines typed ahead in simple mode: same words, other screen", "statement": "With -simple, at which moments lines are typed or pasted, before or at their prompts, changes neither the words taken nor the lines left for the next prompt. What C63 says about the screen holds when each line is typed at its prompt; it is false for pasted lines: a phrase pasted with one line more leaves its first word on the screen after all words were taken, and one pasted into a window too small for it leaves words in the scrollback.", "quantifier": "every environment, every sequence of typed lines interleaved with the steps of the program in any way; the two refuted parts by witness for each kind of terminal", "why_tests_cant": "Interleavings of typing and program steps are unbounded, and the screen is not visible to tests of the package.", "anchors": ["cmd/mnemonikey/word_input.go:171-223"]}
