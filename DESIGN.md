# Formal model of kklash/mnemonikey in Rocq (Coq 8.16.1)

## Layout

| Directory | Contents |
|---|---|
| `rocq/theories/Model/*.v` | executable Gallina model of the Go code, one file per Go file or small group; each definition cites file:lines. No proofs. |
| `rocq/theories/Spec/*.v` | small specifications written from README.md / RFC 4880 and independent of the model's helpers (phrase layout, OpenPGP reader and verifier, ...). |
| `rocq/theories/Proofs/*.v` | lemmas. |
| `rocq/theories/Props/*.v` | the theorems named in MANIFEST.json, each with `Print Assumptions`, and `Example`s showing that hypotheses are met. |

## Modelling conventions

* `math/big.Int` is `Z`; Go's And/Or/Xor/Lsh/Rsh on (possibly negative) `big.Int` are two's complement, i.e. exactly
  `Z.land/lor/lxor/shiftl/shiftr`; `BitLen`, `Bytes`, `FillBytes` act on the absolute value, and so do the model's.
* Fixed-width conversions (`uint16(..)`, `byte(..)`, `uint32(..)`, `time.Duration(..)*unit`) are written as explicit wraps.
* Bytes and Go strings are `list Z`; a slice is a list, with `nil` kept apart from empty (`option`) only where the code tells them apart (`KeyOptions.Subkeys`).
* Results are `res A := Ok a | Err e | Panic`: Go errors are values, run-time and explicit panics are `Panic`.
* `time.Time` is an instant in nanoseconds since the Unix epoch (`Z`; location and monotonic reading are not observable here); `Sub` saturates and `Duration` wraps at int64 as in Go.
* Code outside the repository (wordlist4096, Argon2id, AES, SHA, HKDF, Ed25519, X25519, math/rand, armor, unicode lower-casing,
  the random source, files, terminal) is a field of the record `Env`. What a theorem needs of it appears as an explicit
  hypothesis (`wordlist_ok E`, `aes_ok E`, ...), never as an axiom; an instance satisfying all of them is built and proved, so no
  hypothesis is vacuous. CRC-32 and `crypto/rand.Int` are modelled concretely because the properties are about them.
* `BigHeap.v` and `SliceHeap.v` repeat the library with pointers to big integers and with slices in memory; C92 and C95 are the link to the value models. `ZeroValues.v` repeats the root package with pointers that may be nil; `constructed_as_values` of C96 is the link. `PgpFields.v` does that for the package `pgp` (C98), `Variables.v` repeats the root package with assigned variables (C99). `SliceThreads.v` runs the functions of `SliceHeap.v`, which are trees of single accesses to memory, in goroutines; `alone` in `ThreadP.v` is the link to its programs. `BigThreads.v` does that with `BigHeap.v` (C101, `b_alone`).
* Loops are structural recursion or recursion on fuel; where non-termination is the point (C54) theorems quantify over all fuel.

## Trusted base

* The Coq 8.16.1 kernel (`coqc`; `coqchk` rechecks the compiled files without the VM).
* `Print Assumptions` reports "Closed under the global context" for every theorem named in MANIFEST.json; the calls are
  beside the theorems in `Props/`. No theorem depends on an axiom. Loading the standard library brings the seven `Coq.ssr.ssrunder.Under_rel.*`
  constants of SSReflect into the context (a plain `Require Import ZArith` does); `coqchk` lists them, nothing uses them.
* The reading of the Go code: each model definition cites the lines it transcribes and states its simplifications. There is no
  mechanical link from the Go text to the model; `Proofs/Vectors.v` runs it on the repository's known fingerprints.
* The behaviour of Go's standard library functions that are modelled concretely (math/big on the operations used, hash/crc32 IEEE,
  crypto/rand.Int, encoding/binary, strings.Split, strconv.ParseUint/ParseBool, bufio.ScanWords, bufio.Scanner with ScanLines, package flag (parsing,
  UnquoteUsage, the order of VisitAll), time arithmetic).
* The hypotheses on external code below. They are hypotheses of the theorems, so they are trusted only when a theorem is applied to
  the real program.

### Hypotheses on external code

| Name (file) | Says | Needed by |
|---|---|---|
| `wordlist_ok` (EnvSpec) | 4096 distinct non-empty words over a-z | phrases |
| `words_short`, `prefix_free`, `search_ok` (FileSpec, CliEnvSpec) | words under 64 KiB; no word begins another; Search reports exact matches and valid completions | word files, phrase entry |
| `argon_ok`, `hkdf_ok`, `hash_ok` | outputs have the requested length | everything using them |
| `aes_ok` | AES-128 decryption inverts encryption on 16-byte blocks | encrypted phrases |
| `aes256_ok` | AES-256 maps 16-byte blocks to 16-byte blocks | protected exports |
| `ed25519_ok` | key and signature lengths; signatures verify under a verification function, which is universally quantified | exports |
| `x25519_ok` | 32-byte results; ignores the bits RFC 7748 masks | encryption subkeys |
| `rand_ok` | the draws of `Shuffle` below n (math/rand's int31n) are in [0, n) | subkey order |
| `seconds_ok` | `uint32(d.Seconds())` is exact on whole seconds below 2^32 and always a uint32 | expiry |
| `lone_byte_ok` | lower-casing a lone non-UTF-8 byte does not give an ASCII letter | phrase entry |
| `sizes_ok` (SliceSpec) | digests of 20, 32, 48 and 64 bytes; public keys of 32 bytes | C95, C97, C98, C99 |
| `password_ok` | the export password has at most 65011704 bytes (C39 is about longer ones) | protected exports |
| `armor_ok` (ArmorSpec) | an RFC 4880 armor reader with CRC-24 check recovers type and content from what the armor encoder writes | armored exports, printed keys |
| `world_ok` | files, standard input and the random source deliver bytes | end-to-end theorems |

`rand_ok`, `seconds_ok`, `lone_byte_ok` and `armor_ok` are proved (C75) of the functions in `Spec/GoRand.v`, `GoFloat.v`, `GoText.v` and
`GoArmor.v`, which are transcribed from Go's math/rand, time, unicode/utf8, unicode and strings, and from x/crypto's openpgp/armor, from
knowledge of these packages: their sources are not in the sandbox. The generator's table was recomputed from its description and gives
the well-known numbers for seed 1; the case table was made from Unicode 14 data. Conversion of a float64 of 2^32 and more to uint32 is that of amd64.

`argon_ok`, `hkdf_ok`, `hash_ok`, `aes_ok`, `aes256_ok`, `x25519_ok` and `ed25519_ok` are proved of the standard
algorithms (C68, C73): `Spec/Sha.v`, `Aes.v`, `Curve25519.v` and `Argon2.v` are written from FIPS 180-4, FIPS 197, RFC 2104, 5869, 7748, 8032,
7693 and 9106, and `Spec/RealEnv.v` puts them into the environment. That Go's packages compute these functions is trusted.
`Spec/EdVerify.v` is the verification of RFC 8032. `Proofs/Vectors.v` tests the algorithms on
published vectors, and the model with them on the three fingerprints of `mnemonikey_test.go`; these are tests, run at build time. Argon2id with
512 MiB cannot be run in Coq: its value for that seed was computed by a C program outside this repository and is a constant in the test.

`Proofs/EnvInst.v` and `Proofs/CliInst.v` build an environment that meets all of them at once; the examples use it. No theorem assumes
that a primitive is secure.

## What is modelled

| Go file | Model | Left out |
|---|---|---|
| bit_buffer.go | BitBuffer.v | `Int` (field access) |
| mnemonic/*.go | MnemonicPkg.v, Crc32.v | running out of memory; `uint` has 64 bits and a slice at most 2^48 bytes |
| version.go | Version.v | error texts |
| seed.go, encoding.go, recovery.go, parameters.go | Seed.v, Encoding.v, Recovery.v | error texts; `Seed.Era` and `DecodedMnemonic.CreationOffset` (field access) |
| derive.go, key_options.go, mnemonikey.go | Mnemonikey.v | error texts |
| pgp/*.go | PgpWire.v, PgpS2k.v, PgpKeys.v; SliceHeap.v (slices in memory), SliceThreads.v (goroutines), PgpFields.v (nil pointers, literals, assigned fields and variables), SubHeap.v (subpackets and lists of them in memory) | in SliceHeap.v: assigning to fields of structs, slices of subpackets as memory; forwarding methods (`FingerprintV4` of the three key types, `EncodePrivateDummyPacket`) are their targets; `reverse` is `rev` |
| cmd/mnemonikey/expiry.go, common_opts.go | CliText.v, CliFlags.v, CliHelp.v | nothing |
| cmd/mnemonikey/terminal.go | CliText.v (justifyWidth), CliScreen.v | the text of %q and of times are parameters there; Spec/GoQuote.v and Spec/GoCalendar.v have what Go 1.20 writes, and C89, C90 use them. Which characters from U+0100 on are printable stays a parameter |
| cmd/mnemonikey/word_input.go | CliInput.v, Scanner.v (simple mode with the reads of bufio.Scanner), CliScreen.v, CliAhead.v (simple mode with lines typed ahead), CliTerm.v (a whole run at a terminal with its goroutines, the terminal's attributes, and signals) | in CliAhead.v, lines typed in parts and without Enter |
| cmd/mnemonikey/main.go, command.go, generate.go, recover.go, convert.go | CliMain.v, CliHelp.v (help texts), CliTrace.v (the same commands with what they write to standard error), CliFile.v (saveMnemonic on a disk with links, modes and a umask) | the stack trace of a panic and what a help text that fails half-way has written; texts of the operating system, of %q and of times are parameters (`host`) |

Simplifications that hold throughout: signals only in the password prompt (CliInput.v) and in CliTerm.v; no memory model below
the interleaving of goroutines (programs as in C97 and C101 have no data races, so that by Go's memory model their executions are
interleavings); time.Time without location.

## Plan per property

| Id | Model | Proof |
|---|---|---|
| C01-C03 | `Encoding.v`, `Recovery.v`, `BitBuffer.v`, `Crc32.v`, `MnemonicPkg.v` | shift/or to arithmetic, base-4096 digits, layout spec in `Spec/PhraseSpec.v` |
| C04-C07 | same | decoder characterised as: words -> digits -> fields; inversion |
| C08-C10 | `Crc32.v` | CRC is GF(2)-affine (induction over bytes) -> 5-bit syndrome; finite sweep over 12-bit differences per position, lifted |
| C11, C12 | `Version.v`, `Recovery.v` | case analysis |
| C13, C14 | + `Mnemonikey.v` | from C01/C02, induction over conversion list |
| C15, C16 | `GoTime.v`, `Mnemonikey.v` | linear arithmetic |
| C17-C20 | `Seed.v`, `Encoding.v` | exact panic set; refutations by witness; bijection of big-endian bytes |
| C21-C24 | `BitBuffer.v`, `MnemonicPkg.v` | refinement to lists of booleans; induction |
| C25-C29 | `Mnemonikey.v`, `PgpKeys.v` | injectivity of concatenations; congruence |
| C30-C41 | `Pgp*.v` | independent OpenPGP reader/verifier in `Spec/PgpSpec.v`; prove reader(writer x) = x |
| C42-C44 | `CliText.v`, `CliFlags.v`, `CliMain.v` | decimal parsing, overflow witness |
| C45-C48 | `CliMain.v` | file system as a map; prefix argument; interleaving model |
| C49-C53 | `CliInput.v` | state machines over keystrokes/lines/events; invariants |
| C54 | `CliText.v` | fuel; termination iff |
| C55, C56, C74 | `CliMain.v` | composition of the above |
| C57-C61 | `PgpKeys.v`, `Mnemonikey.v` | from the export reader; README claims compared with it, two of them refuted |
| C62, C63 | `CliScreen.v` | terminal emulator in `Spec/ScreenSpec.v`, of three kinds by the ways to save the cursor it knows; invariant over the escape sequences written for each key |
| C64, C65 | `CliScreen.v` | read the visible text as table rows |
| C66, C67 | `Mnemonikey.v`, `CliMain.v` | armor reader in `Spec/ArmorSpec.v`, proved to invert a concrete encoder; exports are bytes; composition with C30-C41 |
| C68, C69 | all of the above with `Spec/RealEnv.v` | AES: S-box and MixColumns coefficients by sweeps over 256 bytes, lifted by GF(2)-linearity; lengths by induction |
| C70 | `CliFlags.v`, `CliMain.v` | grammar of command lines in `Spec/FlagSpec.v`; parser follows it, and every vector is of one of its three sorts |
| C71, C72 | `CliHelp.v` | words seen after removing escape sequences, preserved by wrapping; examples run through the parser |
| C73 | `Spec/Curve25519.v`, `Spec/EdVerify.v` | 2^255-19 prime (Fermat, Pocklington certificate), complete Edwards group law over any field, extended coordinates, decoding inverts encoding, order of the base point by computation |
| C75-C78 | all of the above with `Spec/Go*.v` | float rounding bounds; ranges of the generator; decoding runes is inverse to UTF-8; sweep over the case table |
| C79-C83 | `CliTrace.v` | erases to `CliMain.v`; a relation between computations and the texts they may write (`speaks`), composed along the code; dialogues as functions of the typed texts |
| C84-C86 | `CliTerm.v` | a run is a list of events, so every schedule is one; invariants over events; a measure that every step of the program lowers; witnesses where a schedule leaks or forgets |
| C87, C88 | `CliFile.v` | path resolution as a relation; the outcomes of a save by cases; bits of the mode; `view` maps a disk to the files of `CliMain.v` |
| C89 | `GoQuote.v`, `CliScreen.v` | the string literals of the Go language as a relation; each escape by cases; a literal stands for one text |
| C90 | `GoCalendar.v`, `GoTime.v`, `CliScreen.v` | absDate against the calendar built day by day: the date of day n + 1 is the day after the date of day n |
| C91 | `CliMain.v`, `CliTrace.v`, `PgpKeys.v` | every step yields a value or an error, composed along the code (`sane`); results of the loops do not change when the bound is raised. Interrupts are not part of it (C85, C86) |
| C92 | `BigHeap.v` | the functions once more with addresses in a memory of big integers; simulation against values (`v_run`), with the invariant that an address of the program is in use only after `NewSeed`; memory facts for every reachable state; `buffer_memory` for the bit buffer methods |
| C93 | (`CliMain.v`) | `convert_session` as a relation on what the user holds (phrase and password), closed under reflexivity and transitivity; seed and time of the phrase as invariant |
| C94 | (`CliFlags.v`, `CliMain.v`) | C93 with the grammar of C70 in front: sessions are calls of `mnemonikey_main` with argument vectors |
| C95 | `SliceHeap.v` | the functions of `pgp` once more with slices as parts of arrays and `append` writing in place if there is room (capacity policy universally quantified); simulation against the functions on lists for programs that call them in any order, with the invariant that arrays the program writes to are behind no key and no signature; `sizes_ok` is proved of the standard algorithms |
| C96 | `ZeroValues.v` | the root package once more with nil pointers, zero values and assignments to `Version`; a table of panics over what the program knows of its pointers, proved complete by an invariant between that knowledge and the objects; a pointer of another type than the call wants counts as nil (such programs do not compile in Go) |
| C97 | `SliceHeap.v`, `SliceThreads.v` | the functions of `pgp` as trees of accesses; two runs of the same code with arrays at different places stay in step, read only what they were given or made and write only to arrays they made (`tws` in `TwinP.v`, for every function); with it an invariant for any number of goroutines under any schedule: each is in step with a run on its own. One step reads or writes one slice; no goroutine hands an object to another |
| C98 | `PgpFields.v` | the package `pgp` once more with nil pointers, literals and assignments to every exported field and both variables; a table of what each call asks for, in order, proved right by an invariant between what the program knows and the heap; runs of two programs that differ in fields nothing reads stay in step (`UnreadP.v`); `sets_as_values` is the link to `PgpKeys.v`. Byte slices are values; a pointer is the number of the call that made it, nil is any other number |
| C99 | `Variables.v` | the root package once more, each function with the values that the four variables have when it is called; `variables_unassigned` and `exports_by_variables` are the links to `Mnemonikey.v`; exports go through `PgpFields.v`. The error variables (`ErrTTLInvalid` and so on) are not assigned |
| C100 | `CliScreen.v` | the two lines after each key from `Spec/TypingSpec.v`; exact cells after each escape sequence (`TypingP.v`) |
| C101 | `BigHeap.v`, `BigThreads.v` | the functions of `BigHeap.v` as trees of accesses; two runs of the same code with integers at different places stay in step (`twm` in `BigTwinP.v`, for every function), then as C97. One step reads or writes all of an integer; no goroutine hands an object to another |
| C102 | `CliMain.v` | the whole of `generate_and_print` once more, with the source of the seed, the bytes left for salts and the position of each salt; C19, C20, C57 and C66 give the seed, the salts and the packets |
| C103 | `PgpKeys.v`, `Mnemonikey.v`, `CliMain.v` | what an export contains (`export_good` in `ExportP.v`) names the signature made by `bind_subkey` and `self_certify`, which take no password; C93 and C102 give seed and time of the two runs |
| C104 | `SubHeap.v` | simulation between memory and a log of what was last written to each named thing (`SubHeapP.v`); nothing outside a signature and its lists points to what `Sign` made for it; `sign_ok` of `SignP.v` for verification |
| C105 | `CliMain.v`, `CliFlags.v` | C103 and `recover_draws` (C102) for both sessions; `recover_line` and `generate_line` (C94) bring the command lines to the options |
| C106 | `Scanner.v` | invariants of the buffer over the reads of one Scan; what is to come, read ahead or not, is what `scan_line` of `CliText.v` works on |
| C107 | `CliAhead.v` | the events leave the loop over the lines typed so far and later unchanged; witnesses on the terminal of `ScreenSpec.v` |

Nothing is left out as inexpressible; what stays outside every model is listed under "Not modelled".

## Not modelled

In the package `pgp`: slices of subpackets cut or appended to by the program, bodies of subpackets shared with them (`SubHeap.v` has values there, `SliceHeap.v` has the bytes). Colours, terminals other than the emulator of `Spec/ScreenSpec.v`, goroutine leaks, timing, memory, access by root or through other file descriptors, the cryptographic strength of any primitive.
