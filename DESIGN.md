# A Rocq (Coq 8.16.1) model of opencoff/sigtool

## 1. Shape of the development

`rocq/theories/` (logical name `Verif`), Coq standard library only. Four kinds of file:

| kind | files | contents |
|------|-------|----------|
| model | `Bytes` `GoErr` `GoIO` `GoText` `Base64` | what the code uses of Go: byte strings, fixed-width integers, errors, panics, `io.Reader`/`io.Writer`, `io.ReadFull`, `fullwrite`, text helpers, base64 |
| | `Pb` | internal/pb/hdr_vtproto.pb.go: sizes, backwards marshalling, unmarshalling, `protohelpers.Skip` |
| | `Crypto` | the record of cryptographic primitives (external) with the parameter checks of their Go wrappers |
| | `Keys` `Sign` `KeyFiles` `Ssh` | sign/keys.go, sign/sign.go, sign/ssh.go, sign/iomisc.go (checksum) |
| | `Encrypt` `Decrypt` `Stream` | sign/encrypt.go, sign/stream.go |
| | `Fs` `Store` `Cli` | files, crash points, SafeFile (go-fio), sign/iomisc.go writeFile, the Serialize methods; src/{gen,crypt,sign,verify}.go |
| | `Debug` | sign/encrypt.go Debug, debug and their two uses |
| | `Main` `Flags` | src/sigtool.go: command dispatch, exit status; the option tables of all commands and pflag's parser |
| specification | `Spec` `SpecIO` `SpecStream` `SpecSign` `SpecPb` `SpecBase64` `SpecTrim` `SpecSsh` `SpecFs` `SpecCli` `SpecFlags` `SpecCalls` `SpecCrash` `SpecSecret` `SpecWorld` `SpecDebug` `CryptoLaws` `ExtLaws` | vocabulary of the theorem statements, written from README.md, RFC 4648, the protobuf and OpenSSH formats, not from the code's loops; the laws assumed of external code |
| lemmas | `*Lemmas` `*Proofs` `RoundTrip` `StreamRead` `PbGrammar` `Support` `Hostile` | |
| theorems | `Thm_*` | one theorem or more per property, `Cnn_...`, each followed by an `Example Cnn_instance` which meets its hypotheses on a concrete case |
| concrete cases | `Toy` `ToyExt` `Scene` `CliScene` | a crypto record and a YAML/PEM codec which satisfy all the laws (so the laws are consistent), sessions, files and directories built from them by `vm_compute` |

Every definition of the model carries the file and lines it models, and the simplification made, if any.

`properties.jsonl` lists the properties, `MANIFEST.json` (written by `tools/mkmanifest.py` from the theorem names and
`tools/notes.json`) the theorems; `seeded/LOG.jsonl` the wrong programs the theorems were tried on (`tools/mut.py`).

## 2. How each kind of thing is modelled

* **Slices**: lists of bytes; capacity and aliasing only where observable (the decryptor's shared
  I/O buffer, which the stream reader's `unread` slice points into; the spare capacity of base64 and PEM results, which
  slice expressions of the code may reach into).
* **Integers**: `Z`, with wrap-around written out for uint32/uint64/int32/int64 where the code uses them.
* **Errors / panics**: values; out-of-range slicing, nil dereference, division by zero and explicit `panic` are the
  outcome `Panic`.
* **Readers / writers**: a finite script of events; every Go `Reader`/`Writer` run is such a script.
  A script that never makes progress (a reader returning (0,nil) for ever, a writer accepting 0 bytes for ever)
  is not representable: the real code loops for ever there.
* **Randomness**: an explicit infinite tape with a position.
* **Cryptography**: a record of functions passed as an argument; laws in a separate record `crypto_ok` which is an explicit
  hypothesis of every theorem that needs it. All laws are equations true of the real algorithms
  (lengths; open/seal are inverse in both directions; sign/verify; DH commutes and is not zero; birational map). No
  "collision freeness" is assumed: security statements are reductions (they exhibit the collision or forgery)
  or have the absence of the specific forgery as an explicit hypothesis.
* **YAML, PEM**: a record `ext` of functions; laws `ext_ok` and, for the comment in question, `yaml_keeps`.
* **Files**: directory entries, symbolic links and inodes; the system calls a command makes are a list, a crash is a prefix
  of it, and what survives a crash is the prefix's effect with unsynced file contents arbitrary (`SpecFs.survives`).
* **Commands**: functions from a `world` (files, path resolution, environment, passphrase typed, stdin/stdout, random tape)
  and parsed options to exit status, system calls and standard output.

## 3. Per property: what is modelled, how it is proved

* C01-C06, C16: executable model of both producers and both consumers; a spec grammar for the file; the
  producers are shown to emit the grammar, the consumers to invert it (induction on the plaintext/frames);
  fragmentation by induction on the reader/writer scripts.
* C07: nonces as list of seal calls of one run, `NoDup` when fewer than 2^32 frames; refuted for API reuse and beyond.
* C08, C12, C14, C15: inversion of the accept path of NewDecryptor/SetPrivateKey on arbitrary input.
* C09-C11, C13: induction over the decrypt loop on an arbitrary stream with hypothesis "no frame opens except
  the genuine ones"; the zero-length EOF frame, which the code accepts without authentication, is the exception
  and is exhibited as a refutation of the full claim.
* C17, C18, C27, C28: state-machine lemmas for every state/history.
* C19, C20, C26, C36: the model has explicit `Panic`; prove unreachable, or exhibit.
* C21, C22: arbitrary scripts; `fullwrite` and `read_full` are exactly the loops of single Write and Read calls (`Thm_Loops.v`). C23, C24: exact thresholds, refutation beyond.
* C25, C26: codec theorems by induction; the decoder accepts exactly the wire grammar of `SpecPb`.
* C29: two readers over one buffer: refutation and the single reader theorem.
* C30-C34, C40: codec and hashing-input theorems; YAML is an external codec with stated round-trip laws.
* C35: key-object histories with caches: refutation and the theorem for fresh objects.
* C37-C39: SSH parsers as functions on bytes, against the grammars of `SpecSsh`.
* C41: `Z` arithmetic mod p with `big.Int.ModInverse` modelled by extended Euclid (enough fuel proved).
* C42: SafeFile modelled by go-fio's documented contract; for every crash point the destination holds the old or the complete
  new content (`SpecFs`); without overwrite nothing is touched.
* C43, C50: `generate` as a function; both files, every crash point; refuted across the two files with --overwrite.
* C44-C46, C48, C49, C51, C52: the command functions composed with the library theorems; the exit status is compared with
  the file state at every moment.
* C47, C53, C54: exact characterisations of `verify`'s exit status and of key strings.
* C55: `main` of src/sigtool.go as a function from words to commands (Main.v); the specification relation `stands_for` is separate.
* C56: the command functions; panics are traced to the exact set of crashing key files (SpecCrash.v); generalises C20 to any key.
* C57-C59: length arithmetic over the file grammar; the random tape's positions followed through NewEncryptor, AddRecipient and the
  trailer; the two producers compared chunk list by chunk list.
* C60, C61: induction over call histories on one object.
* C62: `verify` with its two print statements; the message compared with the exit status in every case.
* C63, C64: the commands with standard input and output instead of files; the library theorems for arbitrary readers and writers.
* C65, C66: three commands in a row; the file system after one is the world of the next.
* C67: the parsers' accept paths inverted and rebuilt, against the grammars of `SpecSsh`, `SpecBase64` and the scrypt bounds of `SpecCrash`.
* C68: the system calls of `main` classified (none, one SafeFile, two), then the crash lemmas of `FsProofs`.
* C69: both readers are characterised by the same predicate on the rest of the source (`OpenProofs.decrypt_spec`, `StreamRead.stream_read_spec`); completeness of each gives the agreement (`Thm_Consume`).
* C70: invariant over call histories (`SpecCalls`): the encryptor stays started with a block size of at most 2^30, so the first byte a reuse writes is the top byte of a frame length, never the `S` of the magic. C17 and C18 are proved over the same histories (`Thm_Calls`).
* C71: the flag tables of the commands and pflag's parser (Flags.v, after the published source of spf13/pflag, of which opencoff/pflag is a
  fork) against an inductive grammar of command lines (SpecFlags.v); soundness and completeness by induction on the words.
* C72: the README's lines through `main`; C73: C65 and C66 composed with C71.
* C74: `main`'s outcome by cases on the command, from C45, C48, C49. C75 (modes, and bit by bit who may do what): every `OCreate` of a run with its mode, then which inode a
  path can reach after any prefix of the directory changes.
* C76: from C13's shape of an accepted file, injectivity of `mac_input` and case analysis on which signed message the trailer signs.
* C77: processes as command runs whose system calls are interleaved by a schedule; induction on the schedule with an invariant that relates the
  common file system to what every process would have done alone. Each process sees the files as at one moment (any). C78: induction on the
  history; a concrete schedule refutes it for simultaneous runs.
* C79: case analysis on the signed messages, their lengths and injectivity of the hash inputs (C31). C80: the texts computed from the code,
  compared with the texts of the README; for the commands through C43 and C49.
* C81-C83: for every alternative content, recipient or sender, construct another crypto record which obeys `crypto_ok`, agrees with the given
  one except under the file's secret keys (SpecSecret.v) and gives the same file. The additional data of the three uses of AES-GCM (0, 4
  and 32 bytes) keep the exchanged values apart. The same is proved for files of the stream writer (Thm_Secret, Thm_SenderStream).
* C84: decrypt_spec and determinacy of acceptance give what is left in the source; induction on the list of files.
* C85 (and C20 over histories): invariant over call sequences (not started and ready / started and live); the copy loop's fuel bound.
* C86: every call is charged to the source: the bytes it gives out are fewer than the bytes it consumes, and opening consumed a header of at least 76 bytes more; induction over the calls of SpecCalls. `Thm_Amplify.v`.
* C87: the writer's invariant (all flushed chunks are full, the buffer is non-empty once one was flushed) with a reader on a source that stops after unmarked frames. `Thm_Follow.v`.
* C88: what is read from each form is the key object of the seed (C67, C54, C38); then C30 and the reading theorem of C02/C03. `Thm_Forms.v`.
* C89: as C81/C82 (two crypto records that agree for everybody who does not use certain AES-GCM keys), for the text of a private key file. `Thm_KeySecret.v`.
* C90: case analysis over every exit of the commands of `Cli.v`: standard output is the world's or no file operation is in the trace. `Thm_Dest.v`.
* C91: `SpecWorld.v` runs any schedule of calls over any number of Encryptors and Decryptors that share the random source and the key
  objects; `LocalProofs.v` proves that every call depends on the random source only through the bytes it draws, and that the caches in the
  key objects change no result; the theorem projects the history on each object. Simplification: calls are not interrupted (C94 drops this). `Thm_Together.v`.
* C43, C64 (exit status): `Thm_Exit.v`.
* C92: inversion of `sign`'s body on any writer, `C47_verify_exact` in the second world. `Thm_SignOut.v`.
* C93: debugging messages (`Debug.v`, what each call of a history writes to standard error; hexadecimal and the message layout in
  `SpecDebug.v`, with an explicit reader of message and file). Induction over call histories for the number of messages; the reader is
  shown to invert the frame grammar of C05. `Thm_Debug.v`.
* C94: `Race.v` cuts each call into its accesses to shared data (draws from the random source, loads and stores of the key caches) and runs
  any number of goroutines under any schedule of these steps. A weakest-precondition predicate over one call, with the rely that a cache is
  nil or right and never becomes nil again; an invariant over schedules; refutation by computation for word-by-word slices. `Thm_Race.v`.
* C95: `SpecCalls.dcalls` already interleaves SetPrivateKey and Read (`er_keep`: the unread slice stays in the old buffer). The theorem
  compares the disturbed reader with an undisturbed one that checks no trailer (simulation over the calls), then uses the theorems on
  undisturbed readers. Two counterexamples for signed files. `Thm_Midway.v`.
* C96: `Told.v` runs the commands of `Cli.v` and `Main.v` again with the arguments of each Die and Warn next to the outcome (same outcome:
  `C96_same_outcome`), and fmt.Sprintf for string values. By cases over the paths of each command; the layout by induction on the format
  (`filled`); missing arguments and the advice given then: `Thm_Advice.v`. The texts of errors are a parameter. Refuted for a program name with % (die.go:32 puts it into the format).
* C97: two runs of the commands of `Told.v` in two worlds related by `same_file`, `same_place`, `same_pass`, ...: equal results by rewriting each
  access with its agreement; the loop over the recipients by induction; for generate the second file by the frame of the first write.
* C98: induction over the rewritings (`rewritten`), each step by the round trip of C34 in the sharper form that the object read back is
  `private_key_of` the 64 bytes; the first file by C67.
* C99: every command line is classified by the grammar of SpecFlags.v and the words of C55; `declared` gives the exit status of a wrong
  option: 2 from pflag itself, 0 from encryptUsage and decryptUsage, which pflag calls first.
* C100: the texts (Usage.v) as they stand in /repo/src, what is printed by cases on the command line; that they name the right commands and
  options by searching them inside the proof, for any program name.
* C101: the loop of path.Clean (Paths.v) with an invariant: what is written is the leading `..`s and then proper names, the mark is the length of the
  former; equal to a fold over the pieces; spellings by induction.
* C102: PbBuf.v models the encoder index by index (stores that panic outside of the buffer, copy, EncodeVarint's loop, keys into dAtA[:i]);
  every step is shown to put its bytes in front of what has been stored or to panic for lack of room, and steps compose.
* C103: C99 composed with what each command's theorems say about exit status 0 (C43, C45, C47, C48, C63, C64, C80, C92).
* C104: Mem.v models start, encrypt, Encrypt's loop and the stream writer on the memory they work in (slices of one buffer share it, Seal and Sum store in
  place if there is room); a simulation shows that it gives what the models without memory give, whatever the buffers held.
* C105: `past` is the least relation closed under running any command line in any world over the same disk and stopping it anywhere; C68 by induction
  over it, then C97.
* C106: C105 in both directions; the system calls of the two are then the same lists, and writes to different places commute.
* C107...: see `properties.jsonl` and `MANIFEST.json`.

A property which is false of the code is kept as stated; a theorem `Cnn_..._refuted` proves a concrete run which violates it, and
`Cnn_..._partial` proves what does hold (the notes in `MANIFEST.json` say what is missing).

## 4. Trusted base

* **Coq's kernel** (8.16.1), its `vm_compute` machine, and the standard library's definitions.
* **Axioms**: none. `Print Assumptions` says "Closed under the global context" for every theorem listed in `MANIFEST.json`.
  The development declares no axiom, parameter, module type or functor, and switches off no check. A checker which lists all
  constants without body in the loaded libraries also sees the fields of `Coq.ssr.ssrunder.Under_rel` (`Under_rel`,
  `Under_rel_from_rel`, `Under_relE`, `Over_rel`, `over_rel`, `over_rel_done`, `under_rel_done`): a standard library module
  sealed by a module type, loaded through `ZifyBool`; no theorem depends on it.
* **Hypotheses** that stand in for external code, always visible in the statement: `crypto_ok C` (`CryptoLaws.v`),
  `ext_ok E` and `yaml_keeps E comment` (`ExtLaws.v`), `no_accident` (a wrapped key of somebody else does not open by chance),
  absence of a named AEAD forgery, hash collision or signature forgery. `Toy.v` and `ToyExt.v` prove the laws consistent.
* **The model is the code**: that the definitions say what the Go text says. They were written by reading, function by function;
  nothing was extracted or run against the Go program.

### Modelled

sign/encrypt.go, sign/stream.go, sign/keys.go, sign/sign.go, sign/ssh.go, sign/iomisc.go, sign/rand.go, internal/pb/hdr_vtproto.pb.go
(all functions reachable from the exported API of package sign; `GetHdr`-style getters are record projections),
src/gen.go, src/crypt.go, src/sign.go, src/verify.go, src/sigtool.go (with option parsing, `Flags.v`, and the usage texts, `Usage.v`), src/die.go (exit status and messages).
Of external code: io.ReadFull, encoding/base64, encoding/binary, math/big.ModInverse, bytes/strings helpers, regexp Split on
blanks, protohelpers, pflag, path.Clean, path.Base, x/crypto/ssh.Unmarshal for the structs used, the parameter checks of scrypt, bcrypt_pbkdf, AES, X25519 and
Ed25519, written from their published sources.

### Not modelled

* Exhaustion of memory or time (a hostile file may ask for a 1 GiB buffer or a huge scrypt N), readers and writers that
  never make progress, failure of the system's random source (the code panics).
* Concurrency: no function of the repository starts a goroutine; concurrent use of one Encryptor, Decryptor or stream by several callers is
  outside. Of shared key objects the order of memory accesses is taken to be one order of all steps (no weak memory model).
* yaml.v2, encoding/pem, x509.IsEncryptedPEMBlock, go-fio SafeFile, go-mmap, go-utils (Askpass, ParseSize), user
  look-up: functions or environment answers with the laws named above; nothing is proved about their insides.
* The file system: no directories or devices, and permission bits are recorded (C75) but not enforced: whether a file may be read is an
  answer of the environment; nobody else changes files during a command (but see C77, C78: other runs of sigtool); mkdir of missing
  directories. After a crash unsynced data may be lost or partial, but renames are applied in order.
* Texts of error messages (only the error's identity and what it wraps), what pflag and the Go run time write to stderr, the lists of options pflag prints, timing and other side channels,
  memory wiping, and computational secrecy (C81-C83 say what a file can show to someone who cannot evaluate the keyed functions;
  nothing is said about how hard that is, and nothing is probabilistic).
* sign/*_test.go, tests.sh, build scripts, the reflection-based half of the generated protobuf code (hdr.pb.go) and the
  in-place variants MarshalToVT of hdr_vtproto.pb.go, which call MarshalToSizedBufferVT (modelled).
