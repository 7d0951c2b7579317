{"id": "C01", "title": "Whole-file encrypt/decrypt round trip", "statement": "If NewEncryptor(sender,blksize) with blksize < 1 GiB, AddRecipient for one or more keys, and Encrypt(rd,wr) all succeed, and the resulting header is within the decoder's 1 MiB limit, then for every recipient private key NewDecryptor, SetPrivateKey(key, sender's public key or nil if anonymous) and Decrypt all succeed and write exactly the bytes that were read from rd.", "quantifier": "every plaintext (any length, including 0 and exact multiples of the block size), every block size below 1 GiB, every recipient list, every random tape, every fragmentation of reads and of writes, signed or anonymous sender", "why_tests_cant": "a test samples a few sizes, one fragmentation and one recipient order; boundary sizes relative to the block size and all fragmentations cannot be enumerated", "anchors": ["sign/encrypt.go:NewEncryptor", "sign/encrypt.go:Encryptor.Encrypt", "sign/encrypt.go:NewDecryptor", "sign/encrypt.go:Decryptor.SetPrivateKey", "sign/encrypt.go:Decryptor.Decrypt"]}
{"id": "C02", "title": "Streaming encrypt/decrypt round trip", "statement": "For any sequence of Write calls on NewStreamWriter's result followed by Close, the file produced decrypts, through NewStreamReader with any sequence of non-empty Read buffer sizes, to exactly the concatenation of the written bytes, followed by io.EOF; every Write reports the full length of its argument.", "quantifier": "every sequence of write sizes (including empty writes), every sequence of read sizes, every block size below 1 GiB, every recipient/sender choice", "why_tests_cant": "the buffering/flush-deferral logic has infinitely many interleavings of partial chunk, full chunk and pending flush", "anchors": ["sign/stream.go:Encryptor.NewStreamWriter", "sign/stream.go:encWriter.Write", "sign/stream.go:encWriter.Close", "sign/stream.go:Decryptor.NewStreamReader", "sign/stream.go:encReader.Read"]}
{"id": "C03", "title": "Whole-file and streaming interfaces interoperate", "statement": "A file produced by the stream writer decrypts with Decrypt, and a file produced by Encrypt decrypts with the stream reader, in both cases to exactly the original bytes.", "quantifier": "every plaintext, every write/read fragmentation, every block size below 1 GiB", "why_tests_cant": "the two producers chunk differently at exact multiples of the block size; agreement must hold for all of them", "anchors": ["sign/encrypt.go:Encryptor.Encrypt", "sign/stream.go:encWriter.Write", "sign/encrypt.go:Decryptor.Decrypt", "sign/stream.go:encReader.Read"]}
{"id": "C04", "title": "Encrypted bytes do not depend on I/O fragmentation", "statement": "With the same randomness, keys and plaintext bytes, Encrypt writes exactly the same output bytes however the source splits its reads (short reads, zero-byte reads, EOF with or after the data) and however the destination splits its writes.", "quantifier": "every error-free fragmentation of the reader and of the writer", "why_tests_cant": "fragmentations are unbounded sequences", "anchors": ["sign/encrypt.go:Encryptor.Encrypt", "sign/encrypt.go:fullwrite"]}
{"id": "C05", "title": "Output file format", "statement": "A successful Encrypt writes exactly: \"SigTool\", version byte 3, 4-byte big-endian length of the variable header, the protobuf header, SHA-256 of everything so far, the sequence of frames (4-byte big-endian plaintext length, with the top bit set on the last frame only, then ciphertext||tag), then a 64-byte trailer; nothing else.", "quantifier": "every plaintext, recipient set, sender choice, block size", "why_tests_cant": "a byte-for-byte grammar for all inputs; other implementations depend on it", "anchors": ["sign/encrypt.go:Encryptor.start", "sign/encrypt.go:Encryptor.encrypt", "sign/encrypt.go:Encryptor.writeTrailer", "README.md:Format of the Encrypted File"]}
{"id": "C06", "title": "Chunk sizes and single EOF marker", "statement": "Every frame written carries at most ChunkSize plaintext bytes, every frame but the last carries exactly ChunkSize, exactly one frame (the last) has the EOF bit, and the frames' plaintexts concatenate to the input. Encrypt's last frame is shorter than ChunkSize; the stream writer's last frame is non-empty unless nothing was written.", "quantifier": "every plaintext and block size, both producers", "why_tests_cant": "boundary behaviour at all multiples of all block sizes", "anchors": ["sign/encrypt.go:Encryptor.Encrypt", "sign/stream.go:encWriter.Write", "sign/stream.go:encWriter.Close"]}
{"id": "C07", "title": "AEAD nonces never repeat under the data key", "statement": "All frames sealed under one data key use pairwise different 12-byte nonces.", "quantifier": "every plaintext and block size and every sequence of API calls on one Encryptor", "why_tests_cant": "needs a counter argument over 2^32 blocks and over call histories", "anchors": ["sign/encrypt.go:Encryptor.encrypt", "sign/encrypt.go:Encryptor.Encrypt", "sign/stream.go:Encryptor.NewStreamWriter"]}
{"id": "C08", "title": "Header corruption is detected", "statement": "NewDecryptor accepts a stream only if its first 8 bytes are magic+version, the length is in [32, 1048576], and the 32 bytes after the header equal SHA-256 of the fixed+variable header. Hence changing any header byte of a produced file other than the length field, while keeping the checksum, either makes NewDecryptor fail or exhibits a SHA-256 collision.", "quantifier": "every byte stream, every modification", "why_tests_cant": "all corruptions", "anchors": ["sign/encrypt.go:NewDecryptor"]}
{"id": "C09", "title": "A truncated encrypted file never decrypts to wrong data", "statement": "If the encrypted file is cut at any byte (crash of the producer, interrupted transfer), decrypting what is left either fails or yields the complete original plaintext; whatever was written before failing is a prefix of the original plaintext.", "quantifier": "every plaintext, every cut point, both producers", "why_tests_cant": "every crash point of every file", "anchors": ["sign/encrypt.go:Decryptor.Decrypt", "sign/encrypt.go:Decryptor.decrypt", "sign/encrypt.go:Decryptor.processTrailer"]}
{"id": "C10", "title": "Successful decryption means the complete plaintext", "statement": "If Decrypt returns nil on a (possibly modified) body following a genuine header, and no AEAD forgery under the data key occurred, then the bytes written are exactly the original plaintext.", "quantifier": "every modification of the body: dropping, reordering, duplicating, truncating, extending, altering frames", "why_tests_cant": "an adversary picks the stream; all modifications must be considered", "anchors": ["sign/encrypt.go:Decryptor.decrypt", "sign/encrypt.go:Decryptor.Decrypt"]}
{"id": "C11", "title": "Bytes released before an error are genuine and in order", "statement": "Whatever Decrypt writes to its destination (or the stream reader returns), before success or failure, is a prefix of the original plaintext, absent an AEAD forgery.", "quantifier": "every modified body, every failure point, every writer fragmentation", "why_tests_cant": "all adversarial streams and failure points", "anchors": ["sign/encrypt.go:Decryptor.Decrypt", "sign/stream.go:encReader.Read"]}
{"id": "C12", "title": "Reported sender authentication is backed by a signature", "statement": "If after SetPrivateKey(sk, pk) on a fresh Decryptor AuthenticatedSender() is true, then pk was supplied and the header contains an Ed25519 signature valid under pk over magic, version, the file's ephemeral public key, salt and root key.", "quantifier": "every header, every key", "why_tests_cant": "all headers, including adversarial", "anchors": ["sign/encrypt.go:Decryptor.SetPrivateKey", "sign/encrypt.go:Decryptor.verifySender", "sign/encrypt.go:Decryptor.AuthenticatedSender"]}
{"id": "C13", "title": "Authenticated content is covered by the sender's trailer signature", "statement": "If Decrypt succeeds while AuthenticatedSender() is true, the sender's key signed the HMAC of exactly the frames that were output (so another recipient, who knows the root key, cannot substitute content).", "quantifier": "every stream, including ones crafted by a legitimate recipient", "why_tests_cant": "adversarial streams by insiders", "anchors": ["sign/encrypt.go:Decryptor.processTrailer", "sign/encrypt.go:Decryptor.decrypt"]}
{"id": "C14", "title": "A requested sender check is enforced", "statement": "If SetPrivateKey is given a sender public key and succeeds, the file was signed by that sender (AuthenticatedSender() is true). A signed file with no sender key given fails with ErrNoSenderPK; with a non-verifying key it fails with ErrBadSender.", "quantifier": "every header and every supplied sender key", "why_tests_cant": "all headers, including anonymous ones produced by anybody", "anchors": ["sign/encrypt.go:Decryptor.SetPrivateKey", "sign/encrypt.go:Decryptor.verifySender"]}
{"id": "C15", "title": "A non-recipient cannot obtain the key", "statement": "If none of the wrapped keys opens under the supplied private key, SetPrivateKey fails (with ErrBadKey, unless the file's ephemeral key is a point whose shared secret with the key is zero, which is refused earlier), and Decrypt/NewStreamReader then fail with ErrNoKey and nothing is written.", "quantifier": "every header with any number of recipients, every private key", "why_tests_cant": "all headers/keys", "anchors": ["sign/encrypt.go:Decryptor.SetPrivateKey", "sign/encrypt.go:Decryptor.unwrapKey", "sign/encrypt.go:Decryptor.Decrypt", "sign/stream.go:Decryptor.NewStreamReader"]}
{"id": "C16", "title": "All recipients recover the same root key regardless of order", "statement": "Every recipient added before encryption starts recovers the same root key, whatever its position in the list and however many other recipients there are (also when a key is added twice).", "quantifier": "every recipient list and position", "why_tests_cant": "lists are unbounded", "anchors": ["sign/encrypt.go:Encryptor.wrapKey", "sign/encrypt.go:Decryptor.unwrapKey", "sign/encrypt.go:Encryptor.AddRecipient"]}
{"id": "C17", "title": "Recipients cannot be added once encryption has started", "statement": "After a successful Encrypt or NewStreamWriter, AddRecipient fails with ErrEncStarted and changes nothing; a failed AddRecipient never changes the encryptor.", "quantifier": "every history of calls", "why_tests_cant": "histories are unbounded", "anchors": ["sign/encrypt.go:Encryptor.AddRecipient"]}
{"id": "C18", "title": "Mode-mixing guards", "statement": "Encrypt after NewStreamWriter fails with ErrEncIsStream and writes nothing; Decrypt after NewStreamReader fails with ErrDecStarted, Decrypt and NewStreamReader after a successful Decrypt fail with io.EOF; none of them reads or writes anything.", "quantifier": "every history of calls on one object", "why_tests_cant": "histories are unbounded", "anchors": ["sign/encrypt.go:Encryptor.Encrypt", "sign/encrypt.go:Decryptor.Decrypt", "sign/stream.go:Encryptor.NewStreamWriter", "sign/stream.go:Decryptor.NewStreamReader"]}
{"id": "C19", "title": "NewDecryptor is total and bounded on hostile input", "statement": "On any byte stream with any fragmentation NewDecryptor returns a value or an error, never panics, and consumes at most 12+1048576+32 bytes; on success the header has 1 <= ChunkSize < 2^30, a 32-byte salt, at least one wrapped key, every wrapped key longer than 32 bytes.", "quantifier": "every byte stream", "why_tests_cant": "hostile inputs cannot be enumerated", "anchors": ["sign/encrypt.go:NewDecryptor", "internal/pb/hdr_vtproto.pb.go:Header.UnmarshalVT"]}
{"id": "C20", "title": "Decrypt never panics after a successful SetPrivateKey; after a failed one it reports ErrNoKey", "statement": "After SetPrivateKey succeeds, Decrypt and stream Read never panic (no slice goes out of range, no nil cipher), whatever the stream contains. After SetPrivateKey fails, Decrypt fails with ErrNoKey.", "quantifier": "every stream, every header, every outcome of SetPrivateKey", "why_tests_cant": "hostile inputs and error histories", "anchors": ["sign/encrypt.go:Decryptor.decrypt", "sign/encrypt.go:Decryptor.Decrypt", "sign/encrypt.go:Decryptor.SetPrivateKey"]}
{"id": "C21", "title": "I/O errors are never swallowed", "statement": "If Encrypt returns nil, the source reported end-of-file (no other error) after delivering all of its data, and the destination accepted every byte; if Decrypt returns nil, the destination accepted every byte. Any write error is returned to the caller.", "quantifier": "every reader/writer behaviour, including errors at any point", "why_tests_cant": "all failure points", "anchors": ["sign/encrypt.go:Encryptor.Encrypt", "sign/encrypt.go:fullwrite", "sign/encrypt.go:Decryptor.Decrypt"]}
{"id": "C22", "title": "fullwrite delivers everything or reports an error", "statement": "When a library-internal write returns nil all bytes were accepted in order exactly once; when it returns an error a prefix was accepted.", "quantifier": "every short-write schedule", "why_tests_cant": "unbounded schedules", "anchors": ["sign/encrypt.go:fullwrite"]}
{"id": "C23", "title": "Block size handling", "statement": "NewEncryptor uses 4 MiB for block size 0, and the requested size otherwise; every file produced with an accepted block size can be decrypted.", "quantifier": "every 64-bit block size", "why_tests_cant": "2^64 values", "anchors": ["sign/encrypt.go:NewEncryptor", "sign/encrypt.go:NewDecryptor"]}
{"id": "C24", "title": "Number of recipients", "statement": "A file encrypted to any number of recipients can be decrypted: the header's size limit is never exceeded by a file that Encrypt produced successfully.", "quantifier": "every number of recipients", "why_tests_cant": "the limit is only reached with ~16000 recipients", "anchors": ["sign/encrypt.go:Encryptor.start", "sign/encrypt.go:NewDecryptor"]}
{"id": "C25", "title": "Protobuf header codec round trip", "statement": "Marshalling a header and unmarshalling the bytes yields the same header; the size computed beforehand equals the number of bytes written; marshalling never overruns its buffer.", "quantifier": "every header with a 32-bit chunk size, arbitrary byte fields and arbitrary many wrapped keys", "why_tests_cant": "infinitely many headers, varint boundaries", "anchors": ["internal/pb/hdr_vtproto.pb.go:Header.SizeVT", "internal/pb/hdr_vtproto.pb.go:Header.MarshalToSizedBufferVT", "internal/pb/hdr_vtproto.pb.go:Header.UnmarshalVT", "internal/pb/hdr_vtproto.pb.go:WrappedKey.UnmarshalVT"]}
{"id": "C26", "title": "Protobuf decoder is safe on arbitrary bytes", "statement": "Unmarshalling any byte string terminates with a header or an error: no index is ever out of range; accepted unknown fields are kept byte-for-byte; the decoder never yields more field bytes than the input holds.", "quantifier": "every byte string", "why_tests_cant": "hostile input", "anchors": ["internal/pb/hdr_vtproto.pb.go:Header.UnmarshalVT", "internal/pb/hdr_vtproto.pb.go:WrappedKey.UnmarshalVT"]}
{"id": "C27", "title": "Stream writer error and close discipline", "statement": "After Close or after any failed Write/Close, every later Write returns (0, the recorded error) and every later Close returns the recorded error, with no byte written to the destination; before that a successful Write reports len(b).", "quantifier": "every sequence of Write/Close calls and every destination behaviour", "why_tests_cant": "histories", "anchors": ["sign/stream.go:encWriter.Write", "sign/stream.go:encWriter.Close"]}
{"id": "C28", "title": "Stream reader error discipline", "statement": "After Read has returned an error (including io.EOF), every later Read returns (0, the same error) without touching the source; Read never returns more bytes than len(b), and returns (0,nil) only for an empty buffer.", "quantifier": "every sequence of Read calls on every stream", "why_tests_cant": "histories", "anchors": ["sign/stream.go:encReader.Read"]}
{"id": "C29", "title": "Stream readers do not corrupt each other's data", "statement": "Data returned by a stream reader is the decrypted data of the stream, even if another stream reader was created on the same Decryptor and used in between.", "quantifier": "every interleaving of Read calls of two readers", "why_tests_cant": "interleavings", "anchors": ["sign/stream.go:Decryptor.NewStreamReader", "sign/stream.go:encReader.Read", "sign/encrypt.go:Decryptor.decrypt"]}
{"id": "C30", "title": "Message and file signatures verify", "statement": "A signature made by SignMessage(ck) / SignFile(fn) with a key verifies with VerifyMessage(ck) / VerifyFile(fn) under the corresponding public key, IsPKMatch is true for it; VerifyFile/SignFile fail with an error if the file cannot be read.", "quantifier": "every key, message and file content of any size", "why_tests_cant": "infinitely many messages", "anchors": ["sign/sign.go:PrivateKey.SignMessage", "sign/sign.go:PrivateKey.SignFile", "sign/sign.go:PublicKey.VerifyMessage", "sign/sign.go:PublicKey.VerifyFile", "sign/sign.go:Signature.IsPKMatch"]}
{"id": "C31", "title": "The file signature binds content and length; messages are domain separated", "statement": "The string hashed for a file determines the file's content and its size: two different files give different hash inputs, so a signature of one file accepted for another exhibits a SHA-512 collision or an Ed25519 forgery.", "quantifier": "every pair of files", "why_tests_cant": "all pairs", "anchors": ["sign/iomisc.go:fileCksum", "sign/sign.go:PrivateKey.SignMessage"]}
{"id": "C32", "title": "Signature serialization round trip", "statement": "MarshalBinary(comment) followed by UnmarshalBinary gives back the same signature bytes and key hash, for every comment.", "quantifier": "every signature and every comment", "why_tests_cant": "all byte strings", "anchors": ["sign/sign.go:Signature.MarshalBinary", "sign/sign.go:Signature.UnmarshalBinary", "sign/sign.go:makeSignature"]}
{"id": "C33", "title": "Public key serialization round trip", "statement": "MarshalBinary(comment) followed by UnmarshalBinary/MakePublicKey gives the same 32 key bytes and the same hash, for every comment: the YAML form is never mistaken for an OpenSSH key; the hash in the file is not trusted but recomputed; keys of any other length are rejected.", "quantifier": "every key and every comment", "why_tests_cant": "the SSH-first parsing order makes this input dependent", "anchors": ["sign/keys.go:PublicKey.MarshalBinary", "sign/keys.go:PublicKey.UnmarshalBinary", "sign/keys.go:makePublicKeyFromBytes", "sign/ssh.go:parseSSHPublicKey"]}
{"id": "C34", "title": "Private key serialization round trip and password protection", "statement": "MarshalBinary(comment,pw) followed by UnmarshalBinary with the same password returns the same key pair; with any password for which the derived key does not open the blob it fails and leaves the key object unchanged.", "quantifier": "every key, password, comment, salt", "why_tests_cant": "all passwords", "anchors": ["sign/keys.go:PrivateKey.MarshalBinary", "sign/keys.go:PrivateKey.UnmarshalBinary", "sign/keys.go:makePrivateKeyFromBytes"]}
{"id": "C35", "title": "Unmarshalling replaces a key object completely", "statement": "After a successful UnmarshalBinary into an existing PublicKey/PrivateKey object, every later operation uses the newly loaded key only.", "quantifier": "every history of operations on one key object", "why_tests_cant": "depends on caching history", "anchors": ["sign/keys.go:PublicKey.UnmarshalBinary", "sign/keys.go:PublicKey.ToCurve25519PK", "sign/keys.go:PrivateKey.ToCurve25519SK", "sign/keys.go:makePublicKeyFromBytes"]}
{"id": "C36", "title": "Parsing keys never panics", "statement": "UnmarshalBinary of public keys, private keys and MakePublicKeyFromString return a key or an error on any input.", "quantifier": "every byte string", "why_tests_cant": "hostile inputs", "anchors": ["sign/keys.go:PublicKey.UnmarshalBinary", "sign/keys.go:PrivateKey.UnmarshalBinary", "sign/keys.go:MakePublicKeyFromString", "sign/ssh.go:parseEncPubKey", "sign/ssh.go:parseOpenSSHPrivateKey"]}
{"id": "C37", "title": "OpenSSH public keys are parsed exactly", "statement": "An OpenSSH line \"ssh-ed25519 <base64 of wire key> comment\" parses to exactly its 32 key bytes and its trimmed comment; trailing junk in the blob, a wrong key length or a truncated blob is rejected.", "quantifier": "every key and comment", "why_tests_cant": "all inputs", "anchors": ["sign/ssh.go:parseSSHPublicKey", "sign/ssh.go:parseEncPubKey", "sign/ssh.go:parseString"]}
{"id": "C38", "title": "authorized_keys parsing", "statement": "ParseAuthorizedKeys never fails or panics; for a file consisting of comment lines, blank lines, and entries \"[options] ssh-ed25519 <blob> <comment>\" or entries of other key types, it returns exactly the ed25519 keys in file order; each line is independent of the others.", "quantifier": "every file content", "why_tests_cant": "all files", "anchors": ["sign/ssh.go:ParseAuthorizedKeys", "sign/ssh.go:parseAuthorizedKey"]}
{"id": "C39", "title": "OpenSSH private key container", "statement": "An unencrypted openssh-key-v1 container with one ed25519 key yields exactly the 64 key bytes stored in it; a container is accepted only with the right magic, exactly one key, equal check words, 64-byte key and padding 1,2,3,...", "quantifier": "every container", "why_tests_cant": "all containers", "anchors": ["sign/ssh.go:parseOpenSSHPrivateKey", "sign/ssh.go:extractBcryptIvBlock"]}
{"id": "C40", "title": "Base64 fields round trip", "statement": "The text encoding used for keys and signatures decodes to the original bytes, ignores embedded CR/LF, and rejects characters outside the alphabet, bad padding and trailing data.", "quantifier": "every byte string", "why_tests_cant": "all strings", "anchors": ["sign/keys.go:PublicKey.MarshalBinary", "sign/sign.go:makeSignature"]}
{"id": "C41", "title": "Ed25519 to Curve25519 conversion", "statement": "ToCurve25519PK returns the 32-byte little-endian encoding, below p = 2^255-19, of u with u*(1-y) = 1+y mod p whenever 1-y is invertible mod p, and 0 otherwise; the sign bit of x is irrelevant; repeated calls return the same value. ToCurve25519SK returns the clamped first half of SHA-512 of the seed.", "quantifier": "all 2^256 public keys", "why_tests_cant": "field arithmetic over all inputs", "anchors": ["sign/keys.go:PublicKey.ToCurve25519PK", "sign/keys.go:PrivateKey.ToCurve25519SK", "sign/keys.go:clamp"]}
{"id": "C42", "title": "Key/signature file writes are atomic and respect overwrite", "statement": "Writing a key or signature file leaves, at every crash point, either the old content (or absence) or the complete new content at the destination; without overwrite an existing file is never changed.", "quantifier": "every crash point, every prior filesystem state", "why_tests_cant": "crash points", "anchors": ["sign/iomisc.go:writeFile", "sign/keys.go:PrivateKey.Serialize", "sign/keys.go:PublicKey.Serialize", "sign/sign.go:Signature.Serialize"]}
{"id": "C43", "title": "CLI generate refuses to overwrite", "statement": "`generate` without --overwrite never changes an existing key or public key file; on success both files exist and belong to the same key pair; a crash never leaves a partial file under either name.", "quantifier": "every prior filesystem state and every crash point", "why_tests_cant": "crash points", "anchors": ["src/gen.go:gen", "src/sigtool.go:exists"]}
{"id": "C44", "title": "CLI encrypt/decrypt never clobber the input file", "statement": "encrypt/decrypt with -o refuse to run if the output file is the same file as the input.", "quantifier": "every pair of input/output names and filesystem states", "why_tests_cant": "requires reasoning about all aliases", "anchors": ["src/crypt.go:encrypt", "src/crypt.go:decrypt"]}
{"id": "C45", "title": "CLI decrypt is all-or-nothing on the output file", "statement": "If `decrypt -o F` exits non-zero, F is unchanged (nothing partial appears); if it exits zero, F holds the complete decrypted plaintext.", "quantifier": "every input file, every failure point", "why_tests_cant": "failure points", "anchors": ["src/crypt.go:decrypt", "src/die.go:Die", "src/die.go:Exit"]}
{"id": "C46", "title": "CLI decrypt -v enforces the sender", "statement": "If `decrypt -v sender.pub` exits 0, the file was authenticated by that sender.", "quantifier": "every input file", "why_tests_cant": "adversarial files", "anchors": ["src/crypt.go:decrypt"]}
{"id": "C47", "title": "CLI verify exit status", "statement": "`verify` exits 0 if and only if the public key, the signature and the file can be read, the signature names that public key and the signature verifies for the file content.", "quantifier": "every key, signature file and data file", "why_tests_cant": "all inputs", "anchors": ["src/verify.go:verify"]}
{"id": "C48", "title": "CLI encrypt resolves recipients correctly or not at all", "statement": "`encrypt` produces output only if every recipient argument was resolved (a file holding a public key, or user@host found as a comment in authorized_keys), and the file is then encrypted to exactly those keys in that order; otherwise it exits non-zero and leaves the output untouched.", "quantifier": "every recipient list and authorized_keys content", "why_tests_cant": "all lists", "anchors": ["src/crypt.go:encrypt"]}
{"id": "C49", "title": "CLI sign is all-or-nothing and truthful", "statement": "If `sign` exits non-zero the signature file is unchanged at every moment; if it exits 0 the signature file holds the complete signature of the input by the given key; an existing signature file is replaced only with --overwrite.", "quantifier": "every key, input, prior file system state, I/O failure and crash point", "why_tests_cant": "failure points and crash points", "anchors": ["src/sign.go:signify", "sign/sign.go:SignFile", "sign/sign.go:MarshalBinary"]}
{"id": "C50", "title": "generate keeps the two files of a key pair consistent", "statement": "Whenever `generate` is interrupted, the .key and .pub files present belong together: for new files there is neither, only the complete private key, or both, complete and of one key; with --overwrite they are both the old ones or both the new ones.", "quantifier": "every crash point between and within system calls, every power failure, every error of a system call, every key and passphrase", "why_tests_cant": "tests do not crash the program between its system calls", "anchors": ["src/gen.go:gen", "sign/keys.go:PrivateKey.Serialize", "sign/keys.go:PublicKey.Serialize", "sign/iomisc.go:writeFile"]}
{"id": "C51", "title": "CLI encrypt followed by CLI decrypt gives back the input file", "statement": "If `encrypt -o F to... in` exits 0, then `decrypt` of F with the private key file of any of the named recipients (and -v with the sender's public key if it was signed) exits 0 and its output file holds exactly the content of the input.", "quantifier": "every input, recipient list (files and user@host), key files, passphrase source, block size below 1 GiB, up to 15885 recipients, every fragmentation of reads and writes", "why_tests_cant": "ranges over all files, keys and recipient lists, and over how the operating system splits the I/O", "anchors": ["src/crypt.go:encrypt", "src/crypt.go:decrypt"]}
{"id": "C52", "title": "CLI sign followed by CLI verify exits 0", "statement": "If `sign key in` exits 0 without I/O errors on the signature file, `verify` with the matching public key - as a file or as a string -, the signature file and the same input exits 0.", "quantifier": "every key pair, input file, input name and output name other than the input itself", "why_tests_cant": "ranges over all keys, contents and names", "anchors": ["src/sign.go:signify", "src/verify.go:verify"]}
{"id": "C53", "title": "CLI verify always ends with a verdict", "statement": "`verify` never crashes: it exits 0 or 1 whatever the key argument, the signature file and the input are.", "quantifier": "every argument list and every content of the files", "why_tests_cant": "ranges over all hostile key strings and files", "anchors": ["src/verify.go:verify", "sign/keys.go:MakePublicKeyFromString", "sign/keys.go:PublicKey.UnmarshalBinary"]}
{"id": "C54", "title": "A public key can be given as a string", "statement": "MakePublicKeyFromString of the base64 of a 32-byte public key, or of an OpenSSH Ed25519 key blob, returns that key; any other string is an error.", "quantifier": "every string and every key", "why_tests_cant": "a 32-byte key may look like the beginning of an OpenSSH blob of another type; random tests never hit this", "anchors": ["sign/keys.go:MakePublicKeyFromString", "sign/ssh.go:parseEncPubKey"]}
{"id": "C55", "title": "Command words", "statement": "The first word on the command line runs exactly the command whose name it begins, in any letter case; no word stands for two commands. Any other word, or none, exits with 1 without touching a file or writing to standard output; --version and --help exit with 0 and touch no file.", "quantifier": "every word (including non-ASCII and invalid UTF-8), every file system and every rest of the command line", "why_tests_cant": "ranges over all words; Unicode case folding maps two non-ASCII characters into ASCII", "anchors": ["src/sigtool.go:main"]}
{"id": "C56", "title": "The commands crash only on malformed key files", "statement": "encrypt, decrypt, sign and generate always end with exit status 0 or 1, whatever is encrypted, decrypted or signed and whatever errors the file system reports, unless a key file named on the command line is of a kind that makes its parser crash (C36); generate never crashes.", "quantifier": "every command line, every content of all files (also hostile encrypted input and authorized_keys), every reader and writer behaviour", "why_tests_cant": "ranges over all hostile inputs and I/O errors", "anchors": ["src/crypt.go:encrypt", "src/crypt.go:decrypt", "src/sign.go:signify", "src/gen.go:gen"]}
{"id": "C57", "title": "Exact size of an encrypted file", "statement": "A file written by Encrypt for n bytes of plaintext, r recipients and chunk size c has exactly 12 + (151 + d + 66 r) + 32 + 20 k + n + 64 bytes, where d is the number of 7-bit groups of c and k = n/c + 1; a file written through the stream writer has the same size with k = max(1, ceil(n/c)). The size does not depend on the sender, on the randomness or on how the bytes were supplied.", "quantifier": "all crypto implementations, senders (or none), recipients, block sizes up to 1 GiB, plaintexts, fragmentations of reads and writes", "why_tests_cant": "ranges over all plaintext lengths, recipient lists and I/O schedules", "anchors": ["sign/encrypt.go:Encrypt", "sign/encrypt.go:start", "sign/encrypt.go:encrypt", "sign/stream.go:Write", "sign/stream.go:Close"]}
{"id": "C58", "title": "Every random quantity is drawn once", "statement": "The ephemeral key, the root key, the salt, the nonce of each recipient and, for a file without sender, the trailer are consecutive disjoint pieces of the system random source, in that order, and nothing else is drawn: no two of these quantities, within one file or across files made one after the other, share a random byte.", "quantifier": "all states of the random source, senders, recipient lists, plaintexts", "why_tests_cant": "a test sees single draws and cannot see that no byte is used twice for every recipient list", "anchors": ["sign/encrypt.go:NewEncryptor", "sign/encrypt.go:AddRecipient", "sign/encrypt.go:wrapKey", "sign/encrypt.go:newSender", "sign/encrypt.go:writeTrailer"]}
{"id": "C59", "title": "Encrypt and the stream writer produce the same file", "statement": "For the same session, randomness and plaintext, Encrypt and the stream writer produce identical bytes exactly if the plaintext is empty or its length is not a multiple of the chunk size; otherwise Encrypt writes an additional empty last frame.", "quantifier": "all sessions, plaintexts, splits into Write calls, reader and writer fragmentations", "why_tests_cant": "ranges over all plaintexts, splits and schedules", "anchors": ["sign/encrypt.go:Encrypt", "sign/stream.go:NewStreamWriter", "sign/stream.go:Write", "sign/stream.go:Close"]}
{"id": "C60", "title": "The last SetPrivateKey call decides", "statement": "After any sequence of SetPrivateKey calls on a Decryptor, the last call determines the key and the expected sender used by Decrypt and the stream reader, and AuthenticatedSender reports whether that call verified the sender.", "quantifier": "all files and hostile inputs accepted by NewDecryptor, all sequences of SetPrivateKey calls, succeeding or failing, with any genuine private keys and any sender keys", "why_tests_cant": "ranges over all call histories", "anchors": ["sign/encrypt.go:SetPrivateKey", "sign/encrypt.go:verifySender", "sign/encrypt.go:AuthenticatedSender"]}
{"id": "C61", "title": "A rejected recipient leaves no trace", "statement": "Whatever AddRecipient calls are made before encryption starts, some of them failing, the Encryptor and the random source are afterwards exactly those of a session in which only the accepted recipients were added; a 32-byte key is rejected exactly if the shared secret with it is all zeros.", "quantifier": "all sequences of AddRecipient calls, all keys, all random sources", "why_tests_cant": "ranges over all sequences of succeeding and failing calls", "anchors": ["sign/encrypt.go:AddRecipient", "sign/encrypt.go:wrapKey", "sign/keys.go:ToCurve25519PK"]}
{"id": "C62", "title": "verify's message agrees with its exit status", "statement": "sigtool verify changes no file; without --quiet it prints '<file>: Signature <sig> verified' exactly when it exits 0 and '... verification failure' when key, signature and file are readable, the signature names that key and the signature is wrong; if the key, the signature or the file cannot be read, or the signature names another key, it prints nothing; with --quiet it never prints anything and the exit status is the same.", "quantifier": "all keys, signatures, file contents, argument lists and --quiet settings", "why_tests_cant": "ranges over all inputs including forged and malformed ones", "anchors": ["src/verify.go:verify"]}
{"id": "C63", "title": "decrypt to standard output", "statement": "sigtool decrypt without an output file touches no file; it exits 0 iff the whole input decrypts and standard output takes everything, and then exactly the plaintext is on standard output; whatever the exit status, if the input starts like a genuine file and continues without forged chunks, what is on standard output is a beginning of the original plaintext.", "quantifier": "all inputs, all ways of delivering them, all behaviours of standard output", "why_tests_cant": "all corruptions and all partial reads/writes", "anchors": ["src/crypt.go:decrypt", "sign/encrypt.go:Decrypt"]}
{"id": "C64", "title": "encrypt | decrypt through a pipe", "statement": "If sigtool encrypt writing to standard output exits 0, and the bytes it wrote arrive, in whatever pieces, on the standard input of sigtool decrypt run by any one of the recipients (in any other directory or machine), decrypt exits 0 and writes exactly the original input.", "quantifier": "all inputs, recipient lists, chunk sizes, fragmentations of the pipe, worlds of the two processes", "why_tests_cant": "all inputs and pipe fragmentations", "anchors": ["src/crypt.go:encrypt", "src/crypt.go:decrypt"]}
{"id": "C65", "title": "generate, encrypt, decrypt", "statement": "A key pair written by sigtool generate works: if generate BN exits 0 and a later encrypt -o F ... BN.pub ... INPUT exits 0, then decrypt -o G BN.key F with the same passphrase exits 0 and G holds what INPUT held.", "quantifier": "all names, comments that YAML keeps, passphrases, inputs, recipient lists, file system states in which the outputs are not each other's inputs", "why_tests_cant": "all inputs, key material and file systems", "anchors": ["src/gen.go:gen", "src/crypt.go:encrypt", "src/crypt.go:decrypt"]}
{"id": "C66", "title": "generate, sign, verify", "statement": "If generate BN exits 0 and a later sign BN.key FILE exits 0 writing FILE.sig, then verify BN.pub FILE.sig FILE exits 0.", "quantifier": "all names, comments, passphrases, file contents, file system states in which the outputs are not each other's inputs", "why_tests_cant": "all inputs, key material and file systems", "anchors": ["src/gen.go:gen", "src/sign.go:signify", "src/verify.go:verify"]}
{"id": "C67", "title": "Exactly which key files are accepted", "statement": "A private key file loads with a given passphrase exactly if it is an OpenSSH PEM file with one unencrypted-PEM block of type OPENSSH PRIVATE KEY whose container unlocks to 64 key bytes, or a YAML record with base64 salt and key, acceptable scrypt parameters and a key that opens with AES-GCM to 64 bytes; the loaded key is made of exactly those 64 bytes. A public key file loads exactly if it is an OpenSSH line with an ed25519 blob or a YAML record with 32 base64 bytes.", "quantifier": "all file contents, all passphrases", "why_tests_cant": "ranges over all byte strings", "anchors": ["sign/keys.go:PrivateKey.UnmarshalBinary", "sign/keys.go:PublicKey.UnmarshalBinary", "sign/ssh.go:parseSSHPrivateKey"]}
{"id": "C68", "title": "No command touches any other file", "statement": "Whatever the command line, whatever the system calls return and wherever the program is stopped (by itself, a kill or a power failure), no file other than those the command line asks to be written (and its temporary files) is changed; when the program has ended by itself no temporary file is left and no other directory entry is changed.", "quantifier": "all command lines, file systems, system call results, crash points", "why_tests_cant": "all crash points and file systems", "anchors": ["src/sigtool.go:main", "src/gen.go:gen", "src/sign.go:signify", "src/crypt.go:encrypt", "src/crypt.go:decrypt", "sign/iomisc.go:writeFile"]}
{"id": "C69", "title": "Decrypt and the stream reader agree on every input", "statement": "On any input, genuine or hostile, opened with the same key and sender: if Decrypt succeeds, the stream reader returns the same plaintext and then io.EOF, never another error; if Decrypt fails, no sequence of Reads ever returns io.EOF.", "quantifier": "all byte streams accepted by NewDecryptor and SetPrivateKey, all fragmentations, all Read buffer sizes", "why_tests_cant": "two independent loops over the same hostile input must agree for every input and every sequence of buffer sizes", "anchors": ["sign/encrypt.go:Decryptor.Decrypt", "sign/stream.go:Decryptor.NewStreamReader", "sign/stream.go:encReader.Read"]}
{"id": "C70", "title": "One Encryptor makes at most one file", "statement": "After the first Encrypt or NewStreamWriter that succeeded on an Encryptor, no further Encrypt and no further stream writer of the same Encryptor leaves in a fresh destination anything NewDecryptor accepts: reuse produces only refused output (even though those calls may return nil errors).", "quantifier": "all histories of AddRecipient, Encrypt, NewStreamWriter, Write and Close on one Encryptor and its streams, with succeeding and failing destinations and sources", "why_tests_cant": "histories are unbounded; the reuse calls return nil so a test would see no error", "anchors": ["sign/encrypt.go:Encryptor.Encrypt", "sign/encrypt.go:Encryptor.start", "sign/stream.go:Encryptor.NewStreamWriter"]}
{"id": "C71", "title": "Spelling of options", "statement": "Every command gets exactly the options and arguments that the words of the command line spell: an option by its long name or its letter, its text after '=', as the next word or (letters) glued; switches combined; the last value counts; options and arguments may be mixed; everything after -- is an argument; options not given have the documented defaults. Words that spell nothing make the program exit without touching a file; --help exits 0 and does nothing else.", "quantifier": "every command line", "why_tests_cant": "There are infinitely many command lines; a clash of names or letters or a wrong default shows only on the spelling that uses it.", "anchors": ["src/sigtool.go: main", "src/gen.go: gen", "src/sign.go: signify", "src/verify.go: verify", "src/crypt.go: encrypt, decrypt"]}
{"id": "C72", "title": "The README's command lines work as documented", "statement": "The command lines shown in README.md, with any file names, do what the README says they do: gen, gen -p (asks for a pass phrase), sign (writes to standard output), sign --no-password, sign -o, verify, encrypt with and without -s, decrypt -v, decrypt without -v (proceeds without verifying the sender).", "quantifier": "all file names (not starting with a dash), all worlds", "why_tests_cant": "Tests run a few names; the statement is about every file name and every state of the file system.", "anchors": ["README.md", "src/gen.go: gen", "src/sign.go: signify", "src/crypt.go: encrypt, decrypt"]}
{"id": "C73", "title": "Whole command lines one after the other", "statement": "However the three command lines are written: sigtool generate, then encrypt to the new key (among others), then decrypt with it gives back the input file; sigtool generate, sign, verify exits 0.", "quantifier": "all spellings of the command lines, worlds, inputs, block sizes below 2^30, up to 15885 recipients", "why_tests_cant": "The combinations of spellings, options and file contents are unbounded.", "anchors": ["src/sigtool.go: main", "src/gen.go", "src/crypt.go", "src/sign.go", "src/verify.go"]}
{"id": "C74", "title": "A failed command changes no file", "statement": "If sigtool exits with a status other than 0, no file was changed at any moment of the run (also not by a crash in the middle), except the command's own temporary file.", "quantifier": "every command line, every file system, every error of the system calls, every crash point", "why_tests_cant": "all command lines times all failure and crash points", "anchors": ["src/sigtool.go:main", "src/crypt.go:encrypt", "src/crypt.go:decrypt", "src/sign.go:signify", "src/gen.go:gen", "src/die.go:Die"]}
{"id": "C75", "title": "Permissions of the written files", "statement": "The private key file and everything encrypt and decrypt write are accessible to their owner only (0600 without the umask's bits), at every moment, as is the temporary file, also if a file with wider permissions is replaced; signatures and public keys get 0644 without the umask's bits; no other file's permissions change. The same holds of the library functions which write a private key (owner only), a public key or a signature (all may read), whether they succeed, fail or are stopped half-way.", "quantifier": "every command line, umask, earlier file with any permissions, failure and crash point", "why_tests_cant": "a window in which a secret file is readable is seen only at the right crash point", "anchors": ["sign/iomisc.go:writeFile", "sign/keys.go:PrivateKey.Serialize", "sign/keys.go:PublicKey.Serialize", "src/crypt.go:encrypt", "src/crypt.go:decrypt", "src/sign.go:signify", "sign/sign.go:Signature.Serialize"]}
{"id": "C76", "title": "Authenticated content was made by the sender", "statement": "If a file is decrypted to its end as authenticated by a sender, then what came out is the whole plaintext of one of the files this sender made, under that file's header - also if the file was put together by a recipient of some of the sender's files - unless a signature was forged or a hash function broken at the arguments in question.", "quantifier": "every history of files the sender made, every received byte string, reader fragmentation, recipient key and chunk size, for Decrypt and for the stream reader", "why_tests_cant": "ranges over all forgeries, all mixtures of genuine files and all histories of the sender", "anchors": ["sign/encrypt.go:NewDecryptor", "sign/encrypt.go:Decryptor.Decrypt", "sign/encrypt.go:Decryptor.processTrailer", "sign/encrypt.go:Encryptor.Encrypt", "sign/stream.go:NewStreamReader"]}
{"id": "C77", "title": "Simultaneous runs do not damage files", "statement": "While any number of sigtool runs go on at the same time, interleaved in any way and some of them killed, every path shows at every moment what it showed before, or - complete, with its permissions - a file which one of the runs leaves under a name it was asked to write; a path that only one run is asked to write shows what this run would have made of it alone.", "quantifier": "every number of processes, command lines, schedules of their system calls, I/O errors, kill points and views of the file system", "why_tests_cant": "interleavings of processes are not under a test's control", "anchors": ["sign/iomisc.go:writeFile", "src/crypt.go:encrypt", "src/crypt.go:decrypt", "src/gen.go:gen", "src/sign.go:signify"]}
{"id": "C78", "title": "Without --overwrite no existing file is replaced", "statement": "Runs of sigtool without --overwrite - one after the other or at the same time, stopped anywhere, also by power failures - never change or remove a file that exists, and generate leaves files that belong together.", "quantifier": "every history and every schedule of runs, command lines, failures and crash points", "why_tests_cant": "a window between check and rename is hit only by particular schedules; histories are unbounded", "anchors": ["sign/iomisc.go:writeFile", "src/gen.go:gen", "src/sigtool.go:exists", "src/sign.go:signify", "src/crypt.go:encrypt", "src/crypt.go:decrypt"]}
{"id": "C79", "title": "A verified file is one the owner signed", "statement": "If VerifyFile (or the command verify) accepts a file under a public key, then the file's content is that of a file which the key's owner has signed - signatures the owner made while encrypting cannot be taken for file signatures - unless an Ed25519 signature was forged or SHA-512 collides on two inputs in question.", "quantifier": "every history of signing and encrypting with the key, every file content, signature and public key", "why_tests_cant": "ranges over all histories and all signatures", "anchors": ["sign/sign.go:PublicKey.VerifyFile", "sign/sign.go:PrivateKey.SignMessage", "sign/iomisc.go:fileCksum", "src/verify.go:verify"]}
{"id": "C80", "title": "Exact content of key and signature files", "statement": "The files written for private keys, public keys and signatures have exactly the documented text: the fields in order, the key sealed with AES-256-GCM under scrypt(SHA-512(passphrase), salt, 2^19, 8, 1), the salt being 32 fresh random bytes, the key's seed the 32 random bytes before them, the hash the first 16 bytes of SHA-256 of the public key.", "quantifier": "every key, comment, passphrase, randomness and file name", "why_tests_cant": "ranges over all keys and random bytes; a round trip does not see a change made to both directions", "anchors": ["sign/keys.go:PrivateKey.MarshalBinary", "sign/keys.go:PublicKey.MarshalBinary", "sign/sign.go:Signature.MarshalBinary", "src/gen.go:gen", "src/sign.go:signify"]}
{"id": "C81", "title": "An encrypted file shows nothing of the content but its length", "statement": "Take any file produced by the library's Encrypt or by its stream writer, and any other content of the same length. Then there is a set of cryptographic functions, obeying every law the program relies on and equal to the real ones except for AES-GCM under the file's data key and HMAC under the file's MAC key, with which the same sender, recipients, block size and random bytes turn the other content into the very same file. So no computation which does not evaluate those two keyed functions under the file's own keys can tell from the file which content it holds: no plaintext byte, hash of the plaintext, checksum or length other than the total length reaches the file outside the sealed frames and the keyed MAC.", "quantifier": "every content, every alternative content of equal length, every sender, block size, recipient list, random tape, source and sink", "why_tests_cant": "A test compares two particular outputs; that no function of the plaintext at all is written outside the keyed parts is a statement about all plaintexts and all observers.", "anchors": ["sign/encrypt.go:Encryptor.Encrypt", "sign/encrypt.go:Encryptor.encrypt", "sign/encrypt.go:Encryptor.writeTrailer", "sign/stream.go:encWriter.Write", "sign/stream.go:encWriter.Close"]}
{"id": "C82", "title": "The recipients of a file are hidden", "statement": "Take any encryption session and any one of its recipients, and any other genuine public key not otherwise among the recipients. There is a set of cryptographic functions, obeying every law and equal to the real ones except for AES-GCM under the two key-wrapping keys which the holders of the two private keys would derive, with which the session for the recipient list with the one key replaced by the other has the same header, uses the same random bytes and goes on to write exactly the same file for every content. So the file names no recipient: neither the public key nor its hash nor anything else derived from it alone is in the header.", "quantifier": "every recipient list, every position in it, every replacement key, every sender, block size, random tape and content", "why_tests_cant": "Absence of any identifying function of the recipient's key from the file is a statement about all keys and observers.", "anchors": ["sign/encrypt.go:Encryptor.AddRecipient", "sign/encrypt.go:Encryptor.wrapKey"]}
{"id": "C83", "title": "The sender of a file is hidden", "statement": "Take any file encrypted by a sender, and any other genuine key pair. There is a set of cryptographic functions, obeying every law and equal to the real ones except for AES-GCM under the file's own sender key and Ed25519 signatures of this file's trailer message, with which the other sender encrypts the same content for the same recipients with the same random bytes into the very same file. A file with a sender likewise cannot be told from an anonymous one: with functions differing only in the same way, the anonymous encryption of the same content is byte for byte the same file, given suitable random trailer bytes.", "quantifier": "every two senders, every content, block size, recipient list, random tape, source and sink", "why_tests_cant": "It says no function of the sender's identity is written in the clear, for all senders and all observers.", "anchors": ["sign/encrypt.go:Encryptor.addSenderSig", "sign/encrypt.go:Encryptor.writeTrailer", "sign/encrypt.go:NewEncryptor"]}
{"id": "C84", "title": "Files one after the other in one source can be read in turn", "statement": "If a source holds several encrypted files one after the other, opening and decrypting the first reads exactly that file: the source is left at the first byte of what follows, so the next file can be opened from it, and so on for any number of files, whatever follows the last one and however the source cuts its deliveries.", "quantifier": "every number of files, every content, sender, recipient list and block size of each, every source delivering their concatenation, every trailing data", "why_tests_cant": "A test reads a few concatenations; reading not one byte too many or too few must hold for every content length, block size and way the source delivers its bytes.", "anchors": ["sign/encrypt.go:Decryptor.Decrypt", "sign/encrypt.go:Decryptor.decrypt", "sign/encrypt.go:NewDecryptor"]}
{"id": "C85", "title": "No call on an Encryptor panics, whatever the history", "statement": "NewEncryptor with a usable sender key (or none) and any non-negative block size succeeds, and afterwards no call in any sequence of AddRecipient, Encrypt, NewStreamWriter and Write/Close on the stream writers made on the way panics: after failures as after successes, with failing, short or erratic sources and destinations, with writers closed twice or used in the wrong order.", "quantifier": "every sender key, block size, random source, sequence of calls (fewer than 2^40 recipients, key bytes of at most 32 bytes as every parsed key has), data, source and destination behaviour", "why_tests_cant": "the histories, and the ways a source or destination can misbehave at each point of them, are unbounded", "anchors": ["sign/encrypt.go:NewEncryptor", "sign/encrypt.go:AddRecipient", "sign/encrypt.go:Encrypt", "sign/encrypt.go:start", "sign/encrypt.go:encrypt", "sign/encrypt.go:writeTrailer", "sign/stream.go:NewStreamWriter", "sign/stream.go:Write", "sign/stream.go:Close"]}
{"id": "C86", "title": "Decryption never amplifies", "statement": "Whatever the source hands in (hostile, fragmented or failing) and whatever calls are made on the Decryptor made from it, in any order and after failures as after successes, all the bytes that ever come out of Decrypt and of all its stream readers together are at least 76 fewer than the bytes the source hands in.", "quantifier": "all sources (all contents, read fragmentations and errors), all sequences of SetPrivateKey, Decrypt, NewStreamReader and Read calls with all keys, sender keys, destinations and buffer sizes", "why_tests_cant": "A test decrypts a few chosen files; the bound is about every hostile file and every order of calls, including repeated use of one Decryptor after errors.", "anchors": ["sign/encrypt.go: NewDecryptor, SetPrivateKey, Decrypt, decrypt, processTrailer", "sign/stream.go: NewStreamReader, (*encReader) Read"]}
{"id": "C87", "title": "A receiver that follows along is at most one chunk behind", "statement": "As long as all Writes on a stream writer succeeded, and before Close, what the destination holds can be opened by every recipient with the right sender key, and a stream reader on it returns, with any buffer sizes, the bytes written so far in order, all but the chunk the last byte belongs to (so at most one chunk is held back), and then an error, never io.EOF.", "quantifier": "all senders, recipients, block sizes below 2^30, sequences of Writes that succeeded, destinations, ways the destination's content is handed to the reader, and sequences of Read buffer sizes", "why_tests_cant": "It ranges over every split of the data into Writes and Reads and every chunk boundary; the interesting cases are writes that end exactly on a chunk boundary.", "anchors": ["sign/stream.go: NewStreamWriter, (*encWriter) Write, NewStreamReader, (*encReader) Read", "sign/encrypt.go: (*Encryptor) encrypt, (*Decryptor) decrypt"]}
{"id": "C88", "title": "The forms of a key pair are interchangeable", "statement": "Take any file that holds the private key of a seed (YAML with any password, OpenSSH plain or encrypted) and any form that holds its public key (YAML file, OpenSSH line, base64 text, authorized_keys entry). Both are read successfully; a signature made with the one verifies with the other and names the same key; what is encrypted to the public key is decrypted with the private key; and for a file whose sender is the private key, the public key authenticates the sender.", "quantifier": "all seeds, all accepted forms of the private and of the public key in any combination, all files to sign, all encrypted files, all ways of reading them", "why_tests_cant": "The combinations of forms, passwords, comments, encodings and contents are unbounded; tests check a few fixtures.", "anchors": ["sign/keys.go: MakePrivateKey, (*PrivateKey) UnmarshalBinary, MakePublicKey, MakePublicKeyFromString", "sign/ssh.go: parseSSHPublicKey, parseSSHPrivateKey, ParseAuthorizedKeys", "sign/sign.go: SignFile, VerifyFile", "sign/encrypt.go: AddRecipient, SetPrivateKey"]}
{"id": "C89", "title": "A private key file hides the key and the password", "statement": "For the private key file made from a key and a password, and for every other 64-byte private key and every other password: somebody who never uses AES-GCM with the key derived from one of the two passwords cannot tell, whatever he computes, whether the file was made from the one pair or the other; the file shows only the comment, the salt and the scrypt parameters.", "quantifier": "all private keys, comments, passwords, sources of randomness, and all alternatives (another key, another password, or both)", "why_tests_cant": "It is a statement about everything that can be computed from the file, for all keys and passwords; a test can only look for particular leaks.", "anchors": ["sign/keys.go: (*PrivateKey) MarshalBinary, Serialize"]}
{"id": "C90", "title": "Output goes to one place", "statement": "In every world, and whether the command succeeds, fails or panics: `generate` prints nothing on standard output; `encrypt`, `decrypt` and `sign` print nothing on standard output if the output is a named file, and change no file at all if it is standard output (`-`, or no -o for encrypt and decrypt); `decrypt --test` does neither.", "quantifier": "all worlds (file contents, permissions, failures, terminals), random values, and options of the four commands", "why_tests_cant": "It must hold for every failure point of every run; a leaked byte on standard output or a stray file in one error path is what a test would miss.", "anchors": ["src/gen.go: gen", "src/crypt.go: encrypt, decrypt", "src/sign.go: signify"]}
{"id": "C91", "title": "Objects at work at the same time do not influence each other", "statement": "Any number of Encryptors and Decryptors may be at work in one process, their calls following one another in any order, sharing the process's random source and the same key objects (into which AddRecipient and SetPrivateKey write cached conversions). Every call then returns and writes exactly what it would if its object were the only one, used with its own random source; and no random byte drawn for one Encryptor is ever used for another, or twice for the same one.", "quantifier": "every schedule of calls of any length, any number of objects made at any time, any shared key objects, every random source", "why_tests_cant": "a test runs a few schedules; the claim is about every interleaving of any number of objects with shared caches and a shared random source", "anchors": ["sign/encrypt.go: NewEncryptor, AddRecipient, SetPrivateKey, Encrypt, Decrypt", "sign/keys.go: ToCurve25519PK, ToCurve25519SK", "sign/rand.go: randRead", "sign/stream.go: NewStreamWriter, NewStreamReader"]}
{"id": "C92", "title": "sign to standard output, and when sign exits 0", "statement": "`sign -o -` touches no file; it exits 0 exactly if the private key and the input file can be read, and prints exactly the signature text (a beginning of it if standard output fails, which the exit status does not tell), otherwise it prints nothing. What it printed, saved as a file anywhere, is accepted by `verify` with the matching public key for every file with the same content, whatever its name. `sign` to a named file exits 0 exactly if, besides, that file may be created (it does not exist, or --overwrite is given).", "quantifier": "all keys, passphrases, input files, worlds of the two processes, behaviours of standard output", "why_tests_cant": "an equivalence over every key file, input and environment, and a guarantee about a second process in any other world", "anchors": ["src/sign.go: signify", "src/verify.go: verify", "sign/sign.go: SignFile, MarshalBinary", "sign/keys.go: ReadPrivateKey"]}
{"id": "C93", "title": "Debug messages: only when asked for, one per file, and they give the content away", "statement": "Unless sign.Debug was called with a positive level no call on an Encryptor, a Decryptor or their streams writes to standard error. With it, over every sequence of calls an Encryptor prints exactly one message, from the Encrypt or NewStreamWriter that wrote the header (none if the header was not written), and a Decryptor one for each SetPrivateKey that succeeds. The message consists of the header checksum, data key, nonce and HMAC key of the file in hexadecimal; whoever has the message and the file reads the whole content without any private key. Sender's and recipient's messages for a file differ in their first word only. sigtool's --debug turns this on and changes neither exit status, nor files, nor standard output.", "quantifier": "all call sequences on an Encryptor and its stream writers, on a Decryptor and its stream readers, including failing calls; all sessions, senders, recipients, contents, sources and destinations; all command lines", "why_tests_cant": "The messages over all histories, and that for every file the message is enough to read it, are statements about all histories and all files; the tests never enable debugging.", "anchors": ["sign/encrypt.go: start, SetPrivateKey, Debug, debug", "src/sigtool.go: main"]}
{"id": "C94", "title": "Goroutines that share key objects do not disturb each other", "statement": "Any number of goroutines, each with Encryptors and Decryptors of its own, may use the same PublicKey and PrivateKey objects at the same time, without locks: under every interleaving of their accesses to the key objects and the random source, every call returns what it returns when the goroutine's calls are made alone in a process of their own, with random bytes of its own; no two goroutines are given the same random byte; the conversion stored in a key object is at every moment absent or right; and no goroutine ever waits for another.", "quantifier": "all numbers of goroutines and lists of calls, all interleavings, all moments of an execution, all key objects (fresh or used before), all random sources", "why_tests_cant": "Interleavings are unboundedly many and not under a test's control; the race detector only sees those that happen.", "anchors": ["sign/keys.go: ToCurve25519PK, ToCurve25519SK", "sign/encrypt.go: AddRecipient, wrapKey, SetPrivateKey, NewEncryptor, newSender", "sign/rand.go: randRead"]}
{"id": "C95", "title": "SetPrivateKey in the middle of a stream", "statement": "While a stream reader is in use, SetPrivateKey may be called again on its Decryptor, with any key and sender, successfully or not: the reader goes on where it was, what it returns stays a prefix of the original plaintext, and io.EOF still means that everything was returned; it never panics.", "quantifier": "every file with a genuine header (whatever follows it), every interleaving of Read and SetPrivateKey calls, every buffer size, every key and sender", "why_tests_cant": "the reader keeps a slice of a buffer that SetPrivateKey replaces and the running HMAC that it restarts; whether the data stays in order depends on where in a chunk each call falls, for all interleavings", "anchors": ["sign/encrypt.go:Decryptor.SetPrivateKey", "sign/stream.go:encReader.Read", "sign/encrypt.go:Decryptor.processTrailer"]}
{"id": "C96", "title": "Messages on standard error", "statement": "What sigtool writes to standard error with Die and Warn: with exit status 0 nothing, except that `decrypt --test` says \"Enc file OK\", and says it only with exit status 0. With exit status 1 there is at least one message, except for a negative verdict of `verify`, which is on standard output unless --quiet. When `encrypt` ends with \"Too many errors!\" it has complained about exactly the recipient arguments that stand for no key, one complaint each, in their order. Each message is a line: the name of the program, \": \", and the message's format with its values put in; there are as many values as verbs. What a message says is so: it names the argument to blame and gives the error met with it. `decrypt` never warns of a missing sender key. The part that does not hold: a program name (argv[0]) with a % in it is taken for a part of the format and garbles the messages. A command that gets too few arguments says so, about itself, does nothing, and says it only then; the help it suggests to ask for is what that command line prints.", "quantifier": "all command lines, worlds (files, environment, standard input and output, randomness, failing system calls), program names and texts of errors", "why_tests_cant": "every failure path of every command has its own message; tests run a few", "anchors": ["src/die.go: Die, Warn", "src/sigtool.go: main", "src/gen.go: generate", "src/sign.go: signify", "src/verify.go: verify", "src/crypt.go: encrypt, decrypt"]}
{"id": "C97", "title": "A command reads nothing but what it is given", "statement": "Exit status, messages, standard output and file operations of a command depend on nothing but: the content of the files named by its input arguments, whether there is a file under its output name, the passphrase (the named environment variable, or what the user types, or neither with --no-password), standard input only when it is the input, for `encrypt` and `generate` the random source, and for `encrypt` the block size and the file .ssh/authorized_keys in the home directory. Two machines that agree on these give the same result, wherever the input files are stored and whatever else is on them.", "quantifier": "all pairs of worlds (file systems, environments, standard input, random numbers) that agree on the named things, all options and arguments", "why_tests_cant": "a test runs in one directory and cannot vary everything a command should not look at", "anchors": ["src/crypt.go: encrypt, decrypt", "src/sign.go: signify", "src/verify.go: verify", "src/gen.go: generate"]}
{"id": "C98", "title": "Passphrase changes", "statement": "Read a private key from any accepted file (YAML or OpenSSH), write it with another comment and passphrase, read that file, write it again, any number of times, using the key in between: the last file with the last passphrase gives exactly the key object the first file gave, and can be written again; any other passphrase is refused (unless its AES key opens what was sealed with the last one).", "quantifier": "all accepted first files, all sequences of comments and passphrases (comments that can be read back, see C34), all salts", "why_tests_cant": "arbitrarily long histories of files, passphrases and comments", "anchors": ["sign/keys.go: PrivateKey.UnmarshalBinary, PrivateKey.MarshalBinary, ReadPrivateKey, MakePrivateKey, Serialize", "sign/ssh.go: parseSSHPrivateKey"]}
{"id": "C99", "title": "Exit status 0 means that it was done", "statement": "Whatever is typed: if sigtool exits with 0, either the words asked for the version or a help text, or they spell a command with its options and arguments, and that command was run with exactly these and ended with 0. Every other command line does nothing at all and ends with 1 or 2.", "quantifier": "every command line, every world (files, devices, keys, environment), every behaviour of the output files", "why_tests_cant": "There are infinitely many command lines, and a test of one misspelling says nothing about the next.", "anchors": ["src/sigtool.go: main", "src/crypt.go: encrypt, decrypt, encryptUsage, decryptUsage", "src/gen.go: gen", "src/sign.go: signify", "src/verify.go: verify"]}
{"id": "C100", "title": "Help, usage and version texts", "statement": "Asking for the version, for help on the program or for help on a command prints exactly that text on standard output, touches no file and exits with 0, whatever else is on the command line; a command that runs prints none of these texts. The usage text lists every command with its name and a short form, and both run exactly that command; it lists every option of the program. The help text of a command lists its options. The version text is one line: the program's name, the product's version and, in brackets, the repository's.", "quantifier": "every command line, program name, version, world; standard output that accepts everything (the texts), any standard output (that a run prints none)", "why_tests_cant": "The texts must fit the dispatcher and the option tables for all spellings of the request.", "anchors": ["src/sigtool.go: main, usage", "src/gen.go: gen", "src/sign.go: signify", "src/verify.go: verify", "src/crypt.go: encryptUsage, decryptUsage"]}
{"id": "C101", "title": "Names of the key files", "statement": "`generate P` writes its two files next to each other under the path P cleaned as by Go's path.Clean, with .key and .pub added: '.' pieces, repeated and trailing slashes and '..' after a name do not matter, a plain path is used as it stands, and two spellings of one path give the same run. The program calls itself by the last element of the path it was called by.", "quantifier": "every path: any number of pieces, any nesting of '..', rooted or not; every world", "why_tests_cant": "path.Clean goes back over what it has written; that no spelling of any length leads to other files needs an invariant of its loop, not a table of examples.", "anchors": ["src/gen.go:61 path.Clean", "src/gen.go:62 path.Clean", "src/sigtool.go:28 path.Base"]}
{"id": "C102", "title": "The header's encoder and the buffer it stores into", "statement": "Storing a header at the end of a buffer (MarshalToSizedBufferVT) or at its beginning (MarshalTo) changes exactly the bytes its encoding takes, which are SizeVT many, and returns their number; every other byte of the buffer stays as it was; a buffer that is too short makes the call panic rather than store a partial header and return; MarshalVT gives the encoding alone. The same holds of each wrapped key.", "quantifier": "every header with any number of keys and any field contents, and every buffer of any length and content", "why_tests_cant": "the encoder works backwards by computed sizes: a size that is wrong for one length of a field shifts everything before it", "anchors": ["internal/pb/hdr_vtproto.pb.go:Header.MarshalToSizedBufferVT", "internal/pb/hdr_vtproto.pb.go:WrappedKey.MarshalToSizedBufferVT", "internal/pb/hdr_vtproto.pb.go:Header.MarshalToVT", "internal/pb/hdr_vtproto.pb.go:Header.MarshalVT", "internal/pb/helpers.go:Header.MarshalTo"]}
{"id": "C103", "title": "Exit status 0: the result is there", "statement": "If sigtool exits with 0, then - provided the words are spelled as the commands' options are, the temporary files' names are new and no write, close or rename of the output fails - either it was asked about itself, or what it was asked for is there: both files of a new key pair, the private half protected by the given passphrase; the signature of the named file's content by the named key, in the signature file or on standard output; a signature that names the given key and is that key's for the file's content; in the output file or on standard output what encryption of the whole input for exactly the named recipients, or decryption of the whole input with the named key, gives.", "quantifier": "every command line, world (files, devices, keys, passphrases), randomness and input", "why_tests_cant": "it is a statement about every command line and every way in which the parts of a command can fail", "anchors": ["src/sigtool.go:main", "src/gen.go:gen", "src/sign.go:signify", "src/verify.go:verify", "src/crypt.go:encrypt", "src/crypt.go:decrypt"]}
{"id": "C104", "title": "What was in memory before never reaches the output", "statement": "Encrypting reuses its buffers: the chunk buffer (length, ciphertext and tag of every chunk are put together in it), Encrypt's read buffer and the stream writer's buffer hold what earlier, possibly longer chunks left there, and the header's buffer is cut up into overlapping pieces. None of it shows: the header written is exactly the fixed part, the encoded fields and the SHA-256 of both with no byte left unset; each chunk, each trailer, each result of Encrypt and of any sequence of calls of Write and Close is the same whatever the buffers held at the start, namely the one the ideal encoder without buffers gives - so a shorter last chunk is never followed by bytes of an earlier one.", "quantifier": "every header, every initial content of the chunk, read and stream buffers, every plaintext, source, destination (with any failures and short writes), every sequence of Write and Close calls", "why_tests_cant": "A leak of stale bytes depends on the contents of a buffer and on the lengths of successive chunks; tests use fresh zeroed buffers and few lengths.", "anchors": ["sign/encrypt.go:start", "sign/encrypt.go:encrypt", "sign/encrypt.go:Encrypt", "sign/stream.go:Write", "sign/stream.go:Close"]}
{"id": "C105", "title": "What was done before with other files does not matter", "statement": "Whatever sigtool commands were run before on a disk - any number, by anybody, in any directory and environment, with any I/O errors, finished, killed or cut off by a power failure - a command line whose own files (those it reads and the ones it writes) none of them was asked to write does exactly what it would have done without them: the same exit status, messages, standard output and file operations. In particular verify keeps giving the verdict it gave, decrypt the same plaintext, and encrypt and sign with the same key files still work.", "quantifier": "every history of command lines, worlds they ran in, system call results, crash points and power failures; every command line run afterwards", "why_tests_cant": "The histories are unbounded and include crashes; a test runs a few commands on a fresh directory.", "anchors": ["src/sigtool.go:main", "src/gen.go:gen", "src/sign.go:signify", "src/verify.go:verify", "src/crypt.go:encrypt", "src/crypt.go:decrypt", "sign/iomisc.go:writeFile"]}
{"id": "C106", "title": "Commands on different files can be run in either order", "statement": "Two command lines (other than generate) of which neither is asked to write a file the other reads or writes give the same exit status, messages, standard output and file operations whichever of them is run first, and in the end every path that is not a symbolic link shows the same content.", "quantifier": "every pair of command lines, file system, environment and system call results", "why_tests_cant": "It ranges over all pairs of command lines and file systems; a script tests one order.", "anchors": ["src/sigtool.go:main", "src/sign.go:signify", "src/verify.go:verify", "src/crypt.go:encrypt", "src/crypt.go:decrypt", "sign/iomisc.go:writeFile"]}
