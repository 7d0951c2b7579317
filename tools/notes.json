{
 "C01": "Round trip for every session with block size < 2^30 and at most 15885 recipients (the exact limits, C23/C24).",
 "C07": "Within one Encrypt over fewer than 2^32 full chunks, and one stream of at most 2^32 chunks, all nonces differ; both bounds are sharp (the counter wraps: C07_refuted_counter_wraps, C07_stream_refuted_counter_wraps); and a second Encrypt on the same Encryptor reuses them.",
 "C10": "Proved: without AEAD forgery Decrypt returns nil only with the complete plaintext, or when the body is a truncation at a frame boundary followed by the keyless 4-byte end marker 80 00 00 00. The full statement is false of the code because of that marker: C10_refuted_truncation.",
 "C13": "Proved: the sender signed the HMAC of exactly the frames output, or the stream ended with the bare end marker 80 00 00 00. The full statement is false: C13_refuted_recipient_forges.",
 "C14": "Refuted: SetPrivateKey with an expected sender key on an anonymous file succeeds with AuthenticatedSender()=false.",
 "C20": "Proved: after a successful SetPrivateKey neither Decrypt nor stream Read panics. Refuted: Decrypt after a failed SetPrivateKey panics (nil AEAD) instead of reporting ErrNoKey.",
 "C21": "Refuted: source errors io.ErrUnexpectedEOF and io.ErrClosedPipe are treated as end of file.",
 "C23": "Proved below 2^30; refuted at and above: files with a chunk size of 1 GiB or more cannot be decrypted.",
 "C24": "Proved up to 15885 recipients; refuted beyond: the header exceeds the decoder's limit.",
 "C29": "Proved for one reader per Decryptor; refuted for two.",
 "C08": "A changed length field moves the place of the checksum, so C08_tampered_header keeps the length field; C08_accepted_header covers every input.",
 "C34": "Proved for every comment whose YAML form does not contain the text OPENSSH PRIVATE KEY-; C34_comment_refuted: with such a comment the file cannot be read back.",
 "C35": "Proved for loads from OpenSSH text and for objects whose curve key is not cached yet; C35_stale_refuted: loading YAML into a used object keeps the old curve key.",
 "C36": "Refuted as stated; proved instead: the exact set of public and of private key files that crash the parser (C36_public_panics_exactly, C36_private_panics_exactly); the refuted theorems exhibit each kind.",
 "C37": "Blob and line grammar are exact; C37_line_partial: comment of one word. C37_comment_refuted: a line without comment or with a comment of several words is not accepted.",
 "C38": "Total, line by line, sound, and complete for entries whose options field does not contain a quoted word that is itself base64; C38_options_refuted shows the failure for those.",
 "C43": "C43_generate is the whole statement about the files. C43_pair_usable_partial (both texts are read back as one key pair) excludes comments containing the OpenSSH marker, see C34.",
 "C44": "Refuted with --overwrite: the same-file check in the code is dead (shadowed variable), so input and output may be the same file. Proved: without --overwrite nothing is done; with it the file holds at every moment the old or the complete new content.",
 "C45": "All or nothing proved; refuted for the exit status: errors of the final fsync/close/rename are ignored (exit 0, file unchanged).",
 "C46": "Proved: exit 0 means signed by that sender or an anonymous file. Refuted as stated: an anonymous file passes with any -v key.",
 "C49": "All or nothing proved; refuted for the exit status: errors of writing and closing the signature file are ignored.",
 "C50": "Proved for new files. Refuted with --overwrite: a crash between the two files leaves the new private key beside the old public key.",
 "C51": "Hypotheses: at most 15885 recipients and block size < 1 GiB (C23, C24), no accidental opening of another recipient's wrapped key (no_accident), no I/O errors on the second output.",
 "C52": "Hypotheses: no I/O errors on the signature file (C49_refuted), YAML keeps the comment, the signature file is not the input.",
 "C53": "Exact condition for a crash proved; refuted: verify with the string of a key of another type dereferences nil.",
 "C54": "Exact; the round trip holds for keys whose first four bytes are > 28 big-endian; refuted for keys starting with four zero bytes.",
 "C55": "pflag and go-utils' Abbrev are modelled from their documentation (external).",
 "C56": "Hypotheses: files smaller than 4 GiB, fewer than 2^40 arguments, ParseSize returns a size or an error. Running out of memory is not modelled.",
 "C60": "Exact condition for AuthenticatedSender proved (some call of the history succeeded and verified a sender); the last successful call decides everything but that flag. Refuted as stated: after a later call that returns ErrBadSender, AuthenticatedSender still returns true.",
 "C72": "Refuted as stated in three places: gen -p exits with 2 (no such option), sign without -o writes FILE.sig and nothing to standard output, decrypt without -v of a file encrypted with -s fails. All other lines are proved.",
 "C74": "Missing: generate, whose private key file is in place before its public key file is written (C74_generate_refuted; C50 says what it can leave).",
 "C75": "The lines of crypt.go which would copy the input file's mode are dead: the variable inf they test is shadowed and stays nil.",
 "C76": "Proved for files that end with the signed trailer. Missing because false: a file that ends with the bare end marker has no trailer and its content may come from any recipient (C13_refuted_recipient_forges).",
 "C78": "Proved for runs one after the other. False for simultaneous runs: existence is checked first and the file is renamed into place later; two runs of generate can both succeed, one replacing the other's private key, and leave a .pub which is not that of the .key (C78_refuted_race).",
 "C81": "Non-probabilistic hiding: the statement exhibits, for each alternative content, another law-abiding crypto record giving the same file. It makes no computational claim about AES-GCM itself.",
 "C82": "The number of recipients is not hidden (one wrapped key each).",
 "C83": "Non-probabilistic hiding, as for C81. The trailer signature's own anonymity is idealised: the alternative functions may sign this one trailer message differently.",
 "C84": "False of the code for files whose last frame is empty (Encrypt on a multiple of the block size, or nothing written to a stream): the decryptor stops at the four-byte end marker and leaves the 16-byte seal and the 64-byte trailer in the source (C84_refuted, with an instance where the next file is not found). Proved for all other files.",
 "C91": "calls follow one another whole: a call is not interrupted in the middle (data races between goroutines are the Go memory model's business).",
 "C93": "The text that sigtool itself prints with --debug is that of the one Encryptor or Decryptor it uses; other texts on standard error are not modelled.",
 "C94": "Proved for accesses to the cache variable that are one step each (C94_goroutines_partial, C94_caches, C94_no_waiting for every program). Go does not promise that: a slice has several words, and where they are read and written one by one AddRecipient can fail on a good key that another goroutine is adding for the first time (C94_torn_refuted, a data race in the code).",
 "C95": "Proved: the data is always in order and complete at io.EOF (up to a panic); for unsigned files, and for calls rejected with ErrBadKey, the extra calls change nothing. Refuted for signed files: a second successful call restarts the HMAC, so the genuine trailer is rejected (C95_repeated_call_refuted), and a call rejected for want of the sender's key makes the next Reads panic (C95_no_panic_refuted).",
 "C96": "Partial: the statement about the layout is refuted for a program name with % (die.go:32-33 builds a format from os.Args[0]); proved for all others. What pflag and the Go run time print themselves is not modelled.",
 "C99": "Refuted for encrypt and decrypt: pflag calls the Usage function of the flag set before it ends the program for a wrong option, and encryptUsage/decryptUsage call os.Exit(0). So `sigtool encrypt --output=x to.pub file` (the option is --outfile) encrypts nothing and exits with 0 (C99_misspelt_refuted). C99_every_command_line classifies all command lines; C99_zero_partial is the claim without misspelt options of encrypt and decrypt. That pflag calls Usage first (failf) is taken from the published source of spf13/pflag.",
 "C100": "Refuted in one point: encryptUsage and decryptUsage announce `Options:` on standard output but print the list to standard error (no SetOutput before PrintDefaults): C100_options_missing_refuted. What PrintDefaults prints is a parameter.",
 "C101": "path.Clean and path.Base are Go's standard library, modelled from their source; the file names of generate are wo_clean of the world elsewhere, here the world's wo_clean is that function.",
 "C103": "The excluded cases are the subject of C99 (misspelt options of encrypt and decrypt), C45 and C49 (a failing close is not reported by decrypt; failing writes and closes are not reported by sign).",
 "C105": "C68 (what a command can change, also when stopped) by induction over the history, then C97 (what a command depends on).",
 "C106": "C105 in both directions, and the effect of one SafeFile on a path that is no link."
}