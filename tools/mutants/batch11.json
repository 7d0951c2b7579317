[{"id": "q001", "definition": "b64_decode", "desc": "wrong text gives no bytes instead of an error", "breaks": ["C40"], "edits": [["Base64.v", "| None => Fail (EMsg \"illegal base64 data\") end", "| None => Ok [] end"]]}, {"id": "q002", "definition": "slurp", "desc": "a file that may not be read is read", "breaks": ["C47"], "edits": [["Cli.v", "read_file (wo_fs W) (wo_place W p) (wo_refused W p)", "read_file (wo_fs W) (wo_place W p) None"]]}, {"id": "q003", "definition": "map_in", "desc": "a missing file counts as empty", "breaks": ["C47", "C49"], "edits": [["Cli.v", "| None => Unopenable enoent", "| None => wo_mapped W p []"]]}, {"id": "q004", "definition": "map_in", "desc": "permission to read is not checked", "breaks": ["C49"], "edits": [["Cli.v", "match wo_refused W p with Some e => Unopenable e | None => wo_mapped W p b end", "wo_mapped W p b"]]}, {"id": "q005", "definition": "ecalls_debug", "desc": "messages of later calls are those of a fresh Encryptor", "breaks": ["C93"], "edits": [["Debug.v", "ecalls_debug C level (fst (estep C st c)) cs'", "ecalls_debug C level st cs'"]]}, {"id": "q006", "definition": "dcalls_debug", "desc": "messages of later calls are those of a fresh Decryptor", "breaks": ["C93"], "edits": [["Debug.v", "dcalls_debug C level (fst (dstep C st c)) cs'", "dcalls_debug C level st cs'"]]}, {"id": "q007", "definition": "authenticated_sender", "desc": "always false", "breaks": ["C12"], "edits": [["Decrypt.v", "authenticated_sender (d : decryptor) : bool := d_auth d", "authenticated_sender (d : decryptor) : bool := false"]]}, {"id": "q008", "definition": "d_set_eof", "desc": "the reader's end is forgotten", "breaks": ["C28"], "edits": [["Decrypt.v", "(d_hdrsum d) (d_auth d) eof (d_stream d).", "(d_hdrsum d) (d_auth d) (d_eof d) (d_stream d)."]]}, {"id": "q009", "definition": "d_set_eof", "desc": "the sender's authentication is set to the end mark", "breaks": ["C12"], "edits": [["Decrypt.v", "(d_hdrsum d) (d_auth d) eof (d_stream d).", "(d_hdrsum d) eof eof (d_stream d)."]]}, {"id": "q010", "definition": "magic", "desc": "another magic", "breaks": ["C05"], "edits": [["Encrypt.v", "magic : bytes := str \"SigTool\"", "magic : bytes := str \"sigtool\""]]}, {"id": "q011", "definition": "wrap_receiver", "desc": "another label for wrapping keys", "breaks": ["C05"], "edits": [["Encrypt.v", "str \"Receiver Key\"", "str \"Recipient Key\""]]}, {"id": "q012", "definition": "wrap_sender", "desc": "the same label for sender and receiver", "breaks": ["C05"], "edits": [["Encrypt.v", "str \"Sender Sig\"", "str \"Receiver Key\""]]}, {"id": "q013", "definition": "data_key_expansion", "desc": "another label for the data keys", "breaks": ["C05"], "edits": [["Encrypt.v", "str \"Data Key Expansion\"", "str \"Data Key\""]]}, {"id": "q014", "definition": "expand", "desc": "salt and label swapped", "breaks": ["C05"], "edits": [["Encrypt.v", "hkdf_sha512 C shared salt ad n.", "hkdf_sha512 C shared ad salt n."]]}, {"id": "q015", "definition": "expand", "desc": "salt not used", "breaks": ["C05"], "edits": [["Encrypt.v", "hkdf_sha512 C shared salt ad n.", "hkdf_sha512 C shared [] ad n."]]}, {"id": "q016", "definition": "e_with_hdr", "desc": "adding a recipient restarts the Encryptor", "breaks": ["C17"], "edits": [["Encrypt.v", "(e_auth e) (e_started e) (e_stream e).\n", "(e_auth e) false (e_stream e).\n"]]}, {"id": "q017", "definition": "cause", "desc": "only one layer is unwrapped", "breaks": ["C21"], "edits": [["GoErr.v", "EWrap _ e' => cause e'", "EWrap _ e' => e'"]]}, {"id": "q018", "definition": "wrapf", "desc": "an error is turned into another", "breaks": ["C21"], "edits": [["GoErr.v", "match r with Fail e => Fail (EWrap ctx e) | _ => r end", "match r with Fail e => Fail (EMsg ctx) | _ => r end"]]}, {"id": "q019", "definition": "wrapo", "desc": "an error is dropped", "breaks": ["C21"], "edits": [["GoErr.v", "match o with Some e => Some (EWrap ctx e) | None => None end", "None"]]}, {"id": "q020", "definition": "fullwrite", "desc": "the error is dropped", "breaks": ["C22"], "edits": [["GoIO.v", "| (e, o, s) => (e, w_with_out w o s)", "| (e, o, s) => (None, w_with_out w o s)"]]}, {"id": "q021", "definition": "fullwrite", "desc": "what was written is written again", "breaks": ["C22"], "edits": [["GoIO.v", "| (e, o, s) => (e, w_with_out w o s)", "| (e, o, s) => (e, w_with_out w (o ++ buf) s)"]]}, {"id": "q022", "definition": "sk_algo", "desc": "another algorithm name", "breaks": ["C34", "C67"], "edits": [["KeyFiles.v", "str \"scrypt-sha256\"", "str \"scrypt\""]]}, {"id": "q023", "definition": "ssh_marker", "desc": "any PEM counts as OpenSSH", "breaks": ["C39", "C67"], "edits": [["KeyFiles.v", "str \"OPENSSH PRIVATE KEY-\"", "str \"PRIVATE KEY-\""]]}, {"id": "q024", "definition": "read_signature", "desc": "a file that cannot be parsed gives an empty signature", "breaks": ["C32", "C47"], "edits": [["KeyFiles.v", "| (s, Ok _) => Ok s\n  | (_, Fail e) => Fail e", "| (s, Ok _) => Ok s\n  | (s, Fail e) => Ok s"]]}, {"id": "q025", "definition": "make_private_key", "desc": "a key that cannot be parsed gives an empty key", "breaks": ["C34"], "edits": [["KeyFiles.v", "| (sk, Ok _) => Ok sk\n  | (_, Fail e) => Fail e", "| (sk, Ok _) => Ok sk\n  | (sk, Fail e) => Ok sk"]]}, {"id": "q026", "definition": "make_public_key", "desc": "a key that cannot be parsed gives an empty key", "breaks": ["C33"], "edits": [["KeyFiles.v", "| (pk, Ok _) => Ok pk\n  | (_, Fail e) => Fail e", "| (pk, Ok _) => Ok pk\n  | (pk, Fail e) => Ok pk"]]}, {"id": "q027", "definition": "make_private_key", "desc": "parse errors are reported as panics", "breaks": ["C36"], "edits": [["KeyFiles.v", "| (sk, Ok _) => Ok sk\n  | (_, Fail e) => Fail e", "| (sk, Ok _) => Ok sk\n  | (_, Fail e) => Panic \"x\""]]}, {"id": "q028", "definition": "unbe", "desc": "little-endian", "breaks": ["C41"], "edits": [["Keys.v", "unle (rev l)", "unle l"]]}, {"id": "q029", "definition": "verify_message", "desc": "digest not taken", "breaks": ["C30", "C31"], "edits": [["Sign.v", "Ed_Verify C (pk_Pk pk) (msg_digest C ck) (sig_Sig s)", "Ed_Verify C (pk_Pk pk) ck (sig_Sig s)"]]}, {"id": "q030", "definition": "verify_message", "desc": "every signature verifies", "breaks": ["C79"], "edits": [["Sign.v", "Ed_Verify C (pk_Pk pk) (msg_digest C ck) (sig_Sig s)", "Ok true"]]}, {"id": "q031", "definition": "p_set", "desc": "the later value of a repeated option is lost", "breaks": ["C71"], "edits": [["Flags.v", "PGood ((n, v) :: s) a | _ => p end.\nDefinition p_arg", "PGood (s ++ [(n, v)]) a | _ => p end.\nDefinition p_arg"]]}, {"id": "q032", "definition": "p_arg", "desc": "arguments in the opposite order", "breaks": ["C71"], "edits": [["Flags.v", "PGood s (a :: l)", "PGood s (l ++ [a])"]]}, {"id": "q033", "definition": "s_set", "desc": "letters of a group in the opposite order", "breaks": ["C71"], "edits": [["Flags.v", "SGood ((n, v) :: s) a", "SGood (s ++ [(n, v)]) a"]]}, {"id": "q034", "definition": "by_name", "desc": "options may be abbreviated", "breaks": ["C71"], "edits": [["Flags.v", "find (fun f => beq (fg_name f) n) fs", "find (fun f => is_prefix n (fg_name f)) fs"]]}, {"id": "q035", "definition": "element", "desc": "the slash belongs to the element", "breaks": ["C101"], "edits": [["Paths.v", "if Byte.eqb c x2f then [] else c :: element r' end", "if Byte.eqb c x2f then [c] else c :: element r' end"]]}, {"id": "q036", "definition": "at_end", "desc": "the end of the text does not end an element", "breaks": ["C101"], "edits": [["Paths.v", "at_end (r : bytes) : bool := match r with [] => true", "at_end (r : bytes) : bool := match r with [] => false"]]}, {"id": "q037", "definition": "after", "desc": "the slash is skipped, too", "breaks": ["C101"], "edits": [["Paths.v", "if Byte.eqb c x2f then r else after r' end", "if Byte.eqb c x2f then r' else after r' end"]]}, {"id": "q038", "definition": "strip_slashes", "desc": "only one slash is cut off", "breaks": ["C101"], "edits": [["Paths.v", "if Byte.eqb c x2f then strip_slashes r else", "if Byte.eqb c x2f then r else"]]}, {"id": "q039", "definition": "algo_ed25519", "desc": "another algorithm name", "breaks": ["C37"], "edits": [["Ssh.v", "algo_ed25519 : bytes := str \"ssh-ed25519\"", "algo_ed25519 : bytes := str \"ssh-rsa\""]]}, {"id": "q040", "definition": "openssh_magic", "desc": "the magic has no zero byte", "breaks": ["C39"], "edits": [["Ssh.v", "str \"openssh-key-v1\" ++ [x00]", "str \"openssh-key-v1\""]]}, {"id": "q041", "definition": "parse_authorized_keys", "desc": "the last line is not read", "breaks": ["C38"], "edits": [["Ssh.v", "auth_loop C (List.length inp) inp []", "auth_loop C (Nat.pred (List.length inp)) inp []"]]}, {"id": "q042", "definition": "call_getpw", "desc": "no password function: an empty password", "breaks": ["C36", "C39"], "edits": [["Ssh.v", "match f with Some r => r | None => Panic \"nil function call\" end", "match f with Some r => r | None => Ok [] end"]]}, {"id": "q043", "definition": "version_text", "desc": "product and repository swapped", "breaks": ["C100"], "edits": [["Usage.v", "[tg_base T; bn_product B; bn_repo B]", "[tg_base T; bn_repo B; bn_product B]"]]}, {"id": "q044", "definition": "usage_text", "desc": "the name of the program is missing once", "breaks": ["C100"], "edits": [["Usage.v", "fill usage_format [tg_base T; tg_base T]", "fill usage_format [tg_base T]"]]}, {"id": "q045", "definition": "sign_texts", "desc": "help of sign shows the options of verify", "breaks": ["C100"], "edits": [["Usage.v", "[fill sign_format [tg_base T]; bn_options B Sign]", "[fill sign_format [tg_base T]; bn_options B Verify]"]]}, {"id": "q046", "definition": "follow", "desc": "symbolic links are not followed", "breaks": ["C42", "C68"], "edits": [["Fs.v", "match n with O => None | S n' => follow n' f t end", "None"]]}, {"id": "q047", "definition": "store", "desc": "the rest of the buffer is shifted", "breaks": ["C102"], "edits": [["PbBuf.v", "take i d ++ [x] ++ drop (i + 1) d", "take i d ++ [x] ++ drop i d"]]}, {"id": "q048", "definition": "wkey_to", "desc": "the whole buffer is given to the key", "breaks": ["C102"], "edits": [["PbBuf.v", "let size := size_wkey m in\n  front <- slice d 0 size", "let size := size_wkey m in\n  front <- slice d 0 (len d)"]]}, {"id": "q049", "definition": "encrypt_mem", "desc": "the chunk buffer is not made again by start", "breaks": ["C104"], "edits": [["Mem.v", "(e, zeros (e_buflen e), w, rs) in", "(e, eb, w, rs) in"]]}, {"id": "q050", "definition": "encrypt_mem", "desc": "destination not closed", "breaks": ["C104"], "edits": [["Mem.v", "match w_close w with\n                  | (None, w) => (e, r, w, g, Ok tt)\n                  | (Some x, w) => (e, r, w, g, Fail x)\n                  end\n        | x => (e, r, w, g, x)", "(e, r, w, g, Ok tt)\n        | x => (e, r, w, g, x)"]]}, {"id": "q051", "definition": "draw", "desc": "the random source is not advanced", "breaks": ["C94"], "edits": [["Race.v", "let '(b, g') := rand_buf n g in (k b, g')", "let '(b, g') := rand_buf n g in (k b, g)"]]}, {"id": "q052", "definition": "pk_with", "desc": "the cache is not set", "breaks": ["C94"], "edits": [["Race.v", "mkPub (pk_Pk pk) (pk_comment pk) c (pk_hash pk)", "mkPub (pk_Pk pk) (pk_comment pk) (pk_ck pk) (pk_hash pk)"]]}]