[{"id": "s001", "edits": [["Flags.v", "str \"1\"; str \"t\";", "str \"t\";"]], "definition": "parse_bool", "desc": "--opt=1 refused", "breaks": ["C71"]}, {"id": "s002", "edits": [["Flags.v", "str \"0\"; str \"f\";", "str \"0\"; str \"no\"; str \"f\";"]], "definition": "parse_bool", "desc": "--opt=no accepted", "breaks": ["C71"]}, {"id": "s003", "edits": [["Flags.v", "Some b => Some (VBool b)", "Some b => Some (VBool true)"]], "definition": "set_value", "desc": "--opt=false means true", "breaks": ["C71"]}, {"id": "s004", "edits": [["Flags.v", "Byte.eqb d c", "Byte.eqb d c || Byte.eqb d (z2b (b2z c + 32))"]], "definition": "by_short", "desc": "shorthands ignore case one way", "breaks": ["C71"]}, {"id": "s005", "edits": [["Flags.v", "if Byte.eqb c x3d then ([], Some s')", "if Byte.eqb c x3a then ([], Some s')"]], "definition": "split_eq", "desc": "--opt:value instead of --opt=value", "breaks": ["C71"]}, {"id": "s006", "edits": [["Flags.v", "if Byte.eqb e x3d && (0 <? len t) then whole t", "if Byte.eqb e x3d then whole t"]], "definition": "parse_short", "desc": "-o= is an empty value", "breaks": ["C71"]}, {"id": "s007", "edits": [["Flags.v", "else if fg_bool f then s_set (fg_name f) (VBool true) (parse_short fs s') else whole s'", "else if fg_bool f then SGood [(fg_name f, VBool true)] None else whole s'"]], "definition": "parse_short", "desc": "letters after a boolean letter are dropped", "breaks": ["C71"]}, {"id": "s008", "edits": [["Flags.v", "| [] => if fg_bool f then SGood [(fg_name f, VBool true)] None else SGood [] (Some f)", "| [] => if fg_bool f then SGood [(fg_name f, VBool true)] None else whole []"]], "definition": "parse_short", "desc": "-o NAME takes no separate word", "breaks": ["C71"]}, {"id": "s009", "edits": [["Flags.v", "| [] => PGood [] rest\n            | n0", "| [] => parse_args fs interspersed rest\n            | n0"]], "definition": "parse_args", "desc": "-- does not end the options", "breaks": ["C71"]}, {"id": "s010", "edits": [["Flags.v", "| [] => PGood [] rest\n            | n0", "| [] => PGood [] args\n            | n0"]], "definition": "parse_args", "desc": "-- is kept as an argument", "breaks": ["C71"]}, {"id": "s011", "edits": [["Flags.v", "if negb (Byte.eqb c x2d) then (if interspersed then p_arg s (parse_args fs interspersed rest) else PGood [] args)", "if negb (Byte.eqb c x2d) then PGood [] args"]], "definition": "parse_args", "desc": "options after the first argument are not read", "breaks": ["C71"]}, {"id": "s012", "edits": [["Flags.v", "| [] => PBad\n                               end", "| [] => p_set (fg_name f) (VText []) (PGood [] [])\n                               end"]], "definition": "parse_args", "desc": "--output at the end of the line is an empty name", "breaks": ["C71"]}, {"id": "s013", "edits": [["Flags.v", "| SBad => PBad\n", "| SBad => parse_args fs interspersed rest\n"]], "definition": "parse_args", "desc": "unknown letters are ignored", "breaks": ["C71"]}, {"id": "s014", "edits": [["Flags.v", "| None => if beq n (str \"help\") then PHelp else PBad", "| None => if beq n (str \"help\") then PHelp else parse_args fs interspersed rest"]], "definition": "parse_args", "desc": "unknown long options are ignored", "breaks": ["C71"]}, {"id": "s015", "edits": [["Flags.v", "| (m, VBool b) :: s => get_bool s n (if beq m n then b else default)", "| (m, VBool b) :: s => if beq m n then b else get_bool s n default"]], "definition": "get_bool", "desc": "the first of repeated options counts", "breaks": ["C71"]}, {"id": "s016", "edits": [["Flags.v", "| (m, VText b) :: s => get_text s n (if beq m n then b else default)", "| (m, VText b) :: s => get_text s n (if beq m n then default ++ b else default)"]], "definition": "get_text", "desc": "repeated options are concatenated", "breaks": ["C71"]}, {"id": "s017", "edits": [["Flags.v", "fl \"env-password\" (Some x45) false; fl \"overwrite\" None true].\n(** sign.go", "fl \"env-password\" (Some x65) false; fl \"overwrite\" None true].\n(** sign.go"]], "definition": "gen_flags", "desc": "generate: -e instead of -E", "breaks": ["C71", "C72"]}, {"id": "s018", "edits": [["Flags.v", "fl \"output\" (Some x6f) false; fl \"overwrite\" None true]", "fl \"output\" (Some x6f) true; fl \"overwrite\" None true]"]], "definition": "sign_flags", "desc": "sign -o takes no name", "breaks": ["C71", "C72"]}, {"id": "s019", "edits": [["Flags.v", "fl \"quiet\" (Some x71) true", "fl \"quiet\" (Some x51) true"]], "definition": "verify_flags", "desc": "verify: -Q instead of -q", "breaks": ["C71", "C72"]}, {"id": "s020", "edits": [["Flags.v", "fl \"sign\" (Some x73) false;", "fl \"sign\" None false;"]], "definition": "enc_flags", "desc": "encrypt -s missing", "breaks": ["C71", "C72"]}, {"id": "s021", "edits": [["Flags.v", "fl \"block-size\" (Some x42) false", "fl \"block-size\" (Some x62) false"]], "definition": "enc_flags", "desc": "encrypt -b instead of -B", "breaks": ["C71", "C72"]}, {"id": "s022", "edits": [["Flags.v", "fl \"verify-sender\" (Some x76) false", "fl \"verify-sender\" (Some x56) false"]], "definition": "dec_flags", "desc": "decrypt -V instead of -v", "breaks": ["C71", "C72"]}, {"id": "s023", "edits": [["Flags.v", "fl \"test\" (Some x74) true; ", ""]], "definition": "dec_flags", "desc": "decrypt --test missing", "breaks": ["C71", "C72"]}, {"id": "s024", "edits": [["Flags.v", "(get_text s (str \"block-size\") (str \"128k\"))", "(get_text s (str \"block-size\") (str \"4M\"))"]], "definition": "declared", "desc": "default block size 4M", "breaks": ["C71", "C72"]}, {"id": "s025", "edits": [["Flags.v", "mkEo (get_text s (str \"outfile\") []) (get_text s (str \"sign\") [])", "mkEo (get_text s (str \"sign\") []) (get_text s (str \"outfile\") [])"]], "definition": "declared", "desc": "encrypt: --sign and --outfile swapped", "breaks": ["C71", "C72"]}, {"id": "s026", "edits": [["Flags.v", "(get_bool s (str \"no-password\") false) (get_bool s (str \"test\") false) (get_bool s (str \"overwrite\") false)", "(get_bool s (str \"no-password\") false) (get_bool s (str \"overwrite\") false) (get_bool s (str \"test\") false)"]], "definition": "declared", "desc": "decrypt: --test and --overwrite swapped", "breaks": ["C71", "C72"]}, {"id": "s027", "edits": [["Flags.v", "(get_text s (str \"verify-sender\") []) (get_text s (str \"env-password\") [])", "[] (get_text s (str \"env-password\") [])"]], "definition": "declared", "desc": "decrypt: --verify-sender ignored", "breaks": ["C71", "C72"]}, {"id": "s028", "edits": [["Flags.v", "if get_bool s (str \"help\") false then Quit 0 else Options (get_bool s (str \"quiet\") false, a)", "Options (get_bool s (str \"quiet\") false, a)"]], "definition": "declared", "desc": "verify --help ignored", "breaks": ["C71", "C72"]}, {"id": "s029", "edits": [["Flags.v", "mkSo (get_text s (str \"output\") []) (get_text s (str \"env-password\") []) (get_bool s (str \"no-password\") false)", "mkSo (get_text s (str \"output\") []) (get_text s (str \"env-password\") []) (get_bool s (str \"overwrite\") false)"]], "definition": "declared", "desc": "sign: --no-password reads --overwrite", "breaks": ["C71", "C72"]}, {"id": "s030", "edits": [["Flags.v", "(parse_args main_flags false argv)", "(parse_args main_flags true argv)"]], "definition": "declared", "desc": "the main parser takes options after the command", "breaks": ["C71", "C72"]}, {"id": "s031", "edits": [["Flags.v", "PBad => Quit 2", "PBad => Quit 0"]], "definition": "ended", "desc": "wrong options exit with 0", "breaks": ["C71"]}, {"id": "s032", "edits": [["Store.v", "write_file v (oct 6 0 0)", "write_file v (oct 6 4 4)"]], "definition": "serialize_private", "desc": "private key readable by all", "breaks": ["C75"]}, {"id": "s033", "edits": [["Store.v", "write_file v (oct 6 4 4) f dst (marshal_public", "write_file v (oct 6 0 0) f dst (marshal_public"]], "definition": "serialize_public", "desc": "public key readable by the owner only", "breaks": ["C75"]}, {"id": "s034", "edits": [["Store.v", "| None => Fail enoent", "| None => Ok []"]], "definition": "read_file", "desc": "a missing file reads as empty", "breaks": []}, {"id": "s035", "edits": [["Fs.v", "Z.ldiff m (se_umask v)", "m"]], "definition": "granted", "desc": "umask ignored", "breaks": ["C75"]}, {"id": "s036", "edits": [["Fs.v", "| None => OSync (se_ino v) ::\n         match", "| None =>\n         match"]], "definition": "sf_ops", "desc": "no fsync before rename", "breaks": ["C42"]}, {"id": "s037", "edits": [["Fs.v", "   else [ORemove (se_tmp v)]).", "   else [])."]], "definition": "sf_ops", "desc": "temporary file stays after a failed run", "breaks": ["C68", "C42"]}, {"id": "s038", "edits": [["Fs.v", "(granted v m) :: OAppend (se_ino v) (w_out w) ::", "(granted v (oct 6 6 6)) :: OAppend (se_ino v) (w_out w) ::"]], "definition": "sf_ops", "desc": "temporary file created with mode 666", "breaks": ["C75"]}, {"id": "s039", "edits": [["Fs.v", "| Some _ => if overwrite then", "| Some _ => if negb overwrite then"]], "definition": "safe_open", "desc": "--overwrite inverted", "breaks": ["C42", "C44", "C78"]}, {"id": "s040", "edits": [["Cli.v", "with_output W v (oct 6 4 4) outf", "with_output W v (oct 6 0 0) outf"]], "definition": "cli_sign", "desc": "signature file private", "breaks": ["C75"]}, {"id": "s041", "edits": [["Cli.v", "(str \"input=\" ++ fn)", "(str \"input=\" ++ kn)"]], "definition": "sign_body", "desc": "comment names the key", "breaks": ["C80"]}, {"id": "s042", "edits": [["Cli.v", "in (0, snd (w_close w))", "in (0, w)"]], "definition": "sign_body", "desc": "output of sign never closed", "breaks": ["C52", "C49"]}, {"id": "s043", "edits": [["Cli.v", "serialize_public E v2 (run_ops (wo_fs W) ops1) (wo_place W pkn) (sk_pk sk) (ge_comment o)", "serialize_public E v2 (run_ops (wo_fs W) ops1) (wo_place W pkn) (sk_pk sk) pw"]], "definition": "cli_generate", "desc": "the password becomes the public key comment", "breaks": ["C80", "C88"]}, {"id": "s044", "edits": [["Cli.v", "(wo_place W skn) sk (ge_comment o) (ge_force o) pw g", "(wo_place W skn) sk (ge_comment o) (ge_force o) [] g"]], "definition": "cli_generate", "desc": "generate ignores the password", "breaks": ["C43", "C65"]}, {"id": "s045", "edits": [["Cli.v", "if nopw then Ok []", "if nopw then Ok (str \"x\")"]], "definition": "get_pass", "desc": "--no-password uses a fixed password", "breaks": ["C43", "C65"]}, {"id": "s046", "edits": [["KeyFiles.v", "let '(salt, g) := rand_buf 32 g in", "let '(salt, g) := (take 32 (sk_Sk sk), g) in"]], "definition": "marshal_private", "desc": "the salt is the seed of the key", "breaks": ["C89", "C58"]}, {"id": "s047", "edits": [["KeyFiles.v", "mkSpriv comment (b64_encode esk)", "mkSpriv (comment ++ take 4 pass) (b64_encode esk)"]], "definition": "marshal_private", "desc": "part of the password hash in the comment", "breaks": ["C89", "C80"]}, {"id": "s048", "edits": [["KeyFiles.v", "2^19", "2^15"]], "definition": "scrypt_N", "desc": "scrypt N reduced", "breaks": ["C80"]}, {"id": "s049", "edits": [["KeyFiles.v", "8.", "1."]], "definition": "scrypt_r", "desc": "scrypt r reduced", "breaks": ["C80"]}, {"id": "s050", "edits": [["KeyFiles.v", "(take gcm_nonce_size salt)", "(zeros 12)"]], "definition": "marshal_private", "desc": "GCM nonce of the key file is zero", "breaks": ["C34", "C80"]}, {"id": "s051", "edits": [["KeyFiles.v", "| Ok (Some xk) => (xk, Ok tt)", "| Ok (Some xk) => (pk, Ok tt)"]], "definition": "unmarshal_public", "desc": "the parsed OpenSSH key is not stored", "breaks": ["C33", "C67"]}, {"id": "s052", "edits": [["Encrypt.v", "(gcm_seal C ae nonce (e_key e) (pk_Pk pk)) rbuf []", "(gcm_seal C ae nonce (e_key e) (pk_Pk pk)) (take 12 (pk_Pk pk)) []"]], "definition": "wrap_key", "desc": "the recipient is named by the nonce", "breaks": ["C82", "C58"]}, {"id": "s053", "edits": [["Encrypt.v", "| None => Ok (zeros sig_size, false)", "| None => Ok (zeros sig_size, true)"]], "definition": "add_sender_sig", "desc": "an unsigned file claims a signature", "breaks": ["C01", "C85"]}, {"id": "s054", "edits": [["Encrypt.v", "let '(r, g) := rand_buf sig_size g in (Ok r, g)", "(Ok (match e_hmac e with Some (k, d) => sha512 C d | None => [] end), g)"]], "definition": "write_trailer", "desc": "hash of the plaintext as trailer of unsigned files", "breaks": ["C81", "C58"]}, {"id": "s055", "edits": [["Encrypt.v", "sign_message C sk (hmac_sha256 C k d)", "sign_message C sk (sha256 C d)"]], "definition": "write_trailer", "desc": "the trailer signs the plaintext without a key", "breaks": ["C01", "C13"]}, {"id": "s056", "edits": [["Encrypt.v", "mkHeader blksz salt epk snd_ [] []", "mkHeader blksz salt epk (match sk with Some k => snd_ ++ pk_Pk (sk_pk k) | None => snd_ end) [] []"]], "definition": "new_encryptor", "desc": "sender in clear in the header", "breaks": ["C83", "C05"]}, {"id": "s057", "edits": [["Encrypt.v", "let cksum := sha256 C hdr in", "let cksum := sha256 C (hdr ++ e_key e) in"]], "definition": "enc_start", "desc": "header checksum covers the file key", "breaks": ["C01", "C05"]}, {"id": "s058", "edits": [["Encrypt.v", "(u32 (h_chunk (e_hdr e) + 4 + gcm_overhead))", "(u32 (h_chunk (e_hdr e) + gcm_overhead))"]], "definition": "enc_start", "desc": "I/O buffer four bytes short", "breaks": ["C01", "C85"]}, {"id": "s059", "edits": [["Encrypt.v", "| Some IoEOF | Some ErrClosedPipe | Some ErrUnexpectedEOF", "| Some IoEOF | Some ErrUnexpectedEOF"]], "definition": "enc_loop", "desc": "a closed pipe is an error", "breaks": ["C21"]}, {"id": "s060", "edits": [["Encrypt.v", "if eof then Z.lor z eof_bit else z", "if eof && negb (len pt =? 0) then Z.lor z eof_bit else z"]], "definition": "enc_block", "desc": "an empty last chunk is not marked", "breaks": ["C06", "C01"]}, {"id": "s061", "edits": [["Decrypt.v", "if h_chunk (d_hdr d) <? m then", "if max_chunk <? m then"]], "definition": "dec_chunk", "desc": "chunks larger than the header says", "breaks": ["C20", "C19"]}, {"id": "s062", "edits": [["Decrypt.v", "read_full (d_rd d) sig_size", "read_full (d_rd d) (sig_size + 1)"]], "definition": "process_trailer", "desc": "one byte more than the trailer is read", "breaks": ["C84", "C01"]}, {"id": "s063", "edits": [["Decrypt.v", "| Some x => (d', Fail (EWrap \"decrypt: premature EOF while reading trailer\" x))", "| Some x => if d_auth d then (d', Fail (EWrap \"decrypt: premature EOF while reading trailer\" x)) else (d', Ok (m, true))"]], "definition": "process_trailer", "desc": "missing trailer accepted without sender", "breaks": ["C09", "C10"]}, {"id": "s064", "edits": [["Decrypt.v", "mkDec (d_hdr d) (Some ae) (Some (hmackey, [])) senderPk (d_rd d) []\n                     (h_chunk (d_hdr d) + gcm_overhead)", "mkDec (d_hdr d) (Some ae) (Some (hmackey, [])) senderPk (d_rd d) []\n                     (h_chunk (d_hdr d))"]], "definition": "set_private_key", "desc": "decrypt buffer too small", "breaks": ["C01", "C20"]}, {"id": "s065", "edits": [["Decrypt.v", "(w_dkey w) (pk_Pk (sk_pk sk))", "(w_dkey w) []"]], "definition": "unwrap_key", "desc": "AAD missing on unwrap", "breaks": ["C01", "C15"]}, {"id": "s066", "edits": [["Decrypt.v", "| (Ok None, sk') => find_key C h ks' sk'", "| (Ok None, sk') => (Fail ErrBadKey, sk')"]], "definition": "find_key", "desc": "only the first wrapped key is tried", "breaks": ["C16", "C01"]}, {"id": "s067", "edits": [["Decrypt.v", "if beq (zeros sig_size) sig then Ok false", "if beq (zeros sig_size) sig then Ok (match senderPk with Some _ => true | None => false end)"]], "definition": "verify_sender", "desc": "unsigned files authenticated by any expected sender", "breaks": ["C12"]}, {"id": "s068", "edits": [["Decrypt.v", "dec_loop C f d w (u32 (i + 1))", "dec_loop C f d w i"]], "definition": "dec_loop", "desc": "block number not advanced", "breaks": ["C01", "C02"]}, {"id": "s069", "edits": [["Decrypt.v", "else if d_eof d then (d, w, Fail IoEOF)\n      else", "else"]], "definition": "decrypt", "desc": "a second Decrypt starts again", "breaks": ["C18"]}, {"id": "s070", "edits": [["Stream.v", "if (len buf =? max) && (0 <? len b) then", "if (len buf =? max) then"]], "definition": "ew_loop", "desc": "a full buffer is flushed at once", "breaks": ["C59", "C06"]}, {"id": "s071", "edits": [["Stream.v", "mkEw [] (ew_blk s) (Some ErrClosed)", "mkEw [] (ew_blk s) None"]], "definition": "ew_close", "desc": "writes after Close are accepted", "breaks": ["C27"]}, {"id": "s072", "edits": [["Stream.v", "if d_eof d then (d, mkEr", "if false then (d, mkEr"]], "definition": "er_read", "desc": "reading goes on after the last chunk", "breaks": ["C28"]}, {"id": "s073", "edits": [["Stream.v", "let m := Z.min n (er_len s) in", "let m := Z.min n (er_len s) - 1 in"]], "definition": "er_deliver", "desc": "one byte less delivered", "breaks": ["C28", "C02"]}, {"id": "s074", "edits": [["Stream.v", "else (d_set_stream d, Ok", "else (d, Ok"]], "definition": "new_stream_reader", "desc": "Decrypt after NewStreamReader not refused", "breaks": ["C18"]}, {"id": "s075", "edits": [["Base64.v", "Byte.eqb c x0a || Byte.eqb c x0d", "Byte.eqb c x0a"]], "definition": "is_crlf", "desc": "CR not skipped", "breaks": ["C40"]}, {"id": "s076", "edits": [["GoText.v", "[xc2; x85]; ", ""]], "definition": "space_forms", "desc": "NEL not trimmed", "breaks": ["C37"]}, {"id": "s077", "edits": [["GoText.v", "let s := strip space_forms (List.length s) s in\n", ""]], "definition": "trim_space", "desc": "leading white space kept", "breaks": ["C37"]}, {"id": "s078", "edits": [["Sign.v", "ck <- file_cksum C f ;; sign_message C sk ck", "ck <- file_cksum C f ;; sign_message C sk (take 32 ck)"]], "definition": "sign_file", "desc": "half of the file checksum signed", "breaks": ["C30", "C31"]}, {"id": "s079", "edits": [["Sign.v", "(h ++ be64 sz)", "(h ++ be64 0)"]], "definition": "file_cksum", "desc": "length not hashed", "breaks": ["C31"]}]