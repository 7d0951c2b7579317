[
 {
  "edits": [
   [
    "Debug.v",
    "++ varHdr",
    "++ []"
   ]
  ],
  "definition": "start_debug",
  "desc": "Debug: '++ varHdr' -> '++ []' (auto)",
  "breaks": [],
  "mod": "Debug",
  "id": "v001"
 },
 {
  "edits": [
   [
    "Decrypt.v",
    "          | Ok false => (",
    "          | Ok true => ("
   ]
  ],
  "definition": "process_trailer",
  "desc": "Decrypt: 'false' -> 'true' (auto)",
  "breaks": [],
  "mod": "Decrypt",
  "id": "v002"
 },
 {
  "edits": [
   [
    "Pb.v",
    "er := mkHeader 0 [] [",
    "er := mkHeader 1 [] ["
   ]
  ],
  "definition": "empty_header",
  "desc": "Pb: '0' -> '1' (auto)",
  "breaks": [],
  "mod": "Pb",
  "id": "v003"
 },
 {
  "edits": [
   [
    "Flags.v",
    "on\" (Some x76) true; fl ",
    "on\" (Some x76) false; fl "
   ]
  ],
  "definition": "main_flags",
  "desc": "Flags: 'true' -> 'false' (auto)",
  "breaks": [],
  "mod": "Flags",
  "id": "v004"
 },
 {
  "edits": [
   [
    "Sign.v",
    "++ ck",
    "++ []"
   ]
  ],
  "definition": "msg_digest",
  "desc": "Sign: '++ ck' -> '++ []' (auto)",
  "breaks": [],
  "mod": "Sign",
  "id": "v005"
 },
 {
  "edits": [
   [
    "Cli.v",
    "(fun _ _ ok => if ok then ",
    "(fun _ _ ok => if negb (ok) then "
   ]
  ],
  "definition": "cli_verify",
  "desc": "Cli: 'if ok' -> 'if negb (ok)' (auto)",
  "breaks": [],
  "mod": "Cli",
  "id": "v006"
 },
 {
  "edits": [
   [
    "KeyFiles.v",
    "crypt_N : Z := 2^19.\n",
    "crypt_N : Z := 3^19.\n"
   ]
  ],
  "definition": "scrypt_N",
  "desc": "KeyFiles: '2' -> '3' (auto)",
  "breaks": [],
  "mod": "KeyFiles",
  "id": "v007"
 },
 {
  "edits": [
   [
    "Keys.v",
    "gb (len buf =? 64) the",
    "gb (len buf =? 65) the"
   ]
  ],
  "definition": "make_private_from_bytes",
  "desc": "Keys: '64' -> '65' (auto)",
  "breaks": [],
  "mod": "Keys",
  "id": "v008"
 },
 {
  "edits": [
   [
    "Encrypt.v",
    "'(e, w, rs) := if e_started e then ",
    "'(e, w, rs) := if negb (e_started e) then "
   ]
  ],
  "definition": "encrypt",
  "desc": "Encrypt: 'if e_started e' -> 'if negb (e_started e)' (auto)",
  "breaks": [],
  "mod": "Encrypt",
  "id": "v009"
 },
 {
  "edits": [
   [
    "Fs.v",
    "++ b",
    "++ []"
   ]
  ],
  "definition": "do_op",
  "desc": "Fs: '++ b' -> '++ []' (auto)",
  "breaks": [],
  "mod": "Fs",
  "id": "v010"
 },
 {
  "edits": [
   [
    "Pb.v",
    " then 1 + len b + size_",
    " then 1 + len b - size_"
   ]
  ],
  "definition": "size_field",
  "desc": "Pb: '+' -> '-' (auto)",
  "breaks": [],
  "mod": "Pb",
  "id": "v011"
 },
 {
  "edits": [
   [
    "Encrypt.v",
    "lt_size : Z := 32.\nDef",
    "lt_size : Z := 33.\nDef"
   ]
  ],
  "definition": "salt_size",
  "desc": "Encrypt: '32' -> '33' (auto)",
  "breaks": [],
  "mod": "Encrypt",
  "id": "v012"
 },
 {
  "edits": [
   [
    "Decrypt.v",
    "ytes := got ++ drop (len ",
    "ytes := got ++ take (len "
   ]
  ],
  "definition": "buf_put",
  "desc": "Decrypt: 'drop' -> 'take' (auto)",
  "breaks": [],
  "mod": "Decrypt",
  "id": "v013"
 },
 {
  "edits": [
   [
    "Pb.v",
    "alt m) a in\n  if h_chunk m =? 0 then a el",
    "alt m) a in\n  if h_chunk m =? 1 then a el"
   ]
  ],
  "definition": "marshal_fields",
  "desc": "Pb: '0' -> '1' (auto)",
  "breaks": [],
  "mod": "Pb",
  "id": "v014"
 },
 {
  "edits": [
   [
    "Ssh.v",
    "sh_fields fs' (drop 4 dat",
    "sh_fields fs' (take 4 dat"
   ]
  ],
  "definition": "ssh_fields",
  "desc": "Ssh: 'drop' -> 'take' (auto)",
  "breaks": [],
  "mod": "Ssh",
  "id": "v015"
 },
 {
  "edits": [
   [
    "Pb.v",
    "++ m",
    "++ []"
   ]
  ],
  "definition": "push_keys",
  "desc": "Pb: '++ m' -> '++ []' (auto)",
  "breaks": [],
  "mod": "Pb",
  "id": "v016"
 },
 {
  "edits": [
   [
    "Flags.v",
    "st\" (Some x74) true; fl ",
    "st\" (Some x74) false; fl "
   ]
  ],
  "definition": "dec_flags",
  "desc": "Flags: 'true' -> 'false' (auto)",
  "breaks": [],
  "mod": "Flags",
  "id": "v017"
 },
 {
  "edits": [
   [
    "Encrypt.v",
    "r' => (length b + rd_si",
    "r' => (length b - rd_si"
   ]
  ],
  "definition": "rd_size",
  "desc": "Encrypt: '+' -> '-' (auto)",
  "breaks": [],
  "mod": "Encrypt",
  "id": "v018"
 },
 {
  "edits": [
   [
    "Told.v",
    "| Help => quit 0\n  en",
    "| Help => quit 1\n  en"
   ]
  ],
  "definition": "run_told",
  "desc": "Told: '0' -> '1' (auto)",
  "breaks": [],
  "mod": "Told",
  "id": "v019"
 },
 {
  "edits": [
   [
    "Pb.v",
    "(length d) d 0 0.\n\n(*",
    "(length d) d 0 1.\n\n(*"
   ]
  ],
  "definition": "skip",
  "desc": "Pb: '0' -> '1' (auto)",
  "breaks": [],
  "mod": "Pb",
  "id": "v020"
 },
 {
  "edits": [
   [
    "Store.v",
    "rite : bool)\n  : list fop * res unit := write_file v (oct 6 4 4) f dst (marshal_p",
    "rite : bool)\n  : list fop * res unit := write_file v (oct 6 5 4) f dst (marshal_p"
   ]
  ],
  "definition": "serialize_public",
  "desc": "Store: '4' -> '5' (auto)",
  "breaks": [],
  "mod": "Store",
  "id": "v021"
 },
 {
  "edits": [
   [
    "Pb.v",
    "eldNum =? 4 then\n          if negb (wireType =",
    "eldNum =? 4 then\n          if id (wireType ="
   ]
  ],
  "definition": "unmarshal_header_loop",
  "desc": "Pb: 'negb (' -> 'id (' (auto)",
  "breaks": [],
  "mod": "Pb",
  "id": "v022"
 },
 {
  "edits": [
   [
    "Bytes.v",
    "[] => []\n  | x :: l' => if n <=? 0 then l el",
    "[] => []\n  | x :: l' => if n <=? 1 then l el"
   ]
  ],
  "definition": "drop",
  "desc": "Bytes: '=? 0' -> '=? 1' (auto)",
  "breaks": [],
  "mod": "Bytes",
  "id": "v023"
 },
 {
  "edits": [
   [
    "GoIO.v",
    " s => let a := take k p i",
    " s => let a := drop k p i"
   ]
  ],
  "definition": "w_write",
  "desc": "GoIO: 'take' -> 'drop' (auto)",
  "breaks": [],
  "mod": "GoIO",
  "id": "v024"
 },
 {
  "edits": [
   [
    "Encrypt.v",
    "eof_bit : Z := 2^31.\n",
    "eof_bit : Z := 3^31.\n"
   ]
  ],
  "definition": "eof_bit",
  "desc": "Encrypt: '2' -> '3' (auto)",
  "breaks": [],
  "mod": "Encrypt",
  "id": "v025"
 },
 {
  "edits": [
   [
    "Keys.v",
    " then Some (a, 1, 0)\n",
    " then Some (a, 2, 0)\n"
   ]
  ],
  "definition": "egcd",
  "desc": "Keys: '1' -> '2' (auto)",
  "breaks": [],
  "mod": "Keys",
  "id": "v026"
 },
 {
  "edits": [
   [
    "Race.v",
    "der auth false false, [])",
    "der auth false true, [])"
   ]
  ],
  "definition": "call_prog",
  "desc": "Race: 'false' -> 'true' (auto)",
  "breaks": [],
  "mod": "Race",
  "id": "v027"
 },
 {
  "edits": [
   [
    "KeyFiles.v",
    ":= if len s =? 0 then",
    ":= if len s =? 1 then"
   ]
  ],
  "definition": "y_opt",
  "desc": "KeyFiles: '0' -> '1' (auto)",
  "breaks": [],
  "mod": "KeyFiles",
  "id": "v028"
 },
 {
  "edits": [
   [
    "GoText.v",
    "&&",
    "||"
   ]
  ],
  "definition": "is_prefix",
  "desc": "GoText: '&&' -> '||' (auto)",
  "breaks": [],
  "mod": "GoText",
  "id": "v029"
 },
 {
  "edits": [
   [
    "Crypto.v",
    "egb (len sk =? 64) the",
    "egb (len sk =? 65) the"
   ]
  ],
  "definition": "Ed_Sign",
  "desc": "Crypto: '64' -> '65' (auto)",
  "breaks": [],
  "mod": "Crypto",
  "id": "v030"
 },
 {
  "edits": [
   [
    "Told.v",
    " + 1",
    " + 2"
   ]
  ],
  "definition": "recipients_told",
  "desc": "Told: '+ 1' -> '+ 2' (auto)",
  "breaks": [],
  "mod": "Told",
  "id": "v031"
 },
 {
  "edits": [
   [
    "Ssh.v",
    " - ",
    " + "
   ]
  ],
  "definition": "opt_end",
  "desc": "Ssh: '-' -> '+' (auto)",
  "breaks": [],
  "mod": "Ssh",
  "id": "v032"
 },
 {
  "edits": [
   [
    "Told.v",
    "T W v (oct 6 4 4) out",
    "T W v (oct 6 4 5) out"
   ]
  ],
  "definition": "sign_told",
  "desc": "Told: '4' -> '5' (auto)",
  "breaks": [],
  "mod": "Told",
  "id": "v033"
 },
 {
  "edits": [
   [
    "Stream.v",
    " (u32 (er_blk s + 1)) N",
    " (u32 (er_blk s - 1)) N"
   ]
  ],
  "definition": "er_read",
  "desc": "Stream: '+' -> '-' (auto)",
  "breaks": [],
  "mod": "Stream",
  "id": "v034"
 },
 {
  "edits": [
   [
    "Decrypt.v",
    "if negb (len (w_dkey w) =? aes_key_size + gcm_overhead)\n       ",
    "if negb (negb (len (w_dkey w) =? aes_key_size + gcm_overhead)) "
   ]
  ],
  "definition": "unwrap_key",
  "desc": "Decrypt: 'if negb (len (w_dkey w) =? aes_key_size + gcm_overhead)' -> 'if negb (negb (len (w_dkey w) =? aes_key_size + gcm_overhead))' (auto)",
  "breaks": [],
  "mod": "Decrypt",
  "id": "v035"
 },
 {
  "edits": [
   [
    "Stream.v",
    "if e_started e ",
    "if negb (e_started e) "
   ]
  ],
  "definition": "new_stream_writer",
  "desc": "Stream: 'if e_started e' -> 'if negb (e_started e)' (auto)",
  "breaks": [],
  "mod": "Stream",
  "id": "v036"
 },
 {
  "edits": [
   [
    "Told.v",
    "true",
    "false"
   ]
  ],
  "definition": "decrypt_told",
  "desc": "Told: 'true' -> 'false' (auto)",
  "breaks": [],
  "mod": "Told",
  "id": "v037"
 },
 {
  "edits": [
   [
    "Flags.v",
    "if Byte.eqb c x68 ",
    "if negb (Byte.eqb c x68) "
   ]
  ],
  "definition": "parse_short",
  "desc": "Flags: 'if Byte.eqb c x68' -> 'if negb (Byte.eqb c x68)' (auto)",
  "breaks": [],
  "mod": "Flags",
  "id": "v038"
 },
 {
  "edits": [
   [
    "Race.v",
    "un n => K (Ok (take (matc",
    "un n => K (Ok (drop (matc"
   ]
  ],
  "definition": "words_pk",
  "desc": "Race: 'take' -> 'drop' (auto)",
  "breaks": [],
  "mod": "Race",
  "id": "v039"
 },
 {
  "edits": [
   [
    "Encrypt.v",
    "=? 0",
    "=? 1"
   ]
  ],
  "definition": "block_size",
  "desc": "Encrypt: '=? 0' -> '=? 1' (auto)",
  "breaks": [],
  "mod": "Encrypt",
  "id": "v040"
 },
 {
  "edits": [
   [
    "Ssh.v",
    "++ ks",
    "++ []"
   ]
  ],
  "definition": "auth_loop",
  "desc": "Ssh: '++ ks' -> '++ []' (auto)",
  "breaks": [],
  "mod": "Ssh",
  "id": "v041"
 },
 {
  "edits": [
   [
    "Usage.v",
    "g fs l := match parse_args fs true args with",
    "g fs l := match parse_args fs false args with"
   ]
  ],
  "definition": "command_texts",
  "desc": "Usage: 'true' -> 'false' (auto)",
  "breaks": [],
  "mod": "Usage",
  "id": "v042"
 },
 {
  "edits": [
   [
    "Flags.v",
    " fl \"env-password\" (Some x45) false; fl \"outp",
    " fl \"env-password\" (Some x45) true; fl \"outp"
   ]
  ],
  "definition": "sign_flags",
  "desc": "Flags: 'false' -> 'true' (auto)",
  "breaks": [],
  "mod": "Flags",
  "id": "v043"
 },
 {
  "edits": [
   [
    "Ssh.v",
    "if len data =? 0 ",
    "if negb (len data =? 0) "
   ]
  ],
  "definition": "ssh_unmarshal",
  "desc": "Ssh: 'if len data =? 0' -> 'if negb (len data =? 0)' (auto)",
  "breaks": [],
  "mod": "Ssh",
  "id": "v044"
 },
 {
  "edits": [
   [
    "Pb.v",
    "keys (h_keys m) + len (",
    "keys (h_keys m) - len ("
   ]
  ],
  "definition": "size_header",
  "desc": "Pb: '+' -> '-' (auto)",
  "breaks": [],
  "mod": "Pb",
  "id": "v045"
 },
 {
  "edits": [
   [
    "Main.v",
    "if beq k w ",
    "if negb (beq k w) "
   ]
  ],
  "definition": "find_cmd",
  "desc": "Main: 'if beq k w' -> 'if negb (beq k w)' (auto)",
  "breaks": [],
  "mod": "Main",
  "id": "v046"
 },
 {
  "edits": [
   [
    "Keys.v",
    "Z.land (b2z b) 127)) bi",
    "Z.land (b2z b) 128)) bi"
   ]
  ],
  "definition": "curve_of",
  "desc": "Keys: '127' -> '128' (auto)",
  "breaks": [],
  "mod": "Keys",
  "id": "v047"
 },
 {
  "edits": [
   [
    "Encrypt.v",
    "g) := rand_buf 32 g in",
    "g) := rand_buf 33 g in"
   ]
  ],
  "definition": "new_sender",
  "desc": "Encrypt: '32' -> '33' (auto)",
  "breaks": [],
  "mod": "Encrypt",
  "id": "v048"
 },
 {
  "edits": [
   [
    "Flags.v",
    " get_text s n (if beq m n then ",
    " get_text s n (if negb (beq m n) then "
   ]
  ],
  "definition": "get_text",
  "desc": "Flags: 'if beq m n' -> 'if negb (beq m n)' (auto)",
  "breaks": [],
  "mod": "Flags",
  "id": "v049"
 },
 {
  "edits": [
   [
    "Pb.v",
    "ytes :=\n  if 0 <? len ",
    "ytes :=\n  if 0 <=? len "
   ]
  ],
  "definition": "push_field",
  "desc": "Pb: '<?' -> '<=?' (auto)",
  "breaks": [],
  "mod": "Pb",
  "id": "v050"
 },
 {
  "edits": [
   [
    "Race.v",
    "  | Some _ => Load (SkCache k 0) (fun c' ",
    "  | Some _ => Load (SkCache k 1) (fun c' "
   ]
  ],
  "definition": "conv_sk",
  "desc": "Race: '0' -> '1' (auto)",
  "breaks": [],
  "mod": "Race",
  "id": "v051"
 },
 {
  "edits": [
   [
    "Encrypt.v",
    "56_size : Z := 32.\nDef",
    "56_size : Z := 33.\nDef"
   ]
  ],
  "definition": "sha256_size",
  "desc": "Encrypt: '32' -> '33' (auto)",
  "breaks": [],
  "mod": "Encrypt",
  "id": "v052"
 },
 {
  "edits": [
   [
    "StreamRead.v",
    " r = [] -> n = 0)) ns",
    " r = [] -> n = 1)) ns"
   ]
  ],
  "definition": "read_shape",
  "desc": "StreamRead: '0' -> '1' (auto)",
  "breaks": [],
  "mod": "StreamRead",
  "id": "v053"
 },
 {
  "edits": [
   [
    "Pb.v",
    ";\n  if (skippy <? 0) |",
    ";\n  if (skippy <=? 0) |"
   ]
  ],
  "definition": "get_unknown",
  "desc": "Pb: '<?' -> '<=?' (auto)",
  "breaks": [],
  "mod": "Pb",
  "id": "v054"
 },
 {
  "edits": [
   [
    "GoText.v",
    " sub b' with Some i => Some (i + 1) | None ",
    " sub b' with Some i => Some (i - 1) | None "
   ]
  ],
  "definition": "index_sub",
  "desc": "GoText: '+' -> '-' (auto)",
  "breaks": [],
  "mod": "GoText",
  "id": "v055"
 },
 {
  "edits": [
   [
    "Cli.v",
    "re \" ++ sn ++ (if ok then ",
    "re \" ++ sn ++ (if negb (ok) then "
   ]
  ],
  "definition": "verify_text",
  "desc": "Cli: 'if ok' -> 'if negb (ok)' (auto)",
  "breaks": [],
  "mod": "Cli",
  "id": "v056"
 },
 {
  "edits": [
   [
    "Flags.v",
    "if beq n (str \"help\") ",
    "if negb (beq n (str \"help\")) "
   ]
  ],
  "definition": "parse_args",
  "desc": "Flags: 'if beq n (str \"help\")' -> 'if negb (beq n (str \"help\"))' (auto)",
  "breaks": [],
  "mod": "Flags",
  "id": "v057"
 },
 {
  "edits": [
   [
    "Stream.v",
    ") w (ew_blk s) true g in",
    ") w (ew_blk s) false g in"
   ]
  ],
  "definition": "ew_close",
  "desc": "Stream: 'true' -> 'false' (auto)",
  "breaks": [],
  "mod": "Stream",
  "id": "v058"
 },
 {
  "edits": [
   [
    "Race.v",
    "   let dkey := take aes_k",
    "   let dkey := drop aes_k"
   ]
  ],
  "definition": "set_rest",
  "desc": "Race: 'take' -> 'drop' (auto)",
  "breaks": [],
  "mod": "Race",
  "id": "v059"
 },
 {
  "edits": [
   [
    "GoIO.v",
    "g_bytes t (p + 1) n' ",
    "g_bytes t (p + 2) n' "
   ]
  ],
  "definition": "rng_bytes",
  "desc": "GoIO: '1' -> '2' (auto)",
  "breaks": [],
  "mod": "GoIO",
  "id": "v060"
 },
 {
  "edits": [
   [
    "Ssh.v",
    "                    | None => Ok []\n         ",
    "                    | None => Ok [x00]\n         "
   ]
  ],
  "definition": "auth_line",
  "desc": "Ssh: 'Ok []' -> 'Ok [x00]' (auto)",
  "breaks": [],
  "mod": "Ssh",
  "id": "v061"
 },
 {
  "edits": [
   [
    "GoText.v",
    "t_blanks s' [] true)\n   ",
    "t_blanks s' [] false)\n   "
   ]
  ],
  "definition": "split_blanks",
  "desc": "GoText: 'true' -> 'false' (auto)",
  "breaks": [],
  "mod": "GoText",
  "id": "v062"
 },
 {
  "edits": [
   [
    "Crypto.v",
    "|| (len key =? 32) the",
    "|| (len key =? 33) the"
   ]
  ],
  "definition": "new_gcm",
  "desc": "Crypto: '32' -> '33' (auto)",
  "breaks": [],
  "mod": "Crypto",
  "id": "v063"
 },
 {
  "edits": [
   [
    "Fs.v",
    "ption bytes :=\n  match follow 40 f s with ",
    "ption bytes :=\n  match follow 41 f s with "
   ]
  ],
  "definition": "content",
  "desc": "Fs: '40' -> '41' (auto)",
  "breaks": [],
  "mod": "Fs",
  "id": "v064"
 },
 {
  "edits": [
   [
    "Cli.v",
    "None => Ok",
    "None => id Ok"
   ]
  ],
  "definition": "open_in",
  "desc": "Cli: 'None => Ok' -> 'None => id Ok' (auto)",
  "breaks": [],
  "mod": "Cli",
  "id": "v065"
 },
 {
  "edits": [
   [
    "Base64.v",
    "||",
    "&&"
   ]
  ],
  "definition": "is_crlf",
  "desc": "Base64: '||' -> '&&' (auto)",
  "breaks": [],
  "mod": "Base64",
  "id": "v066"
 },
 {
  "edits": [
   [
    "Bytes.v",
    " 2^63) mod 2^64 - 2^63.",
    " 2^63) mod 2^64 + 2^63."
   ]
  ],
  "definition": "i64",
  "desc": "Bytes: '-' -> '+' (auto)",
  "breaks": [],
  "mod": "Bytes",
  "id": "v067"
 },
 {
  "edits": [
   [
    "Cli.v",
    "with Some _ => true | No",
    "with Some _ => false | No"
   ]
  ],
  "definition": "exists_",
  "desc": "Cli: 'true' -> 'false' (auto)",
  "breaks": [],
  "mod": "Cli",
  "id": "v068"
 },
 {
  "edits": [
   [
    "Told.v",
    " wo_clean W bn ++ str \".pu",
    " wo_clean W bn ++ [] \".pu"
   ]
  ],
  "definition": "generate_told",
  "desc": "Told: '++ str' -> '++ []' (auto)",
  "breaks": [],
  "mod": "Told",
  "id": "v069"
 },
 {
  "edits": [
   [
    "Decrypt.v",
    "if negb ok ",
    "if negb (negb ok) "
   ]
  ],
  "definition": "verify_sender",
  "desc": "Decrypt: 'if negb ok' -> 'if negb (negb ok)' (auto)",
  "breaks": [],
  "mod": "Decrypt",
  "id": "v070"
 },
 {
  "edits": [
   [
    "Stream.v",
    " d, Ok (mkEr 0 0 0 No",
    " d, Ok (mkEr 0 1 0 No"
   ]
  ],
  "definition": "new_stream_reader",
  "desc": "Stream: '0' -> '1' (auto)",
  "breaks": [],
  "mod": "Stream",
  "id": "v071"
 },
 {
  "edits": [
   [
    "Ssh.v",
    "       else if negb (good_",
    "       else if id (good_"
   ]
  ],
  "definition": "open_section",
  "desc": "Ssh: 'negb (' -> 'id (' (auto)",
  "breaks": [],
  "mod": "Ssh",
  "id": "v072"
 },
 {
  "edits": [
   [
    "Ssh.v",
    "=\n  if len inp <? 4 th",
    "=\n  if len inp <=? 4 th"
   ]
  ],
  "definition": "parse_string",
  "desc": "Ssh: '<?' -> '<=?' (auto)",
  "breaks": [],
  "mod": "Ssh",
  "id": "v073"
 },
 {
  "edits": [
   [
    "Bytes.v",
    "(Z.to_N (z mod 256)) wi",
    "(Z.to_N (z mod 257)) wi"
   ]
  ],
  "definition": "z2b",
  "desc": "Bytes: '256' -> '257' (auto)",
  "breaks": [],
  "mod": "Bytes",
  "id": "v074"
 },
 {
  "edits": [
   [
    "Ssh.v",
    "if is_blank c ",
    "if negb (is_blank c) "
   ]
  ],
  "definition": "skip_blanks",
  "desc": "Ssh: 'if is_blank c' -> 'if negb (is_blank c)' (auto)",
  "breaks": [],
  "mod": "Ssh",
  "id": "v075"
 },
 {
  "edits": [
   [
    "Told.v",
    "v0 ++ str \": \" ++ str (fst",
    "v0 ++ str \": \" ++ [] (fst"
   ]
  ],
  "definition": "warn",
  "desc": "Told: '++ str' -> '++ []' (auto)",
  "breaks": [],
  "mod": "Told",
  "id": "v076"
 },
 {
  "edits": [
   [
    "Keys.v",
    "if 32 <? len (pk_Pk pk) ",
    "if negb (32 <? len (pk_Pk pk)) "
   ]
  ],
  "definition": "to_curve_pk",
  "desc": "Keys: 'if 32 <? len (pk_Pk pk)' -> 'if negb (32 <? len (pk_Pk pk))' (auto)",
  "breaks": [],
  "mod": "Keys",
  "id": "v077"
 },
 {
  "edits": [
   [
    "Store.v",
    "None => Ok",
    "None => id Ok"
   ]
  ],
  "definition": "read_file",
  "desc": "Store: 'None => Ok' -> 'None => id Ok' (auto)",
  "breaks": [],
  "mod": "Store",
  "id": "v078"
 },
 {
  "edits": [
   [
    "KeyFiles.v",
    "r E (su_pk r)) ++ y_field \"has",
    "r E (su_pk r)) ++ [] \"has"
   ]
  ],
  "definition": "yaml_pub",
  "desc": "KeyFiles: '++ y_field' -> '++ []' (auto)",
  "breaks": [],
  "mod": "KeyFiles",
  "id": "v079"
 },
 {
  "edits": [
   [
    "Ssh.v",
    "e if (len salt =? 0) || ",
    "e if (len salt =? 1) || "
   ]
  ],
  "definition": "bcrypt_key",
  "desc": "Ssh: '=? 0' -> '=? 1' (auto)",
  "breaks": [],
  "mod": "Ssh",
  "id": "v080"
 },
 {
  "edits": [
   [
    "Decrypt.v",
    "if len (w_dkey k) <=? aes_key_size ",
    "if negb (len (w_dkey k) <=? aes_key_size) "
   ]
  ],
  "definition": "wkeys_sane",
  "desc": "Decrypt: 'if len (w_dkey k) <=? aes_key_size' -> 'if negb (len (w_dkey k) <=? aes_key_size)' (auto)",
  "breaks": [],
  "mod": "Decrypt",
  "id": "v081"
 },
 {
  "edits": [
   [
    "Main.v",
    "if mo_help o ",
    "if negb (mo_help o) "
   ]
  ],
  "definition": "main",
  "desc": "Main: 'if mo_help o' -> 'if negb (mo_help o)' (auto)",
  "breaks": [],
  "mod": "Main",
  "id": "v082"
 },
 {
  "edits": [
   [
    "GoText.v",
    "||",
    "&&"
   ]
  ],
  "definition": "is_blank",
  "desc": "GoText: '||' -> '&&' (auto)",
  "breaks": [],
  "mod": "GoText",
  "id": "v083"
 },
 {
  "edits": [
   [
    "Fs.v",
    ") : Z := u * 64 + g * 8",
    ") : Z := u * 64 - g * 8"
   ]
  ],
  "definition": "oct",
  "desc": "Fs: '+' -> '-' (auto)",
  "breaks": [],
  "mod": "Fs",
  "id": "v084"
 },
 {
  "edits": [
   [
    "Keys.v",
    "++ pkb",
    "++ []"
   ]
  ],
  "definition": "new_private_key",
  "desc": "Keys: '++ pkb' -> '++ []' (auto)",
  "breaks": [],
  "mod": "Keys",
  "id": "v085"
 },
 {
  "edits": [
   [
    "Told.v",
    "| None => quit 1 [(\"U",
    "| None => quit 2 [(\"U"
   ]
  ],
  "definition": "main_told",
  "desc": "Told: '1' -> '2' (auto)",
  "breaks": [],
  "mod": "Told",
  "id": "v086"
 },
 {
  "edits": [
   [
    "Encrypt.v",
    "default : Z := 4 * 10",
    "default : Z := 5 * 10"
   ]
  ],
  "definition": "chunk_default",
  "desc": "Encrypt: '4' -> '5' (auto)",
  "breaks": [],
  "mod": "Encrypt",
  "id": "v087"
 },
 {
  "edits": [
   [
    "Flags.v",
    " fl \"env-password\" (Some x45) false; fl \"over",
    " fl \"env-password\" (Some x45) true; fl \"over"
   ]
  ],
  "definition": "gen_flags",
  "desc": "Flags: 'false' -> 'true' (auto)",
  "breaks": [],
  "mod": "Flags",
  "id": "v088"
 },
 {
  "edits": [
   [
    "GoText.v",
    "te f l' with Some i => Some (i + 1) | None ",
    "te f l' with Some i => Some (i - 1) | None "
   ]
  ],
  "definition": "find_byte",
  "desc": "GoText: '+' -> '-' (auto)",
  "breaks": [],
  "mod": "GoText",
  "id": "v089"
 },
 {
  "edits": [
   [
    "Encrypt.v",
    " res unit :=\n  if e_started e then ",
    " res unit :=\n  if negb (e_started e) then "
   ]
  ],
  "definition": "add_recipient",
  "desc": "Encrypt: 'if e_started e' -> 'if negb (e_started e)' (auto)",
  "breaks": [],
  "mod": "Encrypt",
  "id": "v090"
 },
 {
  "edits": [
   [
    "Encrypt.v",
    "ig_size : Z := 64.\nDef",
    "ig_size : Z := 65.\nDef"
   ]
  ],
  "definition": "sig_size",
  "desc": "Encrypt: '64' -> '65' (auto)",
  "breaks": [],
  "mod": "Encrypt",
  "id": "v091"
 },
 {
  "edits": [
   [
    "Encrypt.v",
    "if e_buflen e <? len ct + 4 ",
    "if negb (e_buflen e <? len ct + 4) "
   ]
  ],
  "definition": "enc_block",
  "desc": "Encrypt: 'if e_buflen e <? len ct + 4' -> 'if negb (e_buflen e <? len ct + 4)' (auto)",
  "breaks": [],
  "mod": "Encrypt",
  "id": "v092"
 },
 {
  "edits": [
   [
    "Usage.v",
    "str \"version\") false then",
    "str \"version\") true then"
   ]
  ],
  "definition": "main_texts",
  "desc": "Usage: 'false' -> 'true' (auto)",
  "breaks": [],
  "mod": "Usage",
  "id": "v093"
 },
 {
  "edits": [
   [
    "Race.v",
    "           | Ok (out, _) => Store (PkCache k 0) (Some out) (K",
    "           | Ok (out, _) => Store (PkCache k 1) (Some out) (K"
   ]
  ],
  "definition": "conv_pk",
  "desc": "Race: '0' -> '1' (auto)",
  "breaks": [],
  "mod": "Race",
  "id": "v094"
 },
 {
  "edits": [
   [
    "Stream.v",
    "C (2 * length b + 2) e ",
    "C (2 * length b - 2) e "
   ]
  ],
  "definition": "ew_write",
  "desc": "Stream: '+' -> '-' (auto)",
  "breaks": [],
  "mod": "Stream",
  "id": "v095"
 },
 {
  "edits": [
   [
    "Told.v",
    "e s => Some (a ++ s) | N",
    "e s => Some (a ++ []) | N"
   ]
  ],
  "definition": "sprintf",
  "desc": "Told: '++ s' -> '++ []' (auto)",
  "breaks": [],
  "mod": "Told",
  "id": "v096"
 },
 {
  "edits": [
   [
    "GoIO.v",
    "(tape g) (pos g + Z.max",
    "(tape g) (pos g - Z.max"
   ]
  ],
  "definition": "rand_buf",
  "desc": "GoIO: '+' -> '-' (auto)",
  "breaks": [],
  "mod": "GoIO",
  "id": "v097"
 },
 {
  "edits": [
   [
    "Debug.v",
    "d <? 10 then 48 + d els",
    "d <? 10 then 48 - d els"
   ]
  ],
  "definition": "hex_digit",
  "desc": "Debug: '+' -> '-' (auto)",
  "breaks": [],
  "mod": "Debug",
  "id": "v098"
 },
 {
  "edits": [
   [
    "Cli.v",
    "=> true | _ => false end.",
    "=> true | _ => true end."
   ]
  ],
  "definition": "not_exist",
  "desc": "Cli: 'false' -> 'true' (auto)",
  "breaks": [],
  "mod": "Cli",
  "id": "v099"
 },
 {
  "edits": [
   [
    "KeyFiles.v",
    "if z =? 0 ",
    "if negb (z =? 0) "
   ]
  ],
  "definition": "y_optint",
  "desc": "KeyFiles: 'if z =? 0' -> 'if negb (z =? 0)' (auto)",
  "breaks": [],
  "mod": "KeyFiles",
  "id": "v100"
 },
 {
  "edits": [
   [
    "KeyFiles.v",
    "g) := rand_buf 32 g in",
    "g) := rand_buf 33 g in"
   ]
  ],
  "definition": "marshal_private",
  "desc": "KeyFiles: '32' -> '33' (auto)",
  "breaks": [],
  "mod": "KeyFiles",
  "id": "v101"
 },
 {
  "edits": [
   [
    "Fs.v",
    "if (0 <? w_nclosed w) && negb (write_failed v w) ",
    "if negb ((0 <? w_nclosed w) && negb (write_failed v w)) "
   ]
  ],
  "definition": "sf_ops",
  "desc": "Fs: 'if (0 <? w_nclosed w) && negb (write_failed v w)' -> 'if negb ((0 <? w_nclosed w) && negb (write_failed v w))' (auto)",
  "breaks": [],
  "mod": "Fs",
  "id": "v102"
 },
 {
  "edits": [
   [
    "Cli.v",
    "            if negb (is_pk",
    "            if id (is_pk"
   ]
  ],
  "definition": "verify_with",
  "desc": "Cli: 'negb (' -> 'id (' (auto)",
  "breaks": [],
  "mod": "Cli",
  "id": "v103"
 },
 {
  "edits": [
   [
    "Base64.v",
    "x_of c l' (i + 1)\n  e",
    "x_of c l' (i + 2)\n  e"
   ]
  ],
  "definition": "index_of",
  "desc": "Base64: '1' -> '2' (auto)",
  "breaks": [],
  "mod": "Base64",
  "id": "v104"
 },
 {
  "edits": [
   [
    "KeyFiles.v",
    ":= len s / 4 * 3 - le",
    ":= len s / 4 * 4 - le"
   ]
  ],
  "definition": "b64_spare",
  "desc": "KeyFiles: '3' -> '4' (auto)",
  "breaks": [],
  "mod": "KeyFiles",
  "id": "v105"
 },
 {
  "edits": [
   [
    "Decrypt.v",
    "   let dkey := take aes_k",
    "   let dkey := drop aes_k"
   ]
  ],
  "definition": "set_private_key",
  "desc": "Decrypt: 'take' -> 'drop' (auto)",
  "breaks": [],
  "mod": "Decrypt",
  "id": "v106"
 },
 {
  "edits": [
   [
    "Base64.v",
    "c b64_alphabet 0.\n\n(*",
    "c b64_alphabet 1.\n\n(*"
   ]
  ],
  "definition": "b64_val",
  "desc": "Base64: '0' -> '1' (auto)",
  "breaks": [],
  "mod": "Base64",
  "id": "v107"
 },
 {
  "edits": [
   [
    "Keys.v",
    ":= clamp (take 32 (sha",
    ":= clamp (take 33 (sha"
   ]
  ],
  "definition": "to_curve_sk",
  "desc": "Keys: '32' -> '33' (auto)",
  "breaks": [],
  "mod": "Keys",
  "id": "v108"
 },
 {
  "edits": [
   [
    "Ssh.v",
    "ood_pad pad' (i + 1) end",
    "ood_pad pad' (i + 2) end"
   ]
  ],
  "definition": "good_pad",
  "desc": "Ssh: '+ 1' -> '+ 2' (auto)",
  "breaks": [],
  "mod": "Ssh",
  "id": "v109"
 },
 {
  "edits": [
   [
    "KeyFiles.v",
    "crypt_p : Z := 1.\nDef",
    "crypt_p : Z := 2.\nDef"
   ]
  ],
  "definition": "scrypt_p",
  "desc": "KeyFiles: '1' -> '2' (auto)",
  "breaks": [],
  "mod": "KeyFiles",
  "id": "v110"
 },
 {
  "edits": [
   [
    "Pb.v",
    "  let wireType := Z.land wire 7 in\n  if w",
    "  let wireType := Z.land wire 8 in\n  if w"
   ]
  ],
  "definition": "get_tag",
  "desc": "Pb: '7' -> '8' (auto)",
  "breaks": [],
  "mod": "Pb",
  "id": "v111"
 },
 {
  "edits": [
   [
    "GoErr.v",
    "tes :=\n  if (0 <=? lo) ",
    "tes :=\n  if (0 <? lo) "
   ]
  ],
  "definition": "slice",
  "desc": "GoErr: '<=?' -> '<?' (auto)",
  "breaks": [],
  "mod": "GoErr",
  "id": "v112"
 },
 {
  "edits": [
   [
    "Cli.v",
    "t 6 4 4) outf (negb (beq o",
    "t 6 4 4) outf (id (beq o"
   ]
  ],
  "definition": "cli_sign",
  "desc": "Cli: 'negb (' -> 'id (' (auto)",
  "breaks": [],
  "mod": "Cli",
  "id": "v113"
 },
 {
  "edits": [
   [
    "Fs.v",
    " : option Z :=\n  match follow 40 f s with ",
    " : option Z :=\n  match follow 41 f s with "
   ]
  ],
  "definition": "mode",
  "desc": "Fs: '40' -> '41' (auto)",
  "breaks": [],
  "mod": "Fs",
  "id": "v114"
 },
 {
  "edits": [
   [
    "Race.v",
    "&&",
    "||"
   ]
  ],
  "definition": "cell_eqb",
  "desc": "Race: '&&' -> '||' (auto)",
  "breaks": [],
  "mod": "Race",
  "id": "v115"
 },
 {
  "edits": [
   [
    "Debug.v",
    " ++ [x0a; x09] ++ str \"hdr",
    " ++ [x0a; x09] ++ [] \"hdr"
   ]
  ],
  "definition": "debug_text",
  "desc": "Debug: '++ str' -> '++ []' (auto)",
  "breaks": [],
  "mod": "Debug",
  "id": "v116"
 },
 {
  "edits": [
   [
    "KeyFiles.v",
    "crypt_r : Z := 8.\nDef",
    "crypt_r : Z := 9.\nDef"
   ]
  ],
  "definition": "scrypt_r",
  "desc": "KeyFiles: '8' -> '9' (auto)",
  "breaks": [],
  "mod": "KeyFiles",
  "id": "v117"
 },
 {
  "edits": [
   [
    "Pb.v",
    "Num =? 1 then\n          if negb (wireType =? 2) then Fail (EM",
    "Num =? 1 then\n          if negb (wireType =? 3) then Fail (EM"
   ]
  ],
  "definition": "unmarshal_wkey_loop",
  "desc": "Pb: '2' -> '3' (auto)",
  "breaks": [],
  "mod": "Pb",
  "id": "v118"
 },
 {
  "edits": [
   [
    "Encrypt.v",
    "++ drop",
    "++ []"
   ]
  ],
  "definition": "chunk_nonce",
  "desc": "Encrypt: '++ drop' -> '++ []' (auto)",
  "breaks": [],
  "mod": "Encrypt",
  "id": "v119"
 },
 {
  "edits": [
   [
    "Crypto.v",
    "verhead : Z := 16.\n\n(*",
    "verhead : Z := 17.\n\n(*"
   ]
  ],
  "definition": "gcm_overhead",
  "desc": "Crypto: '16' -> '17' (auto)",
  "breaks": [],
  "mod": "Crypto",
  "id": "v120"
 },
 {
  "edits": [
   [
    "Pb.v",
    "eld (w_nonce m) + len (",
    "eld (w_nonce m) - len ("
   ]
  ],
  "definition": "size_wkey",
  "desc": "Pb: '+' -> '-' (auto)",
  "breaks": [],
  "mod": "Pb",
  "id": "v121"
 },
 {
  "edits": [
   [
    "Store.v",
    " goerr := EExt 2.\nDef",
    " goerr := EExt 3.\nDef"
   ]
  ],
  "definition": "enoent",
  "desc": "Store: '2' -> '3' (auto)",
  "breaks": [],
  "mod": "Store",
  "id": "v122"
 },
 {
  "edits": [
   [
    "GoIO.v",
    "n a) buf) (out ++ a)\n   ",
    "n a) buf) (out ++ [])\n   "
   ]
  ],
  "definition": "fullwrite_loop",
  "desc": "GoIO: '++ a' -> '++ []' (auto)",
  "breaks": [],
  "mod": "GoIO",
  "id": "v123"
 },
 {
  "edits": [
   [
    "Bytes.v",
    "h\n  | [] => []\n  | x :: l' => if n <=? 0 then [] el",
    "h\n  | [] => []\n  | x :: l' => if negb (n <=? 0) then [] el"
   ]
  ],
  "definition": "take",
  "desc": "Bytes: 'if n <=? 0' -> 'if negb (n <=? 0)' (auto)",
  "breaks": [],
  "mod": "Bytes",
  "id": "v124"
 },
 {
  "edits": [
   [
    "Flags.v",
    "flag := [fl \"help\" (Some x68) true; fl \"quie",
    "flag := [fl \"help\" (Some x68) false; fl \"quie"
   ]
  ],
  "definition": "verify_flags",
  "desc": "Flags: 'true' -> 'false' (auto)",
  "breaks": [],
  "mod": "Flags",
  "id": "v125"
 },
 {
  "edits": [
   [
    "Race.v",
    "if cell_eqb y x ",
    "if negb (cell_eqb y x) "
   ]
  ],
  "definition": "step",
  "desc": "Race: 'if cell_eqb y x' -> 'if negb (cell_eqb y x)' (auto)",
  "breaks": [],
  "mod": "Race",
  "id": "v126"
 },
 {
  "edits": [
   [
    "Pb.v",
    " (Z.lor x 1) + 1 + 6)",
    " (Z.lor x 1) + 2 + 6)"
   ]
  ],
  "definition": "size_varint",
  "desc": "Pb: '1' -> '2' (auto)",
  "breaks": [],
  "mod": "Pb",
  "id": "v127"
 },
 {
  "edits": [
   [
    "KeyFiles.v",
    "++ str",
    "++ []"
   ]
  ],
  "definition": "y_field",
  "desc": "KeyFiles: '++ str' -> '++ []' (auto)",
  "breaks": [],
  "mod": "KeyFiles",
  "id": "v128"
 },
 {
  "edits": [
   [
    "Encrypt.v",
    "++ rbuf",
    "++ []"
   ]
  ],
  "definition": "wrap_key",
  "desc": "Encrypt: '++ rbuf' -> '++ []' (auto)",
  "breaks": [],
  "mod": "Encrypt",
  "id": "v129"
 },
 {
  "edits": [
   [
    "Stream.v",
    "s, None) => if 0 <? e",
    "s, None) => if 1 <? e"
   ]
  ],
  "definition": "er_keep",
  "desc": "Stream: '0' -> '1' (auto)",
  "breaks": [],
  "mod": "Stream",
  "id": "v130"
 },
 {
  "edits": [
   [
    "GoText.v",
    "drop ",
    "take "
   ]
  ],
  "definition": "strip",
  "desc": "GoText: 'drop' -> 'take' (auto)",
  "breaks": [],
  "mod": "GoText",
  "id": "v131"
 },
 {
  "edits": [
   [
    "Encrypt.v",
    "Ok (sig_Sig s, true)\n   ",
    "Ok (sig_Sig s, false)\n   "
   ]
  ],
  "definition": "add_sender_sig",
  "desc": "Encrypt: 'true' -> 'false' (auto)",
  "breaks": [],
  "mod": "Encrypt",
  "id": "v132"
 },
 {
  "edits": [
   [
    "Encrypt.v",
    "f e r w (u32 (i + 1)) g",
    "f e r w (u32 (i - 1)) g"
   ]
  ],
  "definition": "enc_loop",
  "desc": "Encrypt: '+' -> '-' (auto)",
  "breaks": [],
  "mod": "Encrypt",
  "id": "v133"
 },
 {
  "edits": [
   [
    "Ssh.v",
    "(len block mod 16 =? 0",
    "(len block mod 17 =? 0"
   ]
  ],
  "definition": "parse_openssh_private",
  "desc": "Ssh: '16' -> '17' (auto)",
  "breaks": [],
  "mod": "Ssh",
  "id": "v134"
 },
 {
  "edits": [
   [
    "Flags.v",
    " d c | None => false end)",
    " d c | None => true end)"
   ]
  ],
  "definition": "by_short",
  "desc": "Flags: 'false' -> 'true' (auto)",
  "breaks": [],
  "mod": "Flags",
  "id": "v135"
 },
 {
  "edits": [
   [
    "Encrypt.v",
    "ey_size : Z := 32.\nDef",
    "ey_size : Z := 33.\nDef"
   ]
  ],
  "definition": "aes_key_size",
  "desc": "Encrypt: '32' -> '33' (auto)",
  "breaks": [],
  "mod": "Encrypt",
  "id": "v136"
 },
 {
  "edits": [
   [
    "Told.v",
    " ++ fn)) w in (0, snd",
    " ++ fn)) w in (1, snd"
   ]
  ],
  "definition": "sign_body_told",
  "desc": "Told: '0' -> '1' (auto)",
  "breaks": [],
  "mod": "Told",
  "id": "v137"
 },
 {
  "edits": [
   [
    "Told.v",
    "if ok ",
    "if negb (ok) "
   ]
  ],
  "definition": "verify_told",
  "desc": "Told: 'if ok' -> 'if negb (ok)' (auto)",
  "breaks": [],
  "mod": "Told",
  "id": "v138"
 },
 {
  "edits": [
   [
    "Fs.v",
    "if x =? k ",
    "if negb (x =? k) "
   ]
  ],
  "definition": "upd_at",
  "desc": "Fs: 'if x =? k' -> 'if negb (x =? k)' (auto)",
  "breaks": [],
  "mod": "Fs",
  "id": "v139"
 },
 {
  "edits": [
   [
    "Ssh.v",
    "(take 16 (drop 32 k), ",
    "(take 16 (drop 33 k), "
   ]
  ],
  "definition": "extract_bcrypt",
  "desc": "Ssh: '32' -> '33' (auto)",
  "breaks": [],
  "mod": "Ssh",
  "id": "v140"
 },
 {
  "edits": [
   [
    "Base64.v",
    "* 2^8 in\n      [b64_char (v / 2^18 mod 64); b64_char (v / 2^12 mod 64); b64_char (",
    "* 2^8 in\n      [b64_char (v / 2^18 mod 64); b64_char (v / 2^13 mod 64); b64_char ("
   ]
  ],
  "definition": "b64_encode",
  "desc": "Base64: '12' -> '13' (auto)",
  "breaks": [],
  "mod": "Base64",
  "id": "v141"
 },
 {
  "edits": [
   [
    "Base64.v",
    "ith c :: s' => if is_crlf c then ",
    "ith c :: s' => if negb (is_crlf c) then "
   ]
  ],
  "definition": "skip_nl",
  "desc": "Base64: 'if is_crlf c' -> 'if negb (is_crlf c)' (auto)",
  "breaks": [],
  "mod": "Base64",
  "id": "v142"
 },
 {
  "edits": [
   [
    "Told.v",
    "if 0 <? errs ",
    "if negb (0 <? errs) "
   ]
  ],
  "definition": "enc_body_told",
  "desc": "Told: 'if 0 <? errs' -> 'if negb (0 <? errs)' (auto)",
  "breaks": [],
  "mod": "Told",
  "id": "v143"
 },
 {
  "edits": [
   [
    "Told.v",
    "<? 2 then done 1 [(\"I",
    "<? 2 then done 2 [(\"I"
   ]
  ],
  "definition": "encrypt_told",
  "desc": "Told: '1' -> '2' (auto)",
  "breaks": [],
  "mod": "Told",
  "id": "v144"
 },
 {
  "edits": [
   [
    "Encrypt.v",
    " [] []) key [] 0 None",
    " [] []) key [] 1 None"
   ]
  ],
  "definition": "new_encryptor",
  "desc": "Encrypt: '0' -> '1' (auto)",
  "breaks": [],
  "mod": "Encrypt",
  "id": "v145"
 },
 {
  "edits": [
   [
    "Cli.v",
    "n ok => mkOut (if ok then ",
    "n ok => mkOut (if negb (ok) then "
   ]
  ],
  "definition": "cli_verify_cmd",
  "desc": "Cli: 'if ok' -> 'if negb (ok)' (auto)",
  "breaks": [],
  "mod": "Cli",
  "id": "v146"
 },
 {
  "edits": [
   [
    "Told.v",
    "if tofile ",
    "if negb (tofile) "
   ]
  ],
  "definition": "with_output_told",
  "desc": "Told: 'if tofile' -> 'if negb (tofile)' (auto)",
  "breaks": [],
  "mod": "Told",
  "id": "v147"
 },
 {
  "edits": [
   [
    "Debug.v",
    "  if level <=? 0 then",
    "  if level <=? 1 then"
   ]
  ],
  "definition": "debug",
  "desc": "Debug: '0' -> '1' (auto)",
  "breaks": [],
  "mod": "Debug",
  "id": "v148"
 },
 {
  "edits": [
   [
    "Pb.v",
    "=\n  push_field 10 (w_d",
    "=\n  push_field 11 (w_d"
   ]
  ],
  "definition": "marshal_wkey",
  "desc": "Pb: '10' -> '11' (auto)",
  "breaks": [],
  "mod": "Pb",
  "id": "v149"
 },
 {
  "edits": [
   [
    "GoErr.v",
    "false",
    "true"
   ]
  ],
  "definition": "is_panic",
  "desc": "GoErr: 'false' -> 'true' (auto)",
  "breaks": [],
  "mod": "GoErr",
  "id": "v150"
 },
 {
  "edits": [
   [
    "Bytes.v",
    ") : Z := z mod 2^32.\n",
    ") : Z := z mod 3^32.\n"
   ]
  ],
  "definition": "u32",
  "desc": "Bytes: '2' -> '3' (auto)",
  "breaks": [],
  "mod": "Bytes",
  "id": "v151"
 },
 {
  "edits": [
   [
    "Main.v",
    "if existsb (beq a) words ",
    "if negb (existsb (beq a) words) "
   ]
  ],
  "definition": "abbrev",
  "desc": "Main: 'if existsb (beq a) words' -> 'if negb (existsb (beq a) words)' (auto)",
  "breaks": [],
  "mod": "Main",
  "id": "v152"
 },
 {
  "edits": [
   [
    "Fs.v",
    "then match se_open v with Some e => Fail e | None => Ok tt end\n       ",
    "then match se_open v with Some e => Fail e | None => id Ok tt end\n       "
   ]
  ],
  "definition": "safe_open",
  "desc": "Fs: 'None => Ok' -> 'None => id Ok' (auto)",
  "breaks": [],
  "mod": "Fs",
  "id": "v153"
 },
 {
  "edits": [
   [
    "Crypto.v",
    " Z.land n (n - 1) =? ",
    " Z.land n (n - 2) =? "
   ]
  ],
  "definition": "is_pow2",
  "desc": "Crypto: '1' -> '2' (auto)",
  "breaks": [],
  "mod": "Crypto",
  "id": "v154"
 },
 {
  "edits": [
   [
    "Debug.v",
    "digit (b2z b / 16) :: ",
    "digit (b2z b / 17) :: "
   ]
  ],
  "definition": "hex",
  "desc": "Debug: '16' -> '17' (auto)",
  "breaks": [],
  "mod": "Debug",
  "id": "v155"
 },
 {
  "edits": [
   [
    "Sign.v",
    "len b) windows 0 in\n ",
    "len b) windows 1 in\n "
   ]
  ],
  "definition": "file_cksum",
  "desc": "Sign: '0' -> '1' (auto)",
  "breaks": [],
  "mod": "Sign",
  "id": "v156"
 },
 {
  "edits": [
   [
    "Pb.v",
    "1 + size_wkey k + size_",
    "1 + size_wkey k - size_"
   ]
  ],
  "definition": "size_keys",
  "desc": "Pb: '+' -> '-' (auto)",
  "breaks": [],
  "mod": "Pb",
  "id": "v157"
 },
 {
  "edits": [
   [
    "Store.v",
    "te : bool)\n  : list fop * res unit := write_file v (oct 6 4 4) f dst (marshal_sig",
    "te : bool)\n  : list fop * res unit := write_file v (oct 6 4 5) f dst (marshal_sig"
   ]
  ],
  "definition": "serialize_signature",
  "desc": "Store: '4' -> '5' (auto)",
  "breaks": [],
  "mod": "Store",
  "id": "v158"
 },
 {
  "edits": [
   [
    "Pb.v",
    " := put_varint 10 (u64",
    " := put_varint 11 (u64"
   ]
  ],
  "definition": "encode_varint",
  "desc": "Pb: '10' -> '11' (auto)",
  "breaks": [],
  "mod": "Pb",
  "id": "v159"
 },
 {
  "edits": [
   [
    "Crypto.v",
    "if negb (len point =? 32) ",
    "if negb (negb (len point =? 32)) "
   ]
  ],
  "definition": "X25519",
  "desc": "Crypto: 'if negb (len point =? 32)' -> 'if negb (negb (len point =? 32))' (auto)",
  "breaks": [],
  "mod": "Crypto",
  "id": "v160"
 },
 {
  "edits": [
   [
    "Main.v",
    "Byte.eqb d x84 && Byte",
    "Byte.eqb d x84 || Byte"
   ]
  ],
  "definition": "to_lower",
  "desc": "Main: '&&' -> '||' (auto)",
  "breaks": [],
  "mod": "Main",
  "id": "v161"
 },
 {
  "edits": [
   [
    "Ssh.v",
    "if beq (pem_type b) (str \"OPENSSH PRIVATE KEY\") ",
    "if negb (beq (pem_type b) (str \"OPENSSH PRIVATE KEY\")) "
   ]
  ],
  "definition": "parse_ssh_private",
  "desc": "Ssh: 'if beq (pem_type b) (str \"OPENSSH PRIVATE KEY\")' -> 'if negb (beq (pem_type b) (str \"OPENSSH PRIVATE KEY\"))' (auto)",
  "breaks": [],
  "mod": "Ssh",
  "id": "v162"
 },
 {
  "edits": [
   [
    "Stream.v",
    "h d) (d_eof d) true.\n\n(*",
    "h d) (d_eof d) false.\n\n(*"
   ]
  ],
  "definition": "d_set_stream",
  "desc": "Stream: 'true' -> 'false' (auto)",
  "breaks": [],
  "mod": "Stream",
  "id": "v163"
 },
 {
  "edits": [
   [
    "Encrypt.v",
    "++ salt",
    "++ []"
   ]
  ],
  "definition": "sender_cksum",
  "desc": "Encrypt: '++ salt' -> '++ []' (auto)",
  "breaks": [],
  "mod": "Encrypt",
  "id": "v164"
 },
 {
  "edits": [
   [
    "Fs.v",
    "ome ErrClosed] 0.\n(**",
    "ome ErrClosed] 1.\n(**"
   ]
  ],
  "definition": "sf_sink",
  "desc": "Fs: '0' -> '1' (auto)",
  "breaks": [],
  "mod": "Fs",
  "id": "v165"
 },
 {
  "edits": [
   [
    "Cli.v",
    "r with Ok _ => 0 | Fa",
    "r with Ok _ => 1 | Fa"
   ]
  ],
  "definition": "code_of",
  "desc": "Cli: '0' -> '1' (auto)",
  "breaks": [],
  "mod": "Cli",
  "id": "v166"
 },
 {
  "edits": [
   [
    "Flags.v",
    "ze\" (Some x42) false; fl ",
    "ze\" (Some x42) true; fl "
   ]
  ],
  "definition": "enc_flags",
  "desc": "Flags: 'false' -> 'true' (auto)",
  "breaks": [],
  "mod": "Flags",
  "id": "v167"
 },
 {
  "edits": [
   [
    "Pb.v",
    " if byteLen <? 0 then",
    " if byteLen <? 1 then"
   ]
  ],
  "definition": "get_bytes",
  "desc": "Pb: '0' -> '1' (auto)",
  "breaks": [],
  "mod": "Pb",
  "id": "v168"
 },
 {
  "edits": [
   [
    "GoErr.v",
    "<?",
    "<=?"
   ]
  ],
  "definition": "at_",
  "desc": "GoErr: '<?' -> '<=?' (auto)",
  "breaks": [],
  "mod": "GoErr",
  "id": "v169"
 },
 {
  "edits": [
   [
    "Ssh.v",
    "_blanks inp [] false with",
    "_blanks inp [] true with"
   ]
  ],
  "definition": "parse_ssh_pubkey",
  "desc": "Ssh: 'false' -> 'true' (auto)",
  "breaks": [],
  "mod": "Ssh",
  "id": "v170"
 },
 {
  "edits": [
   [
    "Debug.v",
    " EStream wr => if e_started e then ",
    " EStream wr => if negb (e_started e) then "
   ]
  ],
  "definition": "estep_debug",
  "desc": "Debug: 'if e_started e' -> 'if negb (e_started e)' (auto)",
  "breaks": [],
  "mod": "Debug",
  "id": "v171"
 },
 {
  "edits": [
   [
    "Ssh.v",
    "_enc_pubkey C (take i inp",
    "_enc_pubkey C (drop i inp"
   ]
  ],
  "definition": "parse_authorized_key",
  "desc": "Ssh: 'take' -> 'drop' (auto)",
  "breaks": [],
  "mod": "Ssh",
  "id": "v172"
 },
 {
  "edits": [
   [
    "Encrypt.v",
    "chunk : Z := 2^30.\nDef",
    "chunk : Z := 2^31.\nDef"
   ]
  ],
  "definition": "max_chunk",
  "desc": "Encrypt: '30' -> '31' (auto)",
  "breaks": [],
  "mod": "Encrypt",
  "id": "v173"
 },
 {
  "edits": [
   [
    "Encrypt.v",
    "++ be32",
    "++ []"
   ]
  ],
  "definition": "fixed_header",
  "desc": "Encrypt: '++ be32' -> '++ []' (auto)",
  "breaks": [],
  "mod": "Encrypt",
  "id": "v174"
 },
 {
  "edits": [
   [
    "Stream.v",
    " unit) :=\n  if 0 <? e",
    " unit) :=\n  if 1 <? e"
   ]
  ],
  "definition": "er_deliver",
  "desc": "Stream: '0' -> '1' (auto)",
  "breaks": [],
  "mod": "Stream",
  "id": "v175"
 },
 {
  "edits": [
   [
    "Pb.v",
    " d (len d) idx 0 0.\n\n",
    " d (len d) idx 1 0.\n\n"
   ]
  ],
  "definition": "varint_at",
  "desc": "Pb: '0' -> '1' (auto)",
  "breaks": [],
  "mod": "Pb",
  "id": "v176"
 },
 {
  "edits": [
   [
    "Stream.v",
    ") else None), (take m b, ",
    ") else None), (drop m b, "
   ]
  ],
  "definition": "er_read_kept",
  "desc": "Stream: 'take' -> 'drop' (auto)",
  "breaks": [],
  "mod": "Stream",
  "id": "v177"
 },
 {
  "edits": [
   [
    "Encrypt.v",
    "nition aead_nonce_size : Z := 12.\nDefiniti",
    "nition aead_nonce_size : Z := 13.\nDefiniti"
   ]
  ],
  "definition": "aead_nonce_size",
  "desc": "Encrypt: '12' -> '13' (auto)",
  "breaks": [],
  "mod": "Encrypt",
  "id": "v178"
 },
 {
  "edits": [
   [
    "Decrypt.v",
    "if d_eof d ",
    "if negb (d_eof d) "
   ]
  ],
  "definition": "decrypt",
  "desc": "Decrypt: 'if d_eof d' -> 'if negb (d_eof d)' (auto)",
  "breaks": [],
  "mod": "Decrypt",
  "id": "v179"
 },
 {
  "edits": [
   [
    "Cli.v",
    "[]\n  else if 0 <? len ",
    "[]\n  else if 0 <=? len "
   ]
  ],
  "definition": "get_pass",
  "desc": "Cli: '<?' -> '<=?' (auto)",
  "breaks": [],
  "mod": "Cli",
  "id": "v180"
 },
 {
  "edits": [
   [
    "Debug.v",
    "rgs main_flags false argv",
    "rgs main_flags true argv"
   ]
  ],
  "definition": "debug_level",
  "desc": "Debug: 'false' -> 'true' (auto)",
  "breaks": [],
  "mod": "Debug",
  "id": "v181"
 },
 {
  "edits": [
   [
    "Fs.v",
    "true",
    "false"
   ]
  ],
  "definition": "write_failed",
  "desc": "Fs: 'true' -> 'false' (auto)",
  "breaks": [],
  "mod": "Fs",
  "id": "v182"
 },
 {
  "edits": [
   [
    "KeyFiles.v",
    "ce_size : Z := 12.\n\n(*",
    "ce_size : Z := 13.\n\n(*"
   ]
  ],
  "definition": "gcm_nonce_size",
  "desc": "KeyFiles: '12' -> '13' (auto)",
  "breaks": [],
  "mod": "KeyFiles",
  "id": "v183"
 },
 {
  "edits": [
   [
    "Main.v",
    "| Help => quit 0\n  en",
    "| Help => quit 1\n  en"
   ]
  ],
  "definition": "run_command",
  "desc": "Main: '0' -> '1' (auto)",
  "breaks": [],
  "mod": "Main",
  "id": "v184"
 },
 {
  "edits": [
   [
    "Pb.v",
    " Z) : res Z :=\n  match fuel with\n  | O => Panic \"varint: out of fuel\"\n  | S f =>\n      if 64 <=? shift then Fail (EMsg \"pr",
    " Z) : res Z :=\n  match fuel with\n  | O => Panic \"varint: out of fuel\"\n  | S f =>\n      if 65 <=? shift then Fail (EMsg \"pr"
   ]
  ],
  "definition": "skip_varint",
  "desc": "Pb: '64' -> '65' (auto)",
  "breaks": [],
  "mod": "Pb",
  "id": "v185"
 },
 {
  "edits": [
   [
    "Pb.v",
    "arshal_wkey_loop (length d) d 0 empty_wke",
    "arshal_wkey_loop (length d) d 1 empty_wke"
   ]
  ],
  "definition": "unmarshal_wkey",
  "desc": "Pb: '0' -> '1' (auto)",
  "breaks": [],
  "mod": "Pb",
  "id": "v186"
 },
 {
  "edits": [
   [
    "Bytes.v",
    "s := be32 (z / 2^32) ",
    "s := be32 (z / 3^32) "
   ]
  ],
  "definition": "be64",
  "desc": "Bytes: '2' -> '3' (auto)",
  "breaks": [],
  "mod": "Bytes",
  "id": "v187"
 },
 {
  "edits": [
   [
    "Told.v",
    "(len infile =? 0) || ",
    "(len infile =? 1) || "
   ]
  ],
  "definition": "dec_body_told",
  "desc": "Told: '0' -> '1' (auto)",
  "breaks": [],
  "mod": "Told",
  "id": "v188"
 },
 {
  "edits": [
   [
    "Cli.v",
    "skn) then done 1 []\n ",
    "skn) then done 2 []\n "
   ]
  ],
  "definition": "cli_generate",
  "desc": "Cli: '1' -> '2' (auto)",
  "breaks": [],
  "mod": "Cli",
  "id": "v189"
 },
 {
  "edits": [
   [
    "Crypto.v",
    "31",
    "32"
   ]
  ],
  "definition": "basepoint",
  "desc": "Crypto: '31' -> '32' (auto)",
  "breaks": [],
  "mod": "Crypto",
  "id": "v190"
 },
 {
  "edits": [
   [
    "Encrypt.v",
    " end, g)\n    | false => l",
    " end, g)\n    | true => l"
   ]
  ],
  "definition": "write_trailer",
  "desc": "Encrypt: 'false' -> 'true' (auto)",
  "breaks": [],
  "mod": "Encrypt",
  "id": "v191"
 },
 {
  "edits": [
   [
    "KeyFiles.v",
    " (ss_pkhash r) ++ y_field \"sig",
    " (ss_pkhash r) ++ [] \"sig"
   ]
  ],
  "definition": "yaml_sig",
  "desc": "KeyFiles: '++ y_field' -> '++ []' (auto)",
  "breaks": [],
  "mod": "KeyFiles",
  "id": "v192"
 },
 {
  "edits": [
   [
    "Flags.v",
    "if Byte.eqb c x3d ",
    "if negb (Byte.eqb c x3d) "
   ]
  ],
  "definition": "split_eq",
  "desc": "Flags: 'if Byte.eqb c x3d' -> 'if negb (Byte.eqb c x3d)' (auto)",
  "breaks": [],
  "mod": "Flags",
  "id": "v193"
 },
 {
  "edits": [
   [
    "Pb.v",
    "\n  | S f => if 128 <=? ",
    "\n  | S f => if 129 <=? "
   ]
  ],
  "definition": "put_varint",
  "desc": "Pb: '128' -> '129' (auto)",
  "breaks": [],
  "mod": "Pb",
  "id": "v194"
 },
 {
  "edits": [
   [
    "Cli.v",
    "infile :: _ => if beq infile (str \"-\") then ",
    "infile :: _ => if negb (beq infile (str \"-\")) then "
   ]
  ],
  "definition": "cli_decrypt",
  "desc": "Cli: 'if beq infile (str \"-\")' -> 'if negb (beq infile (str \"-\"))' (auto)",
  "breaks": [],
  "mod": "Cli",
  "id": "v195"
 },
 {
  "edits": [
   [
    "GoIO.v",
    "(w_sched w) [] (w_nclosed w + 1))\n  | e :",
    "(w_sched w) [] (w_nclosed w + 2))\n  | e :"
   ]
  ],
  "definition": "w_close",
  "desc": "GoIO: '1' -> '2' (auto)",
  "breaks": [],
  "mod": "GoIO",
  "id": "v196"
 },
 {
  "edits": [
   [
    "KeyFiles.v",
    "E \"r\" (sp_R r) ++ y_optint E \"p",
    "E \"r\" (sp_R r) ++ [] E \"p"
   ]
  ],
  "definition": "yaml_priv",
  "desc": "KeyFiles: '++ y_optint' -> '++ []' (auto)",
  "breaks": [],
  "mod": "KeyFiles",
  "id": "v197"
 },
 {
  "edits": [
   [
    "Flags.v",
    "_args sign_flags true argv) (fun s a =>\n     if get_bool s (str \"help\") false then Quit 0\n   ",
    "_args sign_flags true argv) (fun s a =>\n     if negb (get_bool s (str \"help\") false) then Quit 0\n   "
   ]
  ],
  "definition": "declared",
  "desc": "Flags: 'if get_bool s (str \"help\") false' -> 'if negb (get_bool s (str \"help\") false)' (auto)",
  "breaks": [],
  "mod": "Flags",
  "id": "v198"
 },
 {
  "edits": [
   [
    "Cli.v",
    "s' e g (errs + 1)\n   ",
    "s' e g (errs + 2)\n   "
   ]
  ],
  "definition": "enc_recipients",
  "desc": "Cli: '1' -> '2' (auto)",
  "breaks": [],
  "mod": "Cli",
  "id": "v199"
 },
 {
  "edits": [
   [
    "Encrypt.v",
    "hdr_len : Z := 12.\nDef",
    "hdr_len : Z := 13.\nDef"
   ]
  ],
  "definition": "fixed_hdr_len",
  "desc": "Encrypt: '12' -> '13' (auto)",
  "breaks": [],
  "mod": "Encrypt",
  "id": "v200"
 },
 {
  "edits": [
   [
    "Cli.v",
    "       with_output W v (oct 6 0 0) (eo_ou",
    "       with_output W v (oct 6 1 0) (eo_ou"
   ]
  ],
  "definition": "cli_encrypt",
  "desc": "Cli: '0' -> '1' (auto)",
  "breaks": [],
  "mod": "Cli",
  "id": "v201"
 },
 {
  "edits": [
   [
    "Keys.v",
    " bytes := take 16 (sha",
    " bytes := take 17 (sha"
   ]
  ],
  "definition": "pkhash",
  "desc": "Keys: '16' -> '17' (auto)",
  "breaks": [],
  "mod": "Keys",
  "id": "v202"
 },
 {
  "edits": [
   [
    "Cli.v",
    "if tofile ",
    "if negb (tofile) "
   ]
  ],
  "definition": "with_output",
  "desc": "Cli: 'if tofile' -> 'if negb (tofile)' (auto)",
  "breaks": [],
  "mod": "Cli",
  "id": "v203"
 },
 {
  "edits": [
   [
    "Keys.v",
    ": Z := 2^255 - 19.\n\n(*",
    ": Z := 2^255 - 20.\n\n(*"
   ]
  ],
  "definition": "curve_p",
  "desc": "Keys: '19' -> '20' (auto)",
  "breaks": [],
  "mod": "Keys",
  "id": "v204"
 },
 {
  "edits": [
   [
    "Base64.v",
    "2^12 + d2 * 2^6 + d in\n",
    "2^12 + d2 * 2^6 - d in\n"
   ]
  ],
  "definition": "b64_dec",
  "desc": "Base64: '+' -> '-' (auto)",
  "breaks": [],
  "mod": "Base64",
  "id": "v205"
 },
 {
  "edits": [
   [
    "Encrypt.v",
    "version : Z := 3.\nDef",
    "version : Z := 4.\nDef"
   ]
  ],
  "definition": "sigtool_version",
  "desc": "Encrypt: '3' -> '4' (auto)",
  "breaks": [],
  "mod": "Encrypt",
  "id": "v206"
 },
 {
  "edits": [
   [
    "Keys.v",
    "  let k := upd 0 (fun",
    "  let k := upd 1 (fun"
   ]
  ],
  "definition": "clamp",
  "desc": "Keys: '0' -> '1' (auto)",
  "breaks": [],
  "mod": "Keys",
  "id": "v207"
 },
 {
  "edits": [
   [
    "Cli.v",
    "if beq (pk_comment pk) fn ",
    "if negb (beq (pk_comment pk) fn) "
   ]
  ],
  "definition": "keymap_get",
  "desc": "Cli: 'if beq (pk_comment pk) fn' -> 'if negb (beq (pk_comment pk) fn)' (auto)",
  "breaks": [],
  "mod": "Cli",
  "id": "v208"
 },
 {
  "edits": [
   [
    "Bytes.v",
    ": Z := z mod 2^64.\nDef",
    ": Z := z mod 2^65.\nDef"
   ]
  ],
  "definition": "u64",
  "desc": "Bytes: '64' -> '65' (auto)",
  "breaks": [],
  "mod": "Bytes",
  "id": "v209"
 },
 {
  "edits": [
   [
    "KeyFiles.v",
    "||",
    "&&"
   ]
  ],
  "definition": "unmarshal_private",
  "desc": "KeyFiles: '||' -> '&&' (auto)",
  "breaks": [],
  "mod": "KeyFiles",
  "id": "v210"
 },
 {
  "edits": [
   [
    "Crypto.v",
    "\")\n  else if 2^48 <? 1",
    "\")\n  else if 2^49 <? 1"
   ]
  ],
  "definition": "scrypt_key",
  "desc": "Crypto: '48' -> '49' (auto)",
  "breaks": [],
  "mod": "Crypto",
  "id": "v211"
 },
 {
  "edits": [
   [
    "Crypto.v",
    "int : Z := 2^63 - 1.\nDe",
    "int : Z := 2^63 + 1.\nDe"
   ]
  ],
  "definition": "max_int",
  "desc": "Crypto: '-' -> '+' (auto)",
  "breaks": [],
  "mod": "Crypto",
  "id": "v212"
 },
 {
  "edits": [
   [
    "Pb.v",
    " - 1",
    " - 0"
   ]
  ],
  "definition": "skip_loop",
  "desc": "Pb: '- 1' -> '- 0' (auto)",
  "breaks": [],
  "mod": "Pb",
  "id": "v213"
 },
 {
  "edits": [
   [
    "Cli.v",
    ", w, Ok _) => (0, snd",
    ", w, Ok _) => (1, snd"
   ]
  ],
  "definition": "dec_body",
  "desc": "Cli: '0' -> '1' (auto)",
  "breaks": [],
  "mod": "Cli",
  "id": "v214"
 },
 {
  "edits": [
   [
    "Pb.v",
    "shal_header_loop (length d) d 0 empty_hea",
    "shal_header_loop (length d) d 1 empty_hea"
   ]
  ],
  "definition": "unmarshal_header",
  "desc": "Pb: '0' -> '1' (auto)",
  "breaks": [],
  "mod": "Pb",
  "id": "v215"
 },
 {
  "edits": [
   [
    "Race.v",
    "\n  | SkCache k 0 => m",
    "\n  | SkCache k 1 => m"
   ]
  ],
  "definition": "cells_of",
  "desc": "Race: '0' -> '1' (auto)",
  "breaks": [],
  "mod": "Race",
  "id": "v216"
 },
 {
  "edits": [
   [
    "Flags.v",
    "ue\"] then Some true\n  el",
    "ue\"] then Some false\n  el"
   ]
  ],
  "definition": "parse_bool",
  "desc": "Flags: 'true' -> 'false' (auto)",
  "breaks": [],
  "mod": "Flags",
  "id": "v217"
 },
 {
  "edits": [
   [
    "Flags.v",
    "tion fval :=\n  if fg_bool f then ",
    "tion fval :=\n  if negb (fg_bool f) then "
   ]
  ],
  "definition": "set_value",
  "desc": "Flags: 'if fg_bool f' -> 'if negb (fg_bool f)' (auto)",
  "breaks": [],
  "mod": "Flags",
  "id": "v218"
 },
 {
  "edits": [
   [
    "KeyFiles.v",
    "if len (su_pk spk) =? 0 ",
    "if negb (len (su_pk spk) =? 0) "
   ]
  ],
  "definition": "unmarshal_public",
  "desc": "KeyFiles: 'if len (su_pk spk) =? 0' -> 'if negb (len (su_pk spk) =? 0)' (auto)",
  "breaks": [],
  "mod": "KeyFiles",
  "id": "v219"
 },
 {
  "edits": [
   [
    "Keys.v",
    "negb (len b =? 32) the",
    "negb (len b =? 33) the"
   ]
  ],
  "definition": "make_public_from_bytes",
  "desc": "Keys: '32' -> '33' (auto)",
  "breaks": [],
  "mod": "Keys",
  "id": "v220"
 },
 {
  "edits": [
   [
    "Cli.v",
    ">\n          if 0 <? e",
    ">\n          if 1 <? e"
   ]
  ],
  "definition": "enc_body",
  "desc": "Cli: '0' -> '1' (auto)",
  "breaks": [],
  "mod": "Cli",
  "id": "v221"
 },
 {
  "edits": [
   [
    "Pb.v",
    "f bits d l (idx + 1) (sh",
    "f bits d l (idx + 2) (sh"
   ]
  ],
  "definition": "get_varint",
  "desc": "Pb: '+ 1' -> '+ 2' (auto)",
  "breaks": [],
  "mod": "Pb",
  "id": "v222"
 },
 {
  "edits": [
   [
    "Bytes.v",
    "=> b2z a * 2^24 + b2z b",
    "=> b2z a * 2^24 - b2z b"
   ]
  ],
  "definition": "unbe32",
  "desc": "Bytes: '+' -> '-' (auto)",
  "breaks": [],
  "mod": "Bytes",
  "id": "v223"
 },
 {
  "edits": [
   [
    "Decrypt.v",
    "     | None => if eof then ",
    "     | None => if negb (eof) then "
   ]
  ],
  "definition": "dec_loop",
  "desc": "Decrypt: 'if eof' -> 'if negb (eof)' (auto)",
  "breaks": [],
  "mod": "Decrypt",
  "id": "v224"
 },
 {
  "edits": [
   [
    "Cli.v",
    "with Some i => 0 <? i",
    "with Some i => 1 <? i"
   ]
  ],
  "definition": "is_user",
  "desc": "Cli: '0' -> '1' (auto)",
  "breaks": [],
  "mod": "Cli",
  "id": "v225"
 },
 {
  "edits": [
   [
    "GoIO.v",
    "=? 0",
    "=? 1"
   ]
  ],
  "definition": "read_loop",
  "desc": "GoIO: '=? 0' -> '=? 1' (auto)",
  "breaks": [],
  "mod": "GoIO",
  "id": "v226"
 },
 {
  "edits": [
   [
    "Ssh.v",
    "          if 0 <? len ",
    "          if 0 <=? len "
   ]
  ],
  "definition": "parse_enc_pubkey",
  "desc": "Ssh: '<?' -> '<=?' (auto)",
  "breaks": [],
  "mod": "Ssh",
  "id": "v227"
 },
 {
  "edits": [
   [
    "Bytes.v",
    " :: l' => b2z b + 256 *",
    " :: l' => b2z b - 256 *"
   ]
  ],
  "definition": "unle",
  "desc": "Bytes: '+' -> '-' (auto)",
  "breaks": [],
  "mod": "Bytes",
  "id": "v228"
 },
 {
  "edits": [
   [
    "Decrypt.v",
    "se (d3, Ok (m, false))\n  ",
    "se (d3, Ok (m, true))\n  "
   ]
  ],
  "definition": "dec_chunk",
  "desc": "Decrypt: 'false' -> 'true' (auto)",
  "breaks": [],
  "mod": "Decrypt",
  "id": "v229"
 },
 {
  "edits": [
   [
    "Stream.v",
    " =? max) && (0 <? len ",
    " =? max) && (0 <=? len "
   ]
  ],
  "definition": "ew_loop",
  "desc": "Stream: '<?' -> '<=?' (auto)",
  "breaks": [],
  "mod": "Stream",
  "id": "v230"
 },
 {
  "edits": [
   [
    "GoIO.v",
    ">\n      if n <? len b then (take n b, None, (drop n b, e) :: r')\n",
    ">\n      if n <? len b then (take n b, None, (take n b, e) :: r')\n"
   ]
  ],
  "definition": "rd_read",
  "desc": "GoIO: 'drop' -> 'take' (auto)",
  "breaks": [],
  "mod": "GoIO",
  "id": "v231"
 },
 {
  "edits": [
   [
    "Bytes.v",
    "&&",
    "||"
   ]
  ],
  "definition": "beq",
  "desc": "Bytes: '&&' -> '||' (auto)",
  "breaks": [],
  "mod": "Bytes",
  "id": "v232"
 },
 {
  "edits": [
   [
    "KeyFiles.v",
    "false",
    "true"
   ]
  ],
  "definition": "looks_openssh",
  "desc": "KeyFiles: 'false' -> 'true' (auto)",
  "breaks": [],
  "mod": "KeyFiles",
  "id": "v233"
 },
 {
  "edits": [
   [
    "Store.v",
    "ile v (oct 6 0 0) f d",
    "ile v (oct 6 0 1) f d"
   ]
  ],
  "definition": "serialize_private",
  "desc": "Store: '0' -> '1' (auto)",
  "breaks": [],
  "mod": "Store",
  "id": "v234"
 },
 {
  "edits": [
   [
    "Race.v",
    "if e_started e ",
    "if negb (e_started e) "
   ]
  ],
  "definition": "add_prog",
  "desc": "Race: 'if e_started e' -> 'if negb (e_started e)' (auto)",
  "breaks": [],
  "mod": "Race",
  "id": "v235"
 },
 {
  "edits": [
   [
    "Bytes.v",
    "^16); z2b (z / 2^8); ",
    "^16); z2b (z / 3^8); "
   ]
  ],
  "definition": "be32",
  "desc": "Bytes: '2' -> '3' (auto)",
  "breaks": [],
  "mod": "Bytes",
  "id": "v236"
 },
 {
  "edits": [
   [
    "Cli.v",
    " ++ fn)) w in (0, snd",
    " ++ fn)) w in (1, snd"
   ]
  ],
  "definition": "sign_body",
  "desc": "Cli: '0' -> '1' (auto)",
  "breaks": [],
  "mod": "Cli",
  "id": "v237"
 },
 {
  "edits": [
   [
    "Encrypt.v",
    "k (e_hdr e) + 4 + gcm_o",
    "k (e_hdr e) + 4 - gcm_o"
   ]
  ],
  "definition": "enc_start",
  "desc": "Encrypt: '+' -> '-' (auto)",
  "breaks": [],
  "mod": "Encrypt",
  "id": "v238"
 },
 {
  "edits": [
   [
    "GoIO.v",
    "> (b, Some (if 0 <? l",
    "> (b, Some (if 1 <? l"
   ]
  ],
  "definition": "read_full",
  "desc": "GoIO: '0' -> '1' (auto)",
  "breaks": [],
  "mod": "GoIO",
  "id": "v239"
 },
 {
  "edits": [
   [
    "Cli.v",
    "= (0 <? len o) && negb",
    "= (0 <? len o) || negb"
   ]
  ],
  "definition": "names_file",
  "desc": "Cli: '&&' -> '||' (auto)",
  "breaks": [],
  "mod": "Cli",
  "id": "v240"
 },
 {
  "edits": [
   [
    "Pb.v",
    "der m - len a) ++ a ++ z",
    "der m - len a) ++ [] ++ z"
   ]
  ],
  "definition": "marshal_to",
  "desc": "Pb: '++ a' -> '++ []' (auto)",
  "breaks": [],
  "mod": "Pb",
  "id": "v241"
 },
 {
  "edits": [
   [
    "Bytes.v",
    " :: le n' (z / 256) end",
    " :: le n' (z / 257) end"
   ]
  ],
  "definition": "le",
  "desc": "Bytes: '256' -> '257' (auto)",
  "breaks": [],
  "mod": "Bytes",
  "id": "v242"
 },
 {
  "edits": [
   [
    "Bytes.v",
    " : Z) : Z := (z + 2^31)",
    " : Z) : Z := (z - 2^31)"
   ]
  ],
  "definition": "i32",
  "desc": "Bytes: '+' -> '-' (auto)",
  "breaks": [],
  "mod": "Bytes",
  "id": "v243"
 },
 {
  "edits": [
   [
    "Flags.v",
    " get_bool s n (if beq m n then ",
    " get_bool s n (if negb (beq m n) then "
   ]
  ],
  "definition": "get_bool",
  "desc": "Flags: 'if beq m n' -> 'if negb (beq m n)' (auto)",
  "breaks": [],
  "mod": "Flags",
  "id": "v244"
 },
 {
  "edits": [
   [
    "Decrypt.v",
    "lse if varSize <? 32 t",
    "lse if varSize <=? 32 t"
   ]
  ],
  "definition": "new_decryptor",
  "desc": "Decrypt: '<?' -> '<=?' (auto)",
  "breaks": [],
  "mod": "Decrypt",
  "id": "v245"
 },
 {
  "edits": [
   [
    "Keys.v",
    " let g := if g <? 0 th",
    " let g := if g <=? 0 th"
   ]
  ],
  "definition": "mod_inverse",
  "desc": "Keys: '<?' -> '<=?' (auto)",
  "breaks": [],
  "mod": "Keys",
  "id": "v246"
 },
 {
  "edits": [
   [
    "Crypto.v",
    "s bool :=\n  if negb (len p",
    "s bool :=\n  if id (len p"
   ]
  ],
  "definition": "Ed_Verify",
  "desc": "Crypto: 'negb (' -> 'id (' (auto)",
  "breaks": [],
  "mod": "Crypto",
  "id": "v247"
 },
 {
  "edits": [
   [
    "Encrypt.v",
    "finition rx_nonce_size : Z := 12.\nDefiniti",
    "finition rx_nonce_size : Z := 13.\nDefiniti"
   ]
  ],
  "definition": "rx_nonce_size",
  "desc": "Encrypt: '12' -> '13' (auto)",
  "breaks": [],
  "mod": "Encrypt",
  "id": "v248"
 },
 {
  "edits": [
   [
    "Decrypt.v",
    "if negb (d_auth d) ",
    "if negb (negb (d_auth d)) "
   ]
  ],
  "definition": "process_trailer",
  "desc": "Decrypt: 'if negb (d_auth d)' -> 'if negb (negb (d_auth d))' (auto)",
  "breaks": [],
  "mod": "Decrypt",
  "id": "v249"
 },
 {
  "edits": [
   [
    "Flags.v",
    "l \"debug\" None true].\n(*",
    "l \"debug\" None false].\n(*"
   ]
  ],
  "definition": "main_flags",
  "desc": "Flags: 'true' -> 'false' (auto)",
  "breaks": [],
  "mod": "Flags",
  "id": "v250"
 },
 {
  "edits": [
   [
    "Cli.v",
    " => if ok then 0 else",
    " => if ok then 1 else"
   ]
  ],
  "definition": "cli_verify",
  "desc": "Cli: '0' -> '1' (auto)",
  "breaks": [],
  "mod": "Cli",
  "id": "v251"
 },
 {
  "edits": [
   [
    "KeyFiles.v",
    "19",
    "20"
   ]
  ],
  "definition": "scrypt_N",
  "desc": "KeyFiles: '19' -> '20' (auto)",
  "breaks": [],
  "mod": "KeyFiles",
  "id": "v252"
 },
 {
  "edits": [
   [
    "Keys.v",
    "rivkey :=\n  if negb (len b",
    "rivkey :=\n  if id (len b"
   ]
  ],
  "definition": "make_private_from_bytes",
  "desc": "Keys: 'negb (' -> 'id (' (auto)",
  "breaks": [],
  "mod": "Keys",
  "id": "v253"
 },
 {
  "edits": [
   [
    "Encrypt.v",
    "if e_stream e ",
    "if negb (e_stream e) "
   ]
  ],
  "definition": "encrypt",
  "desc": "Encrypt: 'if e_stream e' -> 'if negb (e_stream e)' (auto)",
  "breaks": [],
  "mod": "Encrypt",
  "id": "v254"
 },
 {
  "edits": [
   [
    "Pb.v",
    "ytes) : Z :=\n  if 0 <? len b then ",
    "ytes) : Z :=\n  if negb (0 <? len b) then "
   ]
  ],
  "definition": "size_field",
  "desc": "Pb: 'if 0 <? len b' -> 'if negb (0 <? len b)' (auto)",
  "breaks": [],
  "mod": "Pb",
  "id": "v255"
 },
 {
  "edits": [
   [
    "Decrypt.v",
    "++ drop",
    "++ []"
   ]
  ],
  "definition": "buf_put",
  "desc": "Decrypt: '++ drop' -> '++ []' (auto)",
  "breaks": [],
  "mod": "Decrypt",
  "id": "v256"
 },
 {
  "edits": [
   [
    "Pb.v",
    "hen a else z2b 8 :: e",
    "hen a else z2b 9 :: e"
   ]
  ],
  "definition": "marshal_fields",
  "desc": "Pb: '8' -> '9' (auto)",
  "breaks": [],
  "mod": "Pb",
  "id": "v257"
 },
 {
  "edits": [
   [
    "Ssh.v",
    "if len data <? 4 ",
    "if negb (len data <? 4) "
   ]
  ],
  "definition": "ssh_fields",
  "desc": "Ssh: 'if len data <? 4' -> 'if negb (len data <? 4)' (auto)",
  "breaks": [],
  "mod": "Ssh",
  "id": "v258"
 },
 {
  "edits": [
   [
    "Pb.v",
    "t (len m) ++ m ++ acc)\n  e",
    "t (len m) ++ m ++ [])\n  e"
   ]
  ],
  "definition": "push_keys",
  "desc": "Pb: '++ acc' -> '++ []' (auto)",
  "breaks": [],
  "mod": "Pb",
  "id": "v259"
 },
 {
  "edits": [
   [
    "Flags.v",
    "verwrite\" None true].\n\n(",
    "verwrite\" None false].\n\n("
   ]
  ],
  "definition": "dec_flags",
  "desc": "Flags: 'true' -> 'false' (auto)",
  "breaks": [],
  "mod": "Flags",
  "id": "v260"
 },
 {
  "edits": [
   [
    "Pb.v",
    "p (length d) d 0 0.\n\n",
    "p (length d) d 1 0.\n\n"
   ]
  ],
  "definition": "skip",
  "desc": "Pb: '0' -> '1' (auto)",
  "breaks": [],
  "mod": "Pb",
  "id": "v261"
 },
 {
  "edits": [
   [
    "Store.v",
    "te : bool)\n  : list fop * res unit := write_file v (oct 6 4 4) f dst (marshal_pub",
    "te : bool)\n  : list fop * res unit := write_file v (oct 6 4 5) f dst (marshal_pub"
   ]
  ],
  "definition": "serialize_public",
  "desc": "Store: '4' -> '5' (auto)",
  "breaks": [],
  "mod": "Store",
  "id": "v262"
 },
 {
  "edits": [
   [
    "Pb.v",
    "negb (wireType =? 0) the",
    "negb (wireType =? 1) the"
   ]
  ],
  "definition": "unmarshal_header_loop",
  "desc": "Pb: '=? 0' -> '=? 1' (auto)",
  "breaks": [],
  "mod": "Pb",
  "id": "v263"
 },
 {
  "edits": [
   [
    "Bytes.v",
    "h\n  | [] => []\n  | x :: l' => if n <=? 0 then l els",
    "h\n  | [] => []\n  | x :: l' => if negb (n <=? 0) then l els"
   ]
  ],
  "definition": "drop",
  "desc": "Bytes: 'if n <=? 0' -> 'if negb (n <=? 0)' (auto)",
  "breaks": [],
  "mod": "Bytes",
  "id": "v264"
 },
 {
  "edits": [
   [
    "GoIO.v",
    "++ p",
    "++ []"
   ]
  ],
  "definition": "w_write",
  "desc": "GoIO: '++ p' -> '++ []' (auto)",
  "breaks": [],
  "mod": "GoIO",
  "id": "v265"
 },
 {
  "edits": [
   [
    "Encrypt.v",
    "31",
    "32"
   ]
  ],
  "definition": "eof_bit",
  "desc": "Encrypt: '31' -> '32' (auto)",
  "breaks": [],
  "mod": "Encrypt",
  "id": "v266"
 },
 {
  "edits": [
   [
    "Keys.v",
    "S f => if b =? 0 then",
    "S f => if b =? 1 then"
   ]
  ],
  "definition": "egcd",
  "desc": "Keys: '0' -> '1' (auto)",
  "breaks": [],
  "mod": "Keys",
  "id": "v267"
 },
 {
  "edits": [
   [
    "Race.v",
    "sk sender auth false fals",
    "sk sender auth true fals"
   ]
  ],
  "definition": "call_prog",
  "desc": "Race: 'false' -> 'true' (auto)",
  "breaks": [],
  "mod": "Race",
  "id": "v268"
 },
 {
  "edits": [
   [
    "KeyFiles.v",
    "es := if len s =? 0 then",
    "es := if len s =? 1 then"
   ]
  ],
  "definition": "y_opt",
  "desc": "KeyFiles: '=? 0' -> '=? 1' (auto)",
  "breaks": [],
  "mod": "KeyFiles",
  "id": "v269"
 },
 {
  "edits": [
   [
    "GoText.v",
    "h\n  | [], _ => true\n  | ",
    "h\n  | [], _ => false\n  | "
   ]
  ],
  "definition": "is_prefix",
  "desc": "GoText: 'true' -> 'false' (auto)",
  "breaks": [],
  "mod": "GoText",
  "id": "v270"
 },
 {
  "edits": [
   [
    "Crypto.v",
    " : bytes) : res bytes :=\n  if negb (len sk =? ",
    " : bytes) : res bytes :=\n  if id (len sk =? "
   ]
  ],
  "definition": "Ed_Sign",
  "desc": "Crypto: 'negb (' -> 'id (' (auto)",
  "breaks": [],
  "mod": "Crypto",
  "id": "v271"
 },
 {
  "edits": [
   [
    "Told.v",
    "if is_user fn ",
    "if negb (is_user fn) "
   ]
  ],
  "definition": "recipients_told",
  "desc": "Told: 'if is_user fn' -> 'if negb (is_user fn)' (auto)",
  "breaks": [],
  "mod": "Told",
  "id": "v272"
 },
 {
  "edits": [
   [
    "Ssh.v",
    "if negb inq && is_blank b ",
    "if negb (negb inq && is_blank b) "
   ]
  ],
  "definition": "opt_end",
  "desc": "Ssh: 'if negb inq && is_blank b' -> 'if negb (negb inq && is_blank b)' (auto)",
  "breaks": [],
  "mod": "Ssh",
  "id": "v273"
 },
 {
  "edits": [
   [
    "Told.v",
    "d T W v (oct 6 4 4) o",
    "d T W v (oct 6 5 4) o"
   ]
  ],
  "definition": "sign_told",
  "desc": "Told: '4' -> '5' (auto)",
  "breaks": [],
  "mod": "Told",
  "id": "v274"
 },
 {
  "edits": [
   [
    "Stream.v",
    "f d eof) (mkEr 0 m (u",
    "f d eof) (mkEr 1 m (u"
   ]
  ],
  "definition": "er_read",
  "desc": "Stream: '0' -> '1' (auto)",
  "breaks": [],
  "mod": "Stream",
  "id": "v275"
 },
 {
  "edits": [
   [
    "Decrypt.v",
    "C (aes_key_size + rx_no",
    "C (aes_key_size - rx_no"
   ]
  ],
  "definition": "unwrap_key",
  "desc": "Decrypt: '+' -> '-' (auto)",
  "breaks": [],
  "mod": "Decrypt",
  "id": "v276"
 },
 {
  "edits": [
   [
    "Stream.v",
    " (e_started e) true, w, ",
    " (e_started e) false, w, "
   ]
  ],
  "definition": "new_stream_writer",
  "desc": "Stream: 'true' -> 'false' (auto)",
  "breaks": [],
  "mod": "Stream",
  "id": "v277"
 },
 {
  "edits": [
   [
    "Told.v",
    "false",
    "true"
   ]
  ],
  "definition": "decrypt_told",
  "desc": "Told: 'false' -> 'true' (auto)",
  "breaks": [],
  "mod": "Told",
  "id": "v278"
 },
 {
  "edits": [
   [
    "Flags.v",
    "if Byte.eqb e x3d && (0 <? len t) ",
    "if negb (Byte.eqb e x3d && (0 <? len t)) "
   ]
  ],
  "definition": "parse_short",
  "desc": "Flags: 'if Byte.eqb e x3d && (0 <? len t)' -> 'if negb (Byte.eqb e x3d && (0 <? len t))' (auto)",
  "breaks": [],
  "mod": "Flags",
  "id": "v279"
 },
 {
  "edits": [
   [
    "Race.v",
    "           | Ok (out, _) => Store (PkCache k 0) (Some out) (S",
    "           | Ok (out, _) => Store (PkCache k 1) (Some out) (S"
   ]
  ],
  "definition": "words_pk",
  "desc": "Race: '0' -> '1' (auto)",
  "breaks": [],
  "mod": "Race",
  "id": "v280"
 },
 {
  "edits": [
   [
    "Encrypt.v",
    "if blksize =? 0 ",
    "if negb (blksize =? 0) "
   ]
  ],
  "definition": "block_size",
  "desc": "Encrypt: 'if blksize =? 0' -> 'if negb (blksize =? 0)' (auto)",
  "breaks": [],
  "mod": "Encrypt",
  "id": "v281"
 },
 {
  "edits": [
   [
    "Ssh.v",
    " if len inp =? 0 then",
    " if len inp =? 1 then"
   ]
  ],
  "definition": "auth_loop",
  "desc": "Ssh: '0' -> '1' (auto)",
  "breaks": [],
  "mod": "Ssh",
  "id": "v282"
 },
 {
  "edits": [
   [
    "Usage.v",
    "| PGood s _ => if get_bool s (str \"help\") false then ",
    "| PGood s _ => if negb (get_bool s (str \"help\") false) then "
   ]
  ],
  "definition": "command_texts",
  "desc": "Usage: 'if get_bool s (str \"help\") false' -> 'if negb (get_bool s (str \"help\") false)' (auto)",
  "breaks": [],
  "mod": "Usage",
  "id": "v283"
 },
 {
  "edits": [
   [
    "Flags.v",
    "f) false; fl \"overwrite\" None true].\n(** ver",
    "f) false; fl \"overwrite\" None false].\n(** ver"
   ]
  ],
  "definition": "sign_flags",
  "desc": "Flags: 'true' -> 'false' (auto)",
  "breaks": [],
  "mod": "Flags",
  "id": "v284"
 },
 {
  "edits": [
   [
    "Ssh.v",
    "\n  if len data =? 0 then",
    "\n  if len data =? 1 then"
   ]
  ],
  "definition": "ssh_unmarshal",
  "desc": "Ssh: '=? 0' -> '=? 1' (auto)",
  "breaks": [],
  "mod": "Ssh",
  "id": "v285"
 },
 {
  "edits": [
   [
    "Pb.v",
    "nk m =? 0 then 0 else",
    "nk m =? 0 then 1 else"
   ]
  ],
  "definition": "size_header",
  "desc": "Pb: '0' -> '1' (auto)",
  "breaks": [],
  "mod": "Pb",
  "id": "v286"
 },
 {
  "edits": [
   [
    "Keys.v",
    "nY := zeros (32 - len P",
    "nY := zeros (32 + len P"
   ]
  ],
  "definition": "curve_of",
  "desc": "Keys: '-' -> '+' (auto)",
  "breaks": [],
  "mod": "Keys",
  "id": "v287"
 },
 {
  "edits": [
   [
    "Pb.v",
    "varint (len b) ++ b ++ a",
    "varint (len b) ++ [] ++ a"
   ]
  ],
  "definition": "push_field",
  "desc": "Pb: '++ b' -> '++ []' (auto)",
  "breaks": [],
  "mod": "Pb",
  "id": "v288"
 },
 {
  "edits": [
   [
    "Race.v",
    "ore (SkCache k 0) (So",
    "ore (SkCache k 1) (So"
   ]
  ],
  "definition": "conv_sk",
  "desc": "Race: '0' -> '1' (auto)",
  "breaks": [],
  "mod": "Race",
  "id": "v289"
 },
 {
  "edits": [
   [
    "StreamRead.v",
    "++ repeat",
    "++ []"
   ]
  ],
  "definition": "read_shape",
  "desc": "StreamRead: '++ repeat' -> '++ []' (auto)",
  "breaks": [],
  "mod": "StreamRead",
  "id": "v290"
 },
 {
  "edits": [
   [
    "Pb.v",
    "(pre + skippy) <? 0)\n ",
    "(pre + skippy) <=? 0)\n "
   ]
  ],
  "definition": "get_unknown",
  "desc": "Pb: '<?' -> '<=?' (auto)",
  "breaks": [],
  "mod": "Pb",
  "id": "v291"
 },
 {
  "edits": [
   [
    "GoText.v",
    "b b' with Some i => Some (i + 1) | None =",
    "b b' with Some i => Some (i + 2) | None ="
   ]
  ],
  "definition": "index_sub",
  "desc": "GoText: '1' -> '2' (auto)",
  "breaks": [],
  "mod": "GoText",
  "id": "v292"
 },
 {
  "edits": [
   [
    "Cli.v",
    "++ sn",
    "++ []"
   ]
  ],
  "definition": "verify_text",
  "desc": "Cli: '++ sn' -> '++ []' (auto)",
  "breaks": [],
  "mod": "Cli",
  "id": "v293"
 },
 {
  "edits": [
   [
    "Flags.v",
    "if Byte.eqb c2 x2d ",
    "if negb (Byte.eqb c2 x2d) "
   ]
  ],
  "definition": "parse_args",
  "desc": "Flags: 'if Byte.eqb c2 x2d' -> 'if negb (Byte.eqb c2 x2d)' (auto)",
  "breaks": [],
  "mod": "Flags",
  "id": "v294"
 },
 {
  "edits": [
   [
    "Race.v",
    "    let buf := drop aead_",
    "    let buf := take aead_"
   ]
  ],
  "definition": "set_rest",
  "desc": "Race: 'drop' -> 'take' (auto)",
  "breaks": [],
  "mod": "Race",
  "id": "v295"
 },
 {
  "edits": [
   [
    "GoIO.v",
    " rng_bytes t (p + 1) n'",
    " rng_bytes t (p - 1) n'"
   ]
  ],
  "definition": "rng_bytes",
  "desc": "GoIO: '+' -> '-' (auto)",
  "breaks": [],
  "mod": "GoIO",
  "id": "v296"
 },
 {
  "edits": [
   [
    "Ssh.v",
    "= skip_blanks (drop (opt_",
    "= skip_blanks (take (opt_"
   ]
  ],
  "definition": "auth_line",
  "desc": "Ssh: 'drop' -> 'take' (auto)",
  "breaks": [],
  "mod": "Ssh",
  "id": "v297"
 },
 {
  "edits": [
   [
    "GoText.v",
    "t_blanks s' [] true else",
    "t_blanks s' [] false else"
   ]
  ],
  "definition": "split_blanks",
  "desc": "GoText: 'true' -> 'false' (auto)",
  "breaks": [],
  "mod": "GoText",
  "id": "v298"
 },
 {
  "edits": [
   [
    "Crypto.v",
    "if (len key =? 16) || ",
    "if (len key =? 17) || "
   ]
  ],
  "definition": "new_gcm",
  "desc": "Crypto: '16' -> '17' (auto)",
  "breaks": [],
  "mod": "Crypto",
  "id": "v299"
 },
 {
  "edits": [
   [
    "Bytes.v",
    "Z) : Z := (z + 2^63) ",
    "Z) : Z := (z + 3^63) "
   ]
  ],
  "definition": "i64",
  "desc": "Bytes: '2' -> '3' (auto)",
  "breaks": [],
  "mod": "Bytes",
  "id": "v300"
 }
]