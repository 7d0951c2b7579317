[
 {
  "edits": [
   [
    "Keys.v",
    "drop ",
    "take "
   ]
  ],
  "definition": "make_private_from_bytes",
  "desc": "Keys: 'drop' -> 'take' (auto)",
  "breaks": [],
  "mod": "Keys",
  "id": "w0_001"
 },
 {
  "edits": [
   [
    "Encrypt.v",
    "if max_chunk <? blksize ",
    "if negb (max_chunk <? blksize) "
   ]
  ],
  "definition": "block_size",
  "desc": "Encrypt: 'if max_chunk <? blksize' -> 'if negb (max_chunk <? blksize)' (auto)",
  "breaks": [],
  "mod": "Encrypt",
  "id": "w0_002"
 },
 {
  "edits": [
   [
    "Keys.v",
    "=>\n      if 32 <? len ",
    "=>\n      if 32 <=? len "
   ]
  ],
  "definition": "to_curve_pk",
  "desc": "Keys: '<?' -> '<=?' (auto)",
  "breaks": [],
  "mod": "Keys",
  "id": "w0_003"
 },
 {
  "edits": [
   [
    "Keys.v",
    "en Some (a, 1, 0)\n   ",
    "en Some (a, 1, 1)\n   "
   ]
  ],
  "definition": "egcd",
  "desc": "Keys: '0' -> '1' (auto)",
  "breaks": [],
  "mod": "Keys",
  "id": "w0_004"
 },
 {
  "edits": [
   [
    "Cli.v",
    "with EExt 2 => true | _ ",
    "with EExt 2 => false | _ "
   ]
  ],
  "definition": "not_exist",
  "desc": "Cli: 'true' -> 'false' (auto)",
  "breaks": [],
  "mod": "Cli",
  "id": "w0_005"
 },
 {
  "edits": [
   [
    "Debug.v",
    "if e_stream e ",
    "if negb (e_stream e) "
   ]
  ],
  "definition": "estep_debug",
  "desc": "Debug: 'if e_stream e' -> 'if negb (e_stream e)' (auto)",
  "breaks": [],
  "mod": "Debug",
  "id": "w0_006"
 },
 {
  "edits": [
   [
    "Encrypt.v",
    "h e with\n    | true =>\n ",
    "h e with\n    | false =>\n "
   ]
  ],
  "definition": "write_trailer",
  "desc": "Encrypt: 'true' -> 'false' (auto)",
  "breaks": [],
  "mod": "Encrypt",
  "id": "w0_007"
 },
 {
  "edits": [
   [
    "Fs.v",
    "false",
    "true"
   ]
  ],
  "definition": "write_failed",
  "desc": "Fs: 'false' -> 'true' (auto)",
  "breaks": [],
  "mod": "Fs",
  "id": "w0_008"
 },
 {
  "edits": [
   [
    "Pb.v",
    "lice d pre (pre + skipp",
    "lice d pre (pre - skipp"
   ]
  ],
  "definition": "get_unknown",
  "desc": "Pb: '+' -> '-' (auto)",
  "breaks": [],
  "mod": "Pb",
  "id": "w0_009"
 },
 {
  "edits": [
   [
    "Crypto.v",
    " : Z := 2^63 - 1.\nDef",
    " : Z := 2^63 - 2.\nDef"
   ]
  ],
  "definition": "max_int",
  "desc": "Crypto: '1' -> '2' (auto)",
  "breaks": [],
  "mod": "Crypto",
  "id": "w0_010"
 },
 {
  "edits": [
   [
    "KeyFiles.v",
    "if looks_openssh b ",
    "if negb (looks_openssh b) "
   ]
  ],
  "definition": "unmarshal_private",
  "desc": "KeyFiles: 'if looks_openssh b' -> 'if negb (looks_openssh b)' (auto)",
  "breaks": [],
  "mod": "KeyFiles",
  "id": "w0_011"
 },
 {
  "edits": [
   [
    "Encrypt.v",
    "++ pk",
    "++ []"
   ]
  ],
  "definition": "sender_cksum",
  "desc": "Encrypt: '++ pk' -> '++ []' (auto)",
  "breaks": [],
  "mod": "Encrypt",
  "id": "w0_012"
 },
 {
  "edits": [
   [
    "Stream.v",
    "&&",
    "||"
   ]
  ],
  "definition": "ew_loop",
  "desc": "Stream: '&&' -> '||' (auto)",
  "breaks": [],
  "mod": "Stream",
  "id": "w0_013"
 },
 {
  "edits": [
   [
    "Base64.v",
    "            let v := d0 * 2^18 + d1 * 2^12 ",
    "            let v := d0 * 2^18 - d1 * 2^12 "
   ]
  ],
  "definition": "b64_dec",
  "desc": "Base64: '+' -> '-' (auto)",
  "breaks": [],
  "mod": "Base64",
  "id": "w0_014"
 },
 {
  "edits": [
   [
    "Race.v",
    ": prog A :=\n  Load (PkCache k 0) (fun c =",
    ": prog A :=\n  Load (PkCache k 1) (fun c ="
   ]
  ],
  "definition": "conv_pk",
  "desc": "Race: '0' -> '1' (auto)",
  "breaks": [],
  "mod": "Race",
  "id": "w0_015"
 },
 {
  "edits": [
   [
    "Stream.v",
    "if er_len s =? 0 then",
    "if er_len s =? 1 then"
   ]
  ],
  "definition": "er_read",
  "desc": "Stream: '0' -> '1' (auto)",
  "breaks": [],
  "mod": "Stream",
  "id": "w0_016"
 },
 {
  "edits": [
   [
    "Pb.v",
    " (len d) idx 0 0.\n\n(*",
    " (len d) idx 0 1.\n\n(*"
   ]
  ],
  "definition": "varint_at",
  "desc": "Pb: '0' -> '1' (auto)",
  "breaks": [],
  "mod": "Pb",
  "id": "w0_017"
 },
 {
  "edits": [
   [
    "Fs.v",
    "= u * 64 + g * 8 + o.",
    "= u * 64 + g * 9 + o."
   ]
  ],
  "definition": "oct",
  "desc": "Fs: '8' -> '9' (auto)",
  "breaks": [],
  "mod": "Fs",
  "id": "w0_018"
 },
 {
  "edits": [
   [
    "Ssh.v",
    "            if 0 <? l",
    "            if 1 <? l"
   ]
  ],
  "definition": "parse_enc_pubkey",
  "desc": "Ssh: '0' -> '1' (auto)",
  "breaks": [],
  "mod": "Ssh",
  "id": "w0_019"
 },
 {
  "edits": [
   [
    "Pb.v",
    "es wkey :=\n  if len d <=? idx then (if len d <? idx then Fail ",
    "es wkey :=\n  if len d <=? idx then (if len d <=? idx then Fail "
   ]
  ],
  "definition": "unmarshal_wkey_loop",
  "desc": "Pb: '<?' -> '<=?' (auto)",
  "breaks": [],
  "mod": "Pb",
  "id": "w0_020"
 },
 {
  "edits": [
   [
    "Keys.v",
    " _) => if d =? 1 then",
    " _) => if d =? 2 then"
   ]
  ],
  "definition": "mod_inverse",
  "desc": "Keys: '1' -> '2' (auto)",
  "breaks": [],
  "mod": "Keys",
  "id": "w0_021"
 },
 {
  "edits": [
   [
    "Fs.v",
    "&&",
    "||"
   ]
  ],
  "definition": "sf_ops",
  "desc": "Fs: '&&' -> '||' (auto)",
  "breaks": [],
  "mod": "Fs",
  "id": "w0_022"
 },
 {
  "edits": [
   [
    "Encrypt.v",
    "buf in\n          let nonce := drop aes_key_si",
    "buf in\n          let nonce := take aes_key_si"
   ]
  ],
  "definition": "wrap_key",
  "desc": "Encrypt: 'drop' -> 'take' (auto)",
  "breaks": [],
  "mod": "Encrypt",
  "id": "w0_023"
 },
 {
  "edits": [
   [
    "Told.v",
    "if authenticated_sender d\n                              ",
    "if negb (authenticated_sender d) "
   ]
  ],
  "definition": "dec_body_told",
  "desc": "Told: 'if authenticated_sender d' -> 'if negb (authenticated_sender d)' (auto)",
  "breaks": [],
  "mod": "Told",
  "id": "w0_024"
 },
 {
  "edits": [
   [
    "Cli.v",
    "if 0 <? errs ",
    "if negb (0 <? errs) "
   ]
  ],
  "definition": "enc_body",
  "desc": "Cli: 'if 0 <? errs' -> 'if negb (0 <? errs)' (auto)",
  "breaks": [],
  "mod": "Cli",
  "id": "w0_025"
 },
 {
  "edits": [
   [
    "Store.v",
    "te_file v (oct 6 0 0)",
    "te_file v (oct 7 0 0)"
   ]
  ],
  "definition": "serialize_private",
  "desc": "Store: '6' -> '7' (auto)",
  "breaks": [],
  "mod": "Store",
  "id": "w0_026"
 },
 {
  "edits": [
   [
    "GoIO.v",
    "(b, Some (if 0 <? len ",
    "(b, Some (if 0 <=? len "
   ]
  ],
  "definition": "read_full",
  "desc": "GoIO: '<?' -> '<=?' (auto)",
  "breaks": [],
  "mod": "GoIO",
  "id": "w0_027"
 },
 {
  "edits": [
   [
    "Debug.v",
    "git (b2z b mod 16) :: ",
    "git (b2z b mod 17) :: "
   ]
  ],
  "definition": "hex",
  "desc": "Debug: '16' -> '17' (auto)",
  "breaks": [],
  "mod": "Debug",
  "id": "w0_028"
 },
 {
  "edits": [
   [
    "Store.v",
    "rite : bool)\n  : list fop * res unit := write_file v (oct 6 4 4) f dst (marshal_s",
    "rite : bool)\n  : list fop * res unit := write_file v (oct 6 5 4) f dst (marshal_s"
   ]
  ],
  "definition": "serialize_signature",
  "desc": "Store: '4' -> '5' (auto)",
  "breaks": [],
  "mod": "Store",
  "id": "w0_029"
 },
 {
  "edits": [
   [
    "Pb.v",
    "    if post <? 0 then",
    "    if post <? 1 then"
   ]
  ],
  "definition": "get_bytes",
  "desc": "Pb: '0' -> '1' (auto)",
  "breaks": [],
  "mod": "Pb",
  "id": "w0_030"
 },
 {
  "edits": [
   [
    "KeyFiles.v",
    "with Some i => 0 <? i",
    "with Some i => 1 <? i"
   ]
  ],
  "definition": "looks_openssh",
  "desc": "KeyFiles: '0' -> '1' (auto)",
  "breaks": [],
  "mod": "KeyFiles",
  "id": "w0_031"
 },
 {
  "edits": [
   [
    "Cli.v",
    " bytes :=\n  fn ++ str \": S",
    " bytes :=\n  fn ++ [] \": S"
   ]
  ],
  "definition": "verify_text",
  "desc": "Cli: '++ str' -> '++ []' (auto)",
  "breaks": [],
  "mod": "Cli",
  "id": "w0_032"
 },
 {
  "edits": [
   [
    "Decrypt.v",
    "th := d_auth d || sign",
    "th := d_auth d && sign"
   ]
  ],
  "definition": "set_private_key",
  "desc": "Decrypt: '||' -> '&&' (auto)",
  "breaks": [],
  "mod": "Decrypt",
  "id": "w0_033"
 },
 {
  "edits": [
   [
    "GoIO.v",
    "if n =? len b ",
    "if negb (n =? len b) "
   ]
  ],
  "definition": "read_loop",
  "desc": "GoIO: 'if n =? len b' -> 'if negb (n =? len b)' (auto)",
  "breaks": [],
  "mod": "GoIO",
  "id": "w0_034"
 },
 {
  "edits": [
   [
    "Cli.v",
    "++ fn",
    "++ []"
   ]
  ],
  "definition": "sign_body",
  "desc": "Cli: '++ fn' -> '++ []' (auto)",
  "breaks": [],
  "mod": "Cli",
  "id": "w0_035"
 },
 {
  "edits": [
   [
    "Race.v",
    "chunk (d_hdr d) + gcm_o",
    "chunk (d_hdr d) - gcm_o"
   ]
  ],
  "definition": "set_rest",
  "desc": "Race: '+' -> '-' (auto)",
  "breaks": [],
  "mod": "Race",
  "id": "w0_036"
 },
 {
  "edits": [
   [
    "Ssh.v",
    " e inp, drop (e + 1) inp",
    " e inp, drop (e + 2) inp"
   ]
  ],
  "definition": "auth_loop",
  "desc": "Ssh: '+ 1' -> '+ 2' (auto)",
  "breaks": [],
  "mod": "Ssh",
  "id": "w0_037"
 },
 {
  "edits": [
   [
    "KeyFiles.v",
    "(su_comment r) ++ y_field \"pk\"",
    "(su_comment r) ++ [] \"pk\""
   ]
  ],
  "definition": "yaml_pub",
  "desc": "KeyFiles: '++ y_field' -> '++ []' (auto)",
  "breaks": [],
  "mod": "KeyFiles",
  "id": "w0_038"
 },
 {
  "edits": [
   [
    "Base64.v",
    "ndex_of c l' (i + 1)\n  ",
    "ndex_of c l' (i - 1)\n  "
   ]
  ],
  "definition": "index_of",
  "desc": "Base64: '+' -> '-' (auto)",
  "breaks": [],
  "mod": "Base64",
  "id": "w0_039"
 },
 {
  "edits": [
   [
    "Keys.v",
    "sha512 C (take 32 (sk_",
    "sha512 C (take 33 (sk_"
   ]
  ],
  "definition": "to_curve_sk",
  "desc": "Keys: '32' -> '33' (auto)",
  "breaks": [],
  "mod": "Keys",
  "id": "w0_040"
 },
 {
  "edits": [
   [
    "Encrypt.v",
    " C (sha256_size + aes_k",
    " C (sha256_size - aes_k"
   ]
  ],
  "definition": "enc_start",
  "desc": "Encrypt: '+' -> '-' (auto)",
  "breaks": [],
  "mod": "Encrypt",
  "id": "w0_041"
 },
 {
  "edits": [
   [
    "Flags.v",
    "efinition sign_flags : list flag :=\n  [fl \"help\" (Some x68) true; fl \"no-password\" N",
    "efinition sign_flags : list flag :=\n  [fl \"help\" (Some x68) false; fl \"no-password\" N"
   ]
  ],
  "definition": "sign_flags",
  "desc": "Flags: 'true' -> 'false' (auto)",
  "breaks": [],
  "mod": "Flags",
  "id": "w0_042"
 },
 {
  "edits": [
   [
    "Keys.v",
    "7)) k in\n  upd 31 (fun",
    "7)) k in\n  upd 32 (fun"
   ]
  ],
  "definition": "clamp",
  "desc": "Keys: '31' -> '32' (auto)",
  "breaks": [],
  "mod": "Keys",
  "id": "w0_043"
 },
 {
  "edits": [
   [
    "Stream.v",
    "then (s, Some (take (er_l",
    "then (s, Some (drop (er_l"
   ]
  ],
  "definition": "er_keep",
  "desc": "Stream: 'take' -> 'drop' (auto)",
  "breaks": [],
  "mod": "Stream",
  "id": "w0_044"
 },
 {
  "edits": [
   [
    "KeyFiles.v",
    " - ",
    " + "
   ]
  ],
  "definition": "b64_spare",
  "desc": "KeyFiles: '-' -> '+' (auto)",
  "breaks": [],
  "mod": "KeyFiles",
  "id": "w0_045"
 },
 {
  "edits": [
   [
    "Encrypt.v",
    " src ++ zeros (12 - le",
    " src ++ zeros (13 - le"
   ]
  ],
  "definition": "chunk_nonce",
  "desc": "Encrypt: '12' -> '13' (auto)",
  "breaks": [],
  "mod": "Encrypt",
  "id": "w0_046"
 },
 {
  "edits": [
   [
    "Flags.v",
    "6) true; fl \"help\" (Some x68) true; fl \"debu",
    "6) true; fl \"help\" (Some x68) false; fl \"debu"
   ]
  ],
  "definition": "main_flags",
  "desc": "Flags: 'true' -> 'false' (auto)",
  "breaks": [],
  "mod": "Flags",
  "id": "w0_047"
 },
 {
  "edits": [
   [
    "Pb.v",
    "with\n  | [] => 0\n  | ",
    "with\n  | [] => 1\n  | "
   ]
  ],
  "definition": "size_keys",
  "desc": "Pb: '0' -> '1' (auto)",
  "breaks": [],
  "mod": "Pb",
  "id": "w0_048"
 },
 {
  "edits": [
   [
    "Store.v",
    "t : bytes) (overwrite : bool)\n  : list fop * res unit := write_file v (oct 6 4 4) f dst (marshal_publ",
    "t : bytes) (overwrite : bool)\n  : list fop * res unit := write_file v (oct 7 4 4) f dst (marshal_publ"
   ]
  ],
  "definition": "serialize_public",
  "desc": "Store: '6' -> '7' (auto)",
  "breaks": [],
  "mod": "Store",
  "id": "w0_049"
 },
 {
  "edits": [
   [
    "Pb.v",
    "O => Panic \"varint: out of fuel\"\n  | S f =>\n      if 64 <=? shift then Fail (EMsg \"proto: integer overflow\")\n      else if l <=? idx then Fail ErrUnexpectedEOF\n      else\n  ",
    "O => Panic \"varint: out of fuel\"\n  | S f =>\n      if 64 <=? shift then Fail (EMsg \"proto: integer overflow\")\n      else if negb (l <=? idx) then Fail ErrUnexpectedEOF\n      else\n  "
   ]
  ],
  "definition": "get_varint",
  "desc": "Pb: 'if l <=? idx' -> 'if negb (l <=? idx)' (auto)",
  "breaks": [],
  "mod": "Pb",
  "id": "w0_050"
 },
 {
  "edits": [
   [
    "Flags.v",
    "ign\" (Some x73) false; fl \"no-password\" None true; fl \"env-passw",
    "ign\" (Some x73) false; fl \"no-password\" None false; fl \"env-passw"
   ]
  ],
  "definition": "enc_flags",
  "desc": "Flags: 'true' -> 'false' (auto)",
  "breaks": [],
  "mod": "Flags",
  "id": "w0_051"
 },
 {
  "edits": [
   [
    "Flags.v",
    "31-50 *)\n  (fun argv => ended 2 (parse_ar",
    "31-50 *)\n  (fun argv => ended 3 (parse_ar"
   ]
  ],
  "definition": "declared",
  "desc": "Flags: '2' -> '3' (auto)",
  "breaks": [],
  "mod": "Flags",
  "id": "w0_052"
 },
 {
  "edits": [
   [
    "Encrypt.v",
    "ne esk sk auth false fals",
    "ne esk sk auth true fals"
   ]
  ],
  "definition": "new_encryptor",
  "desc": "Encrypt: 'false' -> 'true' (auto)",
  "breaks": [],
  "mod": "Encrypt",
  "id": "w0_053"
 },
 {
  "edits": [
   [
    "Ssh.v",
    "             | None => Ok []\n ",
    "             | None => id Ok []\n "
   ]
  ],
  "definition": "auth_line",
  "desc": "Ssh: 'None => Ok' -> 'None => id Ok' (auto)",
  "breaks": [],
  "mod": "Ssh",
  "id": "w0_054"
 },
 {
  "edits": [
   [
    "Bytes.v",
    "[] => []\n  | x :: l' => if n <=? 0 then [] e",
    "[] => []\n  | x :: l' => if n <=? 1 then [] e"
   ]
  ],
  "definition": "take",
  "desc": "Bytes: '=? 0' -> '=? 1' (auto)",
  "breaks": [],
  "mod": "Bytes",
  "id": "w0_055"
 },
 {
  "edits": [
   [
    "Decrypt.v",
    "(d_rd d))) d w 0\n  en",
    "(d_rd d))) d w 1\n  en"
   ]
  ],
  "definition": "decrypt",
  "desc": "Decrypt: '0' -> '1' (auto)",
  "breaks": [],
  "mod": "Decrypt",
  "id": "w0_056"
 },
 {
  "edits": [
   [
    "Pb.v",
    "if 128 <=? v ",
    "if negb (128 <=? v) "
   ]
  ],
  "definition": "put_varint",
  "desc": "Pb: 'if 128 <=? v' -> 'if negb (128 <=? v)' (auto)",
  "breaks": [],
  "mod": "Pb",
  "id": "w0_057"
 },
 {
  "edits": [
   [
    "Decrypt.v",
    "    let kek := take aes_k",
    "    let kek := drop aes_k"
   ]
  ],
  "definition": "unwrap_key",
  "desc": "Decrypt: 'take' -> 'drop' (auto)",
  "breaks": [],
  "mod": "Decrypt",
  "id": "w0_058"
 },
 {
  "edits": [
   [
    "Told.v",
    "old T W v (oct 6 4 4)",
    "old T W v (oct 7 4 4)"
   ]
  ],
  "definition": "sign_told",
  "desc": "Told: '6' -> '7' (auto)",
  "breaks": [],
  "mod": "Told",
  "id": "w0_059"
 },
 {
  "edits": [
   [
    "Cli.v",
    "es) : bool := (0 <? l",
    "es) : bool := (1 <? l"
   ]
  ],
  "definition": "names_file",
  "desc": "Cli: '0' -> '1' (auto)",
  "breaks": [],
  "mod": "Cli",
  "id": "w0_060"
 },
 {
  "edits": [
   [
    "Decrypt.v",
    "ne =>\n      if negb (d_aut",
    "ne =>\n      if id (d_aut"
   ]
  ],
  "definition": "process_trailer",
  "desc": "Decrypt: 'negb (' -> 'id (' (auto)",
  "breaks": [],
  "mod": "Decrypt",
  "id": "w0_061"
 },
 {
  "edits": [
   [
    "Decrypt.v",
    "_key_size then false else",
    "_key_size then true else"
   ]
  ],
  "definition": "wkeys_sane",
  "desc": "Decrypt: 'false' -> 'true' (auto)",
  "breaks": [],
  "mod": "Decrypt",
  "id": "w0_062"
 },
 {
  "edits": [
   [
    "Decrypt.v",
    "n (d_set_eof d true, w, ",
    "n (d_set_eof d false, w, "
   ]
  ],
  "definition": "dec_loop",
  "desc": "Decrypt: 'true' -> 'false' (auto)",
  "breaks": [],
  "mod": "Decrypt",
  "id": "w0_063"
 },
 {
  "edits": [
   [
    "Ssh.v",
    "=? 0) || (2^20 <? len ",
    "=? 0) || (2^20 <=? len "
   ]
  ],
  "definition": "bcrypt_key",
  "desc": "Ssh: '<?' -> '<=?' (auto)",
  "breaks": [],
  "mod": "Ssh",
  "id": "w0_064"
 },
 {
  "edits": [
   [
    "Crypto.v",
    " := Z.land n (n - 1) =? ",
    " := Z.land n (n - 0) =? "
   ]
  ],
  "definition": "is_pow2",
  "desc": "Crypto: '- 1' -> '- 0' (auto)",
  "breaks": [],
  "mod": "Crypto",
  "id": "w0_065"
 },
 {
  "edits": [
   [
    "GoIO.v",
    ":: r' =>\n      if n <? len b then ",
    ":: r' =>\n      if negb (n <? len b) then "
   ]
  ],
  "definition": "rd_read",
  "desc": "GoIO: 'if n <? len b' -> 'if negb (n <? len b)' (auto)",
  "breaks": [],
  "mod": "GoIO",
  "id": "w0_066"
 },
 {
  "edits": [
   [
    "Bytes.v",
    " [] => []\n  | x :: l' => if n <=? 0 then l ",
    " [] => []\n  | x :: l' => if n <? 0 then l "
   ]
  ],
  "definition": "drop",
  "desc": "Bytes: '<=?' -> '<?' (auto)",
  "breaks": [],
  "mod": "Bytes",
  "id": "w0_067"
 },
 {
  "edits": [
   [
    "Fs.v",
    "e => match se_open v with Some e => Fail e | None => Ok tt end\n  end.\n",
    "e => match se_open v with Some e => Fail e | None => id Ok tt end\n  end.\n"
   ]
  ],
  "definition": "safe_open",
  "desc": "Fs: 'None => Ok' -> 'None => id Ok' (auto)",
  "breaks": [],
  "mod": "Fs",
  "id": "w0_068"
 },
 {
  "edits": [
   [
    "Base64.v",
    "16 + b2z y * 2^8 + b2",
    "16 + b2z y * 2^9 + b2"
   ]
  ],
  "definition": "b64_encode",
  "desc": "Base64: '8' -> '9' (auto)",
  "breaks": [],
  "mod": "Base64",
  "id": "w0_069"
 },
 {
  "edits": [
   [
    "Pb.v",
    " m) (h_unk m))\n        else if fieldNum =? 2 then\n          if negb (wireType =? 2) then Fail (EMsg \"pro",
    " m) (h_unk m))\n        else if fieldNum =? 2 then\n          if negb (negb (wireType =? 2)) then Fail (EMsg \"pro"
   ]
  ],
  "definition": "unmarshal_header_loop",
  "desc": "Pb: 'if negb (wireType =? 2)' -> 'if negb (negb (wireType =? 2))' (auto)",
  "breaks": [],
  "mod": "Pb",
  "id": "w0_070"
 },
 {
  "edits": [
   [
    "Main.v",
    "  | [] => quit 1\n    ",
    "  | [] => quit 2\n    "
   ]
  ],
  "definition": "main",
  "desc": "Main: '1' -> '2' (auto)",
  "breaks": [],
  "mod": "Main",
  "id": "w0_071"
 },
 {
  "edits": [
   [
    "Race.v",
    " [] []) key [] 0 None",
    " [] []) key [] 1 None"
   ]
  ],
  "definition": "call_prog",
  "desc": "Race: '0' -> '1' (auto)",
  "breaks": [],
  "mod": "Race",
  "id": "w0_072"
 },
 {
  "edits": [
   [
    "KeyFiles.v",
    "if len s =? 0 ",
    "if negb (len s =? 0) "
   ]
  ],
  "definition": "y_opt",
  "desc": "KeyFiles: 'if len s =? 0' -> 'if negb (len s =? 0)' (auto)",
  "breaks": [],
  "mod": "KeyFiles",
  "id": "w0_073"
 },
 {
  "edits": [
   [
    "Cli.v",
    "<? i | None => false end.",
    "<? i | None => true end."
   ]
  ],
  "definition": "is_user",
  "desc": "Cli: 'false' -> 'true' (auto)",
  "breaks": [],
  "mod": "Cli",
  "id": "w0_074"
 },
 {
  "edits": [
   [
    "Pb.v",
    " <? len b then 1 + le",
    " <? len b then 2 + le"
   ]
  ],
  "definition": "size_field",
  "desc": "Pb: '1' -> '2' (auto)",
  "breaks": [],
  "mod": "Pb",
  "id": "w0_075"
 },
 {
  "edits": [
   [
    "Usage.v",
    "d fs l := match parse_args fs true args with",
    "d fs l := match parse_args fs false args with"
   ]
  ],
  "definition": "command_texts",
  "desc": "Usage: 'true' -> 'false' (auto)",
  "breaks": [],
  "mod": "Usage",
  "id": "w0_076"
 },
 {
  "edits": [
   [
    "Cli.v",
    "| Ok blk =>\n      match (if 0 <? len (eo_k",
    "| Ok blk =>\n      match (if 0 <=? len (eo_k"
   ]
  ],
  "definition": "cli_encrypt",
  "desc": "Cli: '<?' -> '<=?' (auto)",
  "breaks": [],
  "mod": "Cli",
  "id": "w0_077"
 },
 {
  "edits": [
   [
    "Cli.v",
    "          | Ok false => s",
    "          | Ok true => s"
   ]
  ],
  "definition": "verify_with",
  "desc": "Cli: 'false' -> 'true' (auto)",
  "breaks": [],
  "mod": "Cli",
  "id": "w0_078"
 },
 {
  "edits": [
   [
    "Bytes.v",
    "h l with [] => 0 | b ",
    "h l with [] => 1 | b "
   ]
  ],
  "definition": "unle",
  "desc": "Bytes: '0' -> '1' (auto)",
  "breaks": [],
  "mod": "Bytes",
  "id": "w0_079"
 },
 {
  "edits": [
   [
    "Flags.v",
    "et\" (Some x71) true].\n(*",
    "et\" (Some x71) false].\n(*"
   ]
  ],
  "definition": "verify_flags",
  "desc": "Flags: 'true' -> 'false' (auto)",
  "breaks": [],
  "mod": "Flags",
  "id": "w0_080"
 },
 {
  "edits": [
   [
    "Cli.v",
    "t outf := if 0 <? len ",
    "t outf := if 0 <=? len "
   ]
  ],
  "definition": "cli_sign",
  "desc": "Cli: '<?' -> '<=?' (auto)",
  "breaks": [],
  "mod": "Cli",
  "id": "w0_081"
 },
 {
  "edits": [
   [
    "Pb.v",
    "h_keys ks (z2b 42 :: e",
    "h_keys ks (z2b 43 :: e"
   ]
  ],
  "definition": "push_keys",
  "desc": "Pb: '42' -> '43' (auto)",
  "breaks": [],
  "mod": "Pb",
  "id": "w0_082"
 },
 {
  "edits": [
   [
    "Stream.v",
    " (e, w, g, s, (0, Fai",
    " (e, w, g, s, (1, Fai"
   ]
  ],
  "definition": "ew_write",
  "desc": "Stream: '0' -> '1' (auto)",
  "breaks": [],
  "mod": "Stream",
  "id": "w0_083"
 },
 {
  "edits": [
   [
    "Pb.v",
    " := push_field 18 (h_s",
    " := push_field 19 (h_s"
   ]
  ],
  "definition": "marshal_fields",
  "desc": "Pb: '18' -> '19' (auto)",
  "breaks": [],
  "mod": "Pb",
  "id": "w0_084"
 },
 {
  "edits": [
   [
    "Ssh.v",
    "6 (drop 32 k), take 32 k)",
    "6 (drop 32 k), drop 32 k)"
   ]
  ],
  "definition": "extract_bcrypt",
  "desc": "Ssh: 'take' -> 'drop' (auto)",
  "breaks": [],
  "mod": "Ssh",
  "id": "w0_085"
 },
 {
  "edits": [
   [
    "Race.v",
    "w'\n  | _, _ => false\n  en",
    "w'\n  | _, _ => true\n  en"
   ]
  ],
  "definition": "cell_eqb",
  "desc": "Race: 'false' -> 'true' (auto)",
  "breaks": [],
  "mod": "Race",
  "id": "w0_086"
 },
 {
  "edits": [
   [
    "Told.v",
    "  | [] => quit 1 [(\"I",
    "  | [] => quit 2 [(\"I"
   ]
  ],
  "definition": "main_told",
  "desc": "Told: '1' -> '2' (auto)",
  "breaks": [],
  "mod": "Told",
  "id": "w0_087"
 },
 {
  "edits": [
   [
    "GoIO.v",
    "[] (w_nclosed w + 1))\n  ",
    "[] (w_nclosed w + 2))\n  "
   ]
  ],
  "definition": "w_close",
  "desc": "GoIO: '+ 1' -> '+ 2' (auto)",
  "breaks": [],
  "mod": "GoIO",
  "id": "w0_088"
 },
 {
  "edits": [
   [
    "Encrypt.v",
    "x_chunk : Z := 2^30.\n",
    "x_chunk : Z := 3^30.\n"
   ]
  ],
  "definition": "max_chunk",
  "desc": "Encrypt: '2' -> '3' (auto)",
  "breaks": [],
  "mod": "Encrypt",
  "id": "w0_089"
 },
 {
  "edits": [
   [
    "Debug.v",
    "+\n  [x0a; x09] ++ str \"non",
    "+\n  [x0a; x09] ++ [] \"non"
   ]
  ],
  "definition": "debug_text",
  "desc": "Debug: '++ str' -> '++ []' (auto)",
  "breaks": [],
  "mod": "Debug",
  "id": "w0_090"
 },
 {
  "edits": [
   [
    "Crypto.v",
    "egb (len pk =? 32) the",
    "egb (len pk =? 33) the"
   ]
  ],
  "definition": "Ed_Verify",
  "desc": "Crypto: '32' -> '33' (auto)",
  "breaks": [],
  "mod": "Crypto",
  "id": "w0_091"
 },
 {
  "edits": [
   [
    "Cli.v",
    " 0 | Fail _ => 1 | Pa",
    " 0 | Fail _ => 2 | Pa"
   ]
  ],
  "definition": "code_of",
  "desc": "Cli: '1' -> '2' (auto)",
  "breaks": [],
  "mod": "Cli",
  "id": "w0_092"
 },
 {
  "edits": [
   [
    "Bytes.v",
    "b2z d\n  | _ => 0\n  en",
    "b2z d\n  | _ => 1\n  en"
   ]
  ],
  "definition": "unbe32",
  "desc": "Bytes: '0' -> '1' (auto)",
  "breaks": [],
  "mod": "Bytes",
  "id": "w0_093"
 },
 {
  "edits": [
   [
    "Pb.v",
    "og2 (Z.lor x 1) + 1 + 6",
    "og2 (Z.lor x 1) - 1 + 6"
   ]
  ],
  "definition": "size_varint",
  "desc": "Pb: '+' -> '-' (auto)",
  "breaks": [],
  "mod": "Pb",
  "id": "w0_094"
 },
 {
  "edits": [
   [
    "Keys.v",
    "curve_p : Z := 2^255 ",
    "curve_p : Z := 3^255 "
   ]
  ],
  "definition": "curve_p",
  "desc": "Keys: '2' -> '3' (auto)",
  "breaks": [],
  "mod": "Keys",
  "id": "w0_095"
 },
 {
  "edits": [
   [
    "Told.v",
    "++ ops2",
    "++ []"
   ]
  ],
  "definition": "generate_told",
  "desc": "Told: '++ ops2' -> '++ []' (auto)",
  "breaks": [],
  "mod": "Told",
  "id": "w0_096"
 },
 {
  "edits": [
   [
    "Pb.v",
    "m) (push_field 18 (w_n",
    "m) (push_field 19 (w_n"
   ]
  ],
  "definition": "marshal_wkey",
  "desc": "Pb: '18' -> '19' (auto)",
  "breaks": [],
  "mod": "Pb",
  "id": "w0_097"
 },
 {
  "edits": [
   [
    "Ssh.v",
    " (take i inp) (drop i inp",
    " (take i inp) (take i inp"
   ]
  ],
  "definition": "parse_authorized_key",
  "desc": "Ssh: 'drop' -> 'take' (auto)",
  "breaks": [],
  "mod": "Ssh",
  "id": "w0_098"
 },
 {
  "edits": [
   [
    "Debug.v",
    "= z2b (if d <? 10 then",
    "= z2b (if d <? 11 then"
   ]
  ],
  "definition": "hex_digit",
  "desc": "Debug: '10' -> '11' (auto)",
  "breaks": [],
  "mod": "Debug",
  "id": "w0_099"
 },
 {
  "edits": [
   [
    "KeyFiles.v",
    "(ss_comment r) ++ y_opt E \"p",
    "(ss_comment r) ++ [] E \"p"
   ]
  ],
  "definition": "yaml_sig",
  "desc": "KeyFiles: '++ y_opt' -> '++ []' (auto)",
  "breaks": [],
  "mod": "KeyFiles",
  "id": "w0_100"
 },
 {
  "edits": [
   [
    "KeyFiles.v",
    "tes := if z =? 0 then",
    "tes := if z =? 1 then"
   ]
  ],
  "definition": "y_optint",
  "desc": "KeyFiles: '0' -> '1' (auto)",
  "breaks": [],
  "mod": "KeyFiles",
  "id": "w0_101"
 },
 {
  "edits": [
   [
    "Bytes.v",
    "\n  [z2b (z / 2^24); z2",
    "\n  [z2b (z / 2^25); z2"
   ]
  ],
  "definition": "be32",
  "desc": "Bytes: '24' -> '25' (auto)",
  "breaks": [],
  "mod": "Bytes",
  "id": "w0_102"
 },
 {
  "edits": [
   [
    "KeyFiles.v",
    "gcm_seal C ae (take gcm_n",
    "gcm_seal C ae (drop gcm_n"
   ]
  ],
  "definition": "marshal_private",
  "desc": "KeyFiles: 'take' -> 'drop' (auto)",
  "breaks": [],
  "mod": "KeyFiles",
  "id": "w0_103"
 },
 {
  "edits": [
   [
    "Keys.v",
    "ianY := zeros (32 - le",
    "ianY := zeros (33 - le"
   ]
  ],
  "definition": "curve_of",
  "desc": "Keys: '32' -> '33' (auto)",
  "breaks": [],
  "mod": "Keys",
  "id": "w0_104"
 },
 {
  "edits": [
   [
    "Stream.v",
    "am d, Ok (mkEr 0 0 0 ",
    "am d, Ok (mkEr 1 0 0 "
   ]
  ],
  "definition": "new_stream_reader",
  "desc": "Stream: '0' -> '1' (auto)",
  "breaks": [],
  "mod": "Stream",
  "id": "w0_105"
 },
 {
  "edits": [
   [
    "Cli.v",
    "Ok []",
    "Ok [x00]"
   ]
  ],
  "definition": "get_pass",
  "desc": "Cli: 'Ok []' -> 'Ok [x00]' (auto)",
  "breaks": [],
  "mod": "Cli",
  "id": "w0_106"
 },
 {
  "edits": [
   [
    "GoIO.v",
    "(pos g + Z.max 0 n)).",
    "(pos g + Z.max 1 n))."
   ]
  ],
  "definition": "rand_buf",
  "desc": "GoIO: '0' -> '1' (auto)",
  "breaks": [],
  "mod": "GoIO",
  "id": "w0_107"
 },
 {
  "edits": [
   [
    "Told.v",
    "if do_test o ",
    "if negb (do_test o) "
   ]
  ],
  "definition": "decrypt_told",
  "desc": "Told: 'if do_test o' -> 'if negb (do_test o)' (auto)",
  "breaks": [],
  "mod": "Told",
  "id": "w0_108"
 },
 {
  "edits": [
   [
    "Encrypt.v",
    " + 1",
    " + 2"
   ]
  ],
  "definition": "enc_loop",
  "desc": "Encrypt: '+ 1' -> '+ 2' (auto)",
  "breaks": [],
  "mod": "Encrypt",
  "id": "w0_109"
 },
 {
  "edits": [
   [
    "Pb.v",
    " bytes :=\n  if 0 <? l",
    " bytes :=\n  if 1 <? l"
   ]
  ],
  "definition": "push_field",
  "desc": "Pb: '0' -> '1' (auto)",
  "breaks": [],
  "mod": "Pb",
  "id": "w0_110"
 },
 {
  "edits": [
   [
    "Ssh.v",
    "2 && ((i =? 0) || negb",
    "2 && ((i =? 0) && negb"
   ]
  ],
  "definition": "opt_end",
  "desc": "Ssh: '||' -> '&&' (auto)",
  "breaks": [],
  "mod": "Ssh",
  "id": "w0_111"
 },
 {
  "edits": [
   [
    "Debug.v",
    "g\") false then 1 else",
    "g\") false then 2 else"
   ]
  ],
  "definition": "debug_level",
  "desc": "Debug: '1' -> '2' (auto)",
  "breaks": [],
  "mod": "Debug",
  "id": "w0_112"
 },
 {
  "edits": [
   [
    "Stream.v",
    "n b then Some (drop m b) ",
    "n b then Some (take m b) "
   ]
  ],
  "definition": "er_read_kept",
  "desc": "Stream: 'drop' -> 'take' (auto)",
  "breaks": [],
  "mod": "Stream",
  "id": "w0_113"
 },
 {
  "edits": [
   [
    "Pb.v",
    "f fieldNum <=? 0 then",
    "f fieldNum <=? 1 then"
   ]
  ],
  "definition": "get_tag",
  "desc": "Pb: '0' -> '1' (auto)",
  "breaks": [],
  "mod": "Pb",
  "id": "w0_114"
 },
 {
  "edits": [
   [
    "Ssh.v",
    "se if len data <? len ",
    "se if len data <=? len "
   ]
  ],
  "definition": "parse_openssh_private",
  "desc": "Ssh: '<?' -> '<=?' (auto)",
  "breaks": [],
  "mod": "Ssh",
  "id": "w0_115"
 },
 {
  "edits": [
   [
    "Bytes.v",
    "true",
    "false"
   ]
  ],
  "definition": "beq",
  "desc": "Bytes: 'true' -> 'false' (auto)",
  "breaks": [],
  "mod": "Bytes",
  "id": "w0_116"
 },
 {
  "edits": [
   [
    "Keys.v",
    "es) : bytes := take 16 (s",
    "es) : bytes := drop 16 (s"
   ]
  ],
  "definition": "pkhash",
  "desc": "Keys: 'take' -> 'drop' (auto)",
  "breaks": [],
  "mod": "Keys",
  "id": "w0_117"
 },
 {
  "edits": [
   [
    "Told.v",
    "sprintf (argv0 ++ str \": \"",
    "sprintf (argv0 ++ [] \": \""
   ]
  ],
  "definition": "warn",
  "desc": "Told: '++ str' -> '++ []' (auto)",
  "breaks": [],
  "mod": "Told",
  "id": "w0_118"
 },
 {
  "edits": [
   [
    "GoText.v",
    "te f l' with Some i => Some (i + 1) | None =",
    "te f l' with Some i => Some (i + 2) | None ="
   ]
  ],
  "definition": "find_byte",
  "desc": "GoText: '+ 1' -> '+ 2' (auto)",
  "breaks": [],
  "mod": "GoText",
  "id": "w0_119"
 },
 {
  "edits": [
   [
    "Stream.v",
    "r s), (take m (drop (er_o",
    "r s), (take m (take (er_o"
   ]
  ],
  "definition": "er_deliver",
  "desc": "Stream: 'drop' -> 'take' (auto)",
  "breaks": [],
  "mod": "Stream",
  "id": "w0_120"
 },
 {
  "edits": [
   [
    "Flags.v",
    "er\" (Some x76) false;\n   ",
    "er\" (Some x76) true;\n   "
   ]
  ],
  "definition": "dec_flags",
  "desc": "Flags: 'false' -> 'true' (auto)",
  "breaks": [],
  "mod": "Flags",
  "id": "w0_121"
 },
 {
  "edits": [
   [
    "GoText.v",
    "ub b then Some 0\n  el",
    "ub b then Some 1\n  el"
   ]
  ],
  "definition": "index_sub",
  "desc": "GoText: '0' -> '1' (auto)",
  "breaks": [],
  "mod": "GoText",
  "id": "w0_122"
 },
 {
  "edits": [
   [
    "Bytes.v",
    ") : Z := z mod 2^64.\n",
    ") : Z := z mod 3^64.\n"
   ]
  ],
  "definition": "u64",
  "desc": "Bytes: '2' -> '3' (auto)",
  "breaks": [],
  "mod": "Bytes",
  "id": "w0_123"
 },
 {
  "edits": [
   [
    "Ssh.v",
    "if len data <? 4 then",
    "if len data <? 5 then"
   ]
  ],
  "definition": "ssh_fields",
  "desc": "Ssh: '4' -> '5' (auto)",
  "breaks": [],
  "mod": "Ssh",
  "id": "w0_124"
 },
 {
  "edits": [
   [
    "KeyFiles.v",
    "++ v",
    "++ []"
   ]
  ],
  "definition": "y_field",
  "desc": "KeyFiles: '++ v' -> '++ []' (auto)",
  "breaks": [],
  "mod": "KeyFiles",
  "id": "w0_125"
 },
 {
  "edits": [
   [
    "Cli.v",
    "if do_test o ",
    "if negb (do_test o) "
   ]
  ],
  "definition": "cli_decrypt",
  "desc": "Cli: 'if do_test o' -> 'if negb (do_test o)' (auto)",
  "breaks": [],
  "mod": "Cli",
  "id": "w0_126"
 },
 {
  "edits": [
   [
    "Bytes.v",
    "++ be32",
    "++ []"
   ]
  ],
  "definition": "be64",
  "desc": "Bytes: '++ be32' -> '++ []' (auto)",
  "breaks": [],
  "mod": "Bytes",
  "id": "w0_127"
 },
 {
  "edits": [
   [
    "Cli.v",
    " wo_clean W bn ++ str \".pu",
    " wo_clean W bn ++ [] \".pu"
   ]
  ],
  "definition": "cli_generate",
  "desc": "Cli: '++ str' -> '++ []' (auto)",
  "breaks": [],
  "mod": "Cli",
  "id": "w0_128"
 },
 {
  "edits": [
   [
    "Keys.v",
    "if negb (len b =? 32) ",
    "if negb (negb (len b =? 32)) "
   ]
  ],
  "definition": "make_public_from_bytes",
  "desc": "Keys: 'if negb (len b =? 32)' -> 'if negb (negb (len b =? 32))' (auto)",
  "breaks": [],
  "mod": "Keys",
  "id": "w0_129"
 },
 {
  "edits": [
   [
    "GoErr.v",
    "bytes :=\n  if (0 <=? ",
    "bytes :=\n  if (1 <=? "
   ]
  ],
  "definition": "slice",
  "desc": "GoErr: '0' -> '1' (auto)",
  "breaks": [],
  "mod": "GoErr",
  "id": "w0_130"
 },
 {
  "edits": [
   [
    "Crypto.v",
    " : bytes) : res bytes :=\n  if negb (len scalar",
    " : bytes) : res bytes :=\n  if id (len scalar"
   ]
  ],
  "definition": "X25519",
  "desc": "Crypto: 'negb (' -> 'id (' (auto)",
  "breaks": [],
  "mod": "Crypto",
  "id": "w0_131"
 },
 {
  "edits": [
   [
    "Encrypt.v",
    "size r)) e r w 0 g in",
    "size r)) e r w 1 g in"
   ]
  ],
  "definition": "encrypt",
  "desc": "Encrypt: '0' -> '1' (auto)",
  "breaks": [],
  "mod": "Encrypt",
  "id": "w0_132"
 },
 {
  "edits": [
   [
    "Race.v",
    "\n  | PkCache k 0 => m",
    "\n  | PkCache k 1 => m"
   ]
  ],
  "definition": "cells_of",
  "desc": "Race: '0' -> '1' (auto)",
  "breaks": [],
  "mod": "Race",
  "id": "w0_133"
 },
 {
  "edits": [
   [
    "Ssh.v",
    "_pad pad' (i + 1) end",
    "_pad pad' (i + 2) end"
   ]
  ],
  "definition": "good_pad",
  "desc": "Ssh: '1' -> '2' (auto)",
  "breaks": [],
  "mod": "Ssh",
  "id": "w0_134"
 },
 {
  "edits": [
   [
    "Decrypt.v",
    "++ b",
    "++ []"
   ]
  ],
  "definition": "dec_chunk",
  "desc": "Decrypt: '++ b' -> '++ []' (auto)",
  "breaks": [],
  "mod": "Decrypt",
  "id": "w0_135"
 },
 {
  "edits": [
   [
    "Encrypt.v",
    "eros sig_size, false)\n   ",
    "eros sig_size, true)\n   "
   ]
  ],
  "definition": "add_sender_sig",
  "desc": "Encrypt: 'false' -> 'true' (auto)",
  "breaks": [],
  "mod": "Encrypt",
  "id": "w0_136"
 },
 {
  "edits": [
   [
    "Usage.v",
    "if get_bool s (str \"version\") false ",
    "if negb (get_bool s (str \"version\") false) "
   ]
  ],
  "definition": "main_texts",
  "desc": "Usage: 'if get_bool s (str \"version\") false' -> 'if negb (get_bool s (str \"version\") false)' (auto)",
  "breaks": [],
  "mod": "Usage",
  "id": "w0_137"
 },
 {
  "edits": [
   [
    "Cli.v",
    "if is_user fn ",
    "if negb (is_user fn) "
   ]
  ],
  "definition": "enc_recipients",
  "desc": "Cli: 'if is_user fn' -> 'if negb (is_user fn)' (auto)",
  "breaks": [],
  "mod": "Cli",
  "id": "w0_138"
 },
 {
  "edits": [
   [
    "Encrypt.v",
    "++ pt",
    "++ []"
   ]
  ],
  "definition": "enc_block",
  "desc": "Encrypt: '++ pt' -> '++ []' (auto)",
  "breaks": [],
  "mod": "Encrypt",
  "id": "w0_139"
 },
 {
  "edits": [
   [
    "Flags.v",
    "if existsb (beq s) [str \"1\"; str \"t\"; str \"T\"; str \"TRUE\"; str \"true\"; str \"True\"] ",
    "if negb (existsb (beq s) [str \"1\"; str \"t\"; str \"T\"; str \"TRUE\"; str \"true\"; str \"True\"]) "
   ]
  ],
  "definition": "parse_bool",
  "desc": "Flags: 'if existsb (beq s) [str \"1\"; str \"t\"; str \"T\"; str \"TRUE\"; str \"true\"; str \"True\"]' -> 'if negb (existsb (beq s) [str \"1\"; str \"t\"; str \"T\"; str \"TRUE\"; str \"true\"; str \"True\"])' (auto)",
  "breaks": [],
  "mod": "Flags",
  "id": "w0_140"
 },
 {
  "edits": [
   [
    "GoIO.v",
    "out w (w_out w ++ a) s)\n",
    "out w (w_out w ++ []) s)\n"
   ]
  ],
  "definition": "w_write",
  "desc": "GoIO: '++ a' -> '++ []' (auto)",
  "breaks": [],
  "mod": "GoIO",
  "id": "w0_141"
 },
 {
  "edits": [
   [
    "GoText.v",
    " _ :: _, [] => false\n  en",
    " _ :: _, [] => true\n  en"
   ]
  ],
  "definition": "is_prefix",
  "desc": "GoText: 'false' -> 'true' (auto)",
  "breaks": [],
  "mod": "GoText",
  "id": "w0_142"
 },
 {
  "edits": [
   [
    "Told.v",
    "\"%!s(MISSING)\" ++ s) | N",
    "\"%!s(MISSING)\" ++ []) | N"
   ]
  ],
  "definition": "sprintf",
  "desc": "Told: '++ s' -> '++ []' (auto)",
  "breaks": [],
  "mod": "Told",
  "id": "w0_143"
 },
 {
  "edits": [
   [
    "Decrypt.v",
    "if 1048576 <? varSize ",
    "if negb (1048576 <? varSize) "
   ]
  ],
  "definition": "new_decryptor",
  "desc": "Decrypt: 'if 1048576 <? varSize' -> 'if negb (1048576 <? varSize)' (auto)",
  "breaks": [],
  "mod": "Decrypt",
  "id": "w0_144"
 },
 {
  "edits": [
   [
    "Ssh.v",
    "b (len priv =? 64) the",
    "b (len priv =? 65) the"
   ]
  ],
  "definition": "open_section",
  "desc": "Ssh: '64' -> '65' (auto)",
  "breaks": [],
  "mod": "Ssh",
  "id": "w0_145"
 },
 {
  "edits": [
   [
    "Told.v",
    "| Ok blk =>\n      match (if 0 <? len (eo_k",
    "| Ok blk =>\n      match (if 0 <=? len (eo_k"
   ]
  ],
  "definition": "encrypt_told",
  "desc": "Told: '<?' -> '<=?' (auto)",
  "breaks": [],
  "mod": "Told",
  "id": "w0_146"
 },
 {
  "edits": [
   [
    "Ssh.v",
    "if len data =? 0 then",
    "if len data =? 1 then"
   ]
  ],
  "definition": "ssh_unmarshal",
  "desc": "Ssh: '0' -> '1' (auto)",
  "breaks": [],
  "mod": "Ssh",
  "id": "w0_147"
 },
 {
  "edits": [
   [
    "Cli.v",
    "ok then 0 else 1) C E",
    "ok then 0 else 2) C E"
   ]
  ],
  "definition": "cli_verify",
  "desc": "Cli: '1' -> '2' (auto)",
  "breaks": [],
  "mod": "Cli",
  "id": "w0_148"
 },
 {
  "edits": [
   [
    "Stream.v",
    "w, Ok (mkEw [] 0 None",
    "w, Ok (mkEw [] 1 None"
   ]
  ],
  "definition": "new_stream_writer",
  "desc": "Stream: '0' -> '1' (auto)",
  "breaks": [],
  "mod": "Stream",
  "id": "w0_149"
 },
 {
  "edits": [
   [
    "Flags.v",
    "<?",
    "<=?"
   ]
  ],
  "definition": "parse_short",
  "desc": "Flags: '<?' -> '<=?' (auto)",
  "breaks": [],
  "mod": "Flags",
  "id": "w0_150"
 },
 {
  "edits": [
   [
    "Bytes.v",
    ": Z := z mod 2^32.\nDef",
    ": Z := z mod 2^33.\nDef"
   ]
  ],
  "definition": "u32",
  "desc": "Bytes: '32' -> '33' (auto)",
  "breaks": [],
  "mod": "Bytes",
  "id": "w0_151"
 },
 {
  "edits": [
   [
    "Ssh.v",
    "if pem_encrypted b ",
    "if negb (pem_encrypted b) "
   ]
  ],
  "definition": "parse_ssh_private",
  "desc": "Ssh: 'if pem_encrypted b' -> 'if negb (pem_encrypted b)' (auto)",
  "breaks": [],
  "mod": "Ssh",
  "id": "w0_152"
 },
 {
  "edits": [
   [
    "Crypto.v",
    "len key =? 16) || (len",
    "len key =? 16) && (len"
   ]
  ],
  "definition": "new_gcm",
  "desc": "Crypto: '||' -> '&&' (auto)",
  "breaks": [],
  "mod": "Crypto",
  "id": "w0_153"
 },
 {
  "edits": [
   [
    "Bytes.v",
    "31) mod 2^32 - 2^31.\n",
    "31) mod 2^32 - 3^31.\n"
   ]
  ],
  "definition": "i32",
  "desc": "Bytes: '2' -> '3' (auto)",
  "breaks": [],
  "mod": "Bytes",
  "id": "w0_154"
 },
 {
  "edits": [
   [
    "GoErr.v",
    "true",
    "false"
   ]
  ],
  "definition": "is_panic",
  "desc": "GoErr: 'true' -> 'false' (auto)",
  "breaks": [],
  "mod": "GoErr",
  "id": "w0_155"
 },
 {
  "edits": [
   [
    "GoErr.v",
    "e :=\n  if i <? 0 then",
    "e :=\n  if i <? 1 then"
   ]
  ],
  "definition": "at_",
  "desc": "GoErr: '0' -> '1' (auto)",
  "breaks": [],
  "mod": "GoErr",
  "id": "w0_156"
 },
 {
  "edits": [
   [
    "Told.v",
    "++ fn",
    "++ []"
   ]
  ],
  "definition": "sign_body_told",
  "desc": "Told: '++ fn' -> '++ []' (auto)",
  "breaks": [],
  "mod": "Told",
  "id": "w0_157"
 },
 {
  "edits": [
   [
    "GoText.v",
    "' (cur ++ [c]) false\n  en",
    "' (cur ++ [c]) true\n  en"
   ]
  ],
  "definition": "split_blanks",
  "desc": "GoText: 'false' -> 'true' (auto)",
  "breaks": [],
  "mod": "GoText",
  "id": "w0_158"
 },
 {
  "edits": [
   [
    "KeyFiles.v",
    "E \"Z\" (sp_N r) ++ y_optint E \"r",
    "E \"Z\" (sp_N r) ++ [] E \"r"
   ]
  ],
  "definition": "yaml_priv",
  "desc": "KeyFiles: '++ y_optint' -> '++ []' (auto)",
  "breaks": [],
  "mod": "KeyFiles",
  "id": "w0_159"
 },
 {
  "edits": [
   [
    "Race.v",
    " sk None)))) (Load (SkCache k 0) (fun c' ",
    " sk None)))) (Load (SkCache k 1) (fun c' "
   ]
  ],
  "definition": "conv_sk",
  "desc": "Race: '0' -> '1' (auto)",
  "breaks": [],
  "mod": "Race",
  "id": "w0_160"
 },
 {
  "edits": [
   [
    "Crypto.v",
    "if negb (len sk =? 64) ",
    "if negb (negb (len sk =? 64)) "
   ]
  ],
  "definition": "Ed_Sign",
  "desc": "Crypto: 'if negb (len sk =? 64)' -> 'if negb (negb (len sk =? 64))' (auto)",
  "breaks": [],
  "mod": "Crypto",
  "id": "w0_161"
 },
 {
  "edits": [
   [
    "Cli.v",
    "true | None => false end.",
    "true | None => true end."
   ]
  ],
  "definition": "exists_",
  "desc": "Cli: 'false' -> 'true' (auto)",
  "breaks": [],
  "mod": "Cli",
  "id": "w0_162"
 },
 {
  "edits": [
   [
    "Pb.v",
    " 0 then 0 else 1 + si",
    " 0 then 0 else 2 + si"
   ]
  ],
  "definition": "size_header",
  "desc": "Pb: '1' -> '2' (auto)",
  "breaks": [],
  "mod": "Pb",
  "id": "w0_163"
 },
 {
  "edits": [
   [
    "Bytes.v",
    "63) mod 2^64 - 2^63.\n",
    "63) mod 2^64 - 3^63.\n"
   ]
  ],
  "definition": "i64",
  "desc": "Bytes: '2' -> '3' (auto)",
  "breaks": [],
  "mod": "Bytes",
  "id": "w0_164"
 },
 {
  "edits": [
   [
    "Pb.v",
    "\n        if i2 <? 0 th",
    "\n        if i2 <=? 0 th"
   ]
  ],
  "definition": "skip_loop",
  "desc": "Pb: '<?' -> '<=?' (auto)",
  "breaks": [],
  "mod": "Pb",
  "id": "w0_165"
 },
 {
  "edits": [
   [
    "Told.v",
    "| None => done 2 []\n ",
    "| None => done 3 []\n "
   ]
  ],
  "definition": "verify_told",
  "desc": "Told: '2' -> '3' (auto)",
  "breaks": [],
  "mod": "Told",
  "id": "w0_166"
 },
 {
  "edits": [
   [
    "GoIO.v",
    "      let a := take k buf",
    "      let a := drop k buf"
   ]
  ],
  "definition": "fullwrite_loop",
  "desc": "GoIO: 'take' -> 'drop' (auto)",
  "breaks": [],
  "mod": "GoIO",
  "id": "w0_167"
 },
 {
  "edits": [
   [
    "Sign.v",
    "++ be64",
    "++ []"
   ]
  ],
  "definition": "file_cksum",
  "desc": "Sign: '++ be64' -> '++ []' (auto)",
  "breaks": [],
  "mod": "Sign",
  "id": "w0_168"
 },
 {
  "edits": [
   [
    "Decrypt.v",
    "aead_nonce_size + aes_k",
    "aead_nonce_size - aes_k"
   ]
  ],
  "definition": "verify_sender",
  "desc": "Decrypt: '+' -> '-' (auto)",
  "breaks": [],
  "mod": "Decrypt",
  "id": "w0_169"
 },
 {
  "edits": [
   [
    "Cli.v",
    "if quiet ",
    "if negb (quiet) "
   ]
  ],
  "definition": "cli_verify_cmd",
  "desc": "Cli: 'if quiet' -> 'if negb (quiet)' (auto)",
  "breaks": [],
  "mod": "Cli",
  "id": "w0_170"
 },
 {
  "edits": [
   [
    "GoIO.v",
    " rng_bytes t (p + 1) n' ",
    " rng_bytes t (p + 2) n' "
   ]
  ],
  "definition": "rng_bytes",
  "desc": "GoIO: '+ 1' -> '+ 2' (auto)",
  "breaks": [],
  "mod": "GoIO",
  "id": "w0_171"
 },
 {
  "edits": [
   [
    "Race.v",
    "32 b | None => 0 end)",
    "32 b | None => 1 end)"
   ]
  ],
  "definition": "words_pk",
  "desc": "Race: '0' -> '1' (auto)",
  "breaks": [],
  "mod": "Race",
  "id": "w0_172"
 },
 {
  "edits": [
   [
    "Pb.v",
    "if len a <=? size_header m ",
    "if negb (len a <=? size_header m) "
   ]
  ],
  "definition": "marshal_to",
  "desc": "Pb: 'if len a <=? size_header m' -> 'if negb (len a <=? size_header m)' (auto)",
  "breaks": [],
  "mod": "Pb",
  "id": "w0_173"
 },
 {
  "edits": [
   [
    "Pb.v",
    "t : Z) : res Z :=\n  match fuel with\n  | O => Panic \"varint: out of fuel\"\n  | S f =>\n      if 64 <=? shift then Fail (EMsg \"proto: intege",
    "t : Z) : res Z :=\n  match fuel with\n  | O => Panic \"varint: out of fuel\"\n  | S f =>\n      if negb (64 <=? shift) then Fail (EMsg \"proto: intege"
   ]
  ],
  "definition": "skip_varint",
  "desc": "Pb: 'if 64 <=? shift' -> 'if negb (64 <=? shift)' (auto)",
  "breaks": [],
  "mod": "Pb",
  "id": "w0_174"
 },
 {
  "edits": [
   [
    "Flags.v",
    ") true; fl \"no-password\" None true; fl \"comm",
    ") true; fl \"no-password\" None false; fl \"comm"
   ]
  ],
  "definition": "gen_flags",
  "desc": "Flags: 'true' -> 'false' (auto)",
  "breaks": [],
  "mod": "Flags",
  "id": "w0_175"
 },
 {
  "edits": [
   [
    "Told.v",
    "          if 0 <? errs",
    "          if 0 <=? errs"
   ]
  ],
  "definition": "enc_body_told",
  "desc": "Told: '<?' -> '<=?' (auto)",
  "breaks": [],
  "mod": "Told",
  "id": "w0_176"
 },
 {
  "edits": [
   [
    "KeyFiles.v",
    "(su_pk spk) =? 0 then",
    "(su_pk spk) =? 1 then"
   ]
  ],
  "definition": "unmarshal_public",
  "desc": "KeyFiles: '0' -> '1' (auto)",
  "breaks": [],
  "mod": "KeyFiles",
  "id": "w0_177"
 },
 {
  "edits": [
   [
    "Ssh.v",
    "if len inp <? 4 ",
    "if negb (len inp <? 4) "
   ]
  ],
  "definition": "parse_string",
  "desc": "Ssh: 'if len inp <? 4' -> 'if negb (len inp <? 4)' (auto)",
  "breaks": [],
  "mod": "Ssh",
  "id": "w0_178"
 },
 {
  "edits": [
   [
    "Pb.v",
    "ield (w_dkey m) + size_",
    "ield (w_dkey m) - size_"
   ]
  ],
  "definition": "size_wkey",
  "desc": "Pb: '+' -> '-' (auto)",
  "breaks": [],
  "mod": "Pb",
  "id": "w0_179"
 },
 {
  "edits": [
   [
    "Told.v",
    "s' e g (errs + 1) in ",
    "s' e g (errs + 2) in "
   ]
  ],
  "definition": "recipients_told",
  "desc": "Told: '1' -> '2' (auto)",
  "breaks": [],
  "mod": "Told",
  "id": "w0_180"
 },
 {
  "edits": [
   [
    "Crypto.v",
    "Z.quot max_int 128) p <",
    "Z.quot max_int 129) p <"
   ]
  ],
  "definition": "scrypt_key",
  "desc": "Crypto: '128' -> '129' (auto)",
  "breaks": [],
  "mod": "Crypto",
  "id": "w0_181"
 },
 {
  "edits": [
   [
    "Flags.v",
    "if negb (Byte.eqb c x2d) ",
    "if negb (negb (Byte.eqb c x2d)) "
   ]
  ],
  "definition": "parse_args",
  "desc": "Flags: 'if negb (Byte.eqb c x2d)' -> 'if negb (negb (Byte.eqb c x2d))' (auto)",
  "breaks": [],
  "mod": "Flags",
  "id": "w0_182"
 },
 {
  "edits": [
   [
    "Debug.v",
    "<=?",
    "<?"
   ]
  ],
  "definition": "debug",
  "desc": "Debug: '<=?' -> '<?' (auto)",
  "breaks": [],
  "mod": "Debug",
  "id": "w0_183"
 },
 {
  "edits": [
   [
    "Main.v",
    "65",
    "66"
   ]
  ],
  "definition": "to_lower",
  "desc": "Main: '65' -> '66' (auto)",
  "breaks": [],
  "mod": "Main",
  "id": "w0_184"
 },
 {
  "edits": [
   [
    "Keys.v",
    "if negb (len buf =? 64) ",
    "if negb (negb (len buf =? 64)) "
   ]
  ],
  "definition": "make_private_from_bytes",
  "desc": "Keys: 'if negb (len buf =? 64)' -> 'if negb (negb (len buf =? 64))' (auto)",
  "breaks": [],
  "mod": "Keys",
  "id": "w0_185"
 },
 {
  "edits": [
   [
    "Encrypt.v",
    " if blksize =? 0 then",
    " if blksize =? 1 then"
   ]
  ],
  "definition": "block_size",
  "desc": "Encrypt: '0' -> '1' (auto)",
  "breaks": [],
  "mod": "Encrypt",
  "id": "w0_186"
 },
 {
  "edits": [
   [
    "Keys.v",
    "ne =>\n      if 32 <? l",
    "ne =>\n      if 33 <? l"
   ]
  ],
  "definition": "to_curve_pk",
  "desc": "Keys: '32' -> '33' (auto)",
  "breaks": [],
  "mod": "Keys",
  "id": "w0_187"
 },
 {
  "edits": [
   [
    "Keys.v",
    "if b =? 0 ",
    "if negb (b =? 0) "
   ]
  ],
  "definition": "egcd",
  "desc": "Keys: 'if b =? 0' -> 'if negb (b =? 0)' (auto)",
  "breaks": [],
  "mod": "Keys",
  "id": "w0_188"
 },
 {
  "edits": [
   [
    "Cli.v",
    "ch e with EExt 2 => t",
    "ch e with EExt 3 => t"
   ]
  ],
  "definition": "not_exist",
  "desc": "Cli: '2' -> '3' (auto)",
  "breaks": [],
  "mod": "Cli",
  "id": "w0_189"
 },
 {
  "edits": [
   [
    "Debug.v",
    "e then [] else if e_started e then ",
    "e then [] else if negb (e_started e) then "
   ]
  ],
  "definition": "estep_debug",
  "desc": "Debug: 'if e_started e' -> 'if negb (e_started e)' (auto)",
  "breaks": [],
  "mod": "Debug",
  "id": "w0_190"
 },
 {
  "edits": [
   [
    "Fs.v",
    " - ",
    " + "
   ]
  ],
  "definition": "write_failed",
  "desc": "Fs: '-' -> '+' (auto)",
  "breaks": [],
  "mod": "Fs",
  "id": "w0_191"
 },
 {
  "edits": [
   [
    "Pb.v",
    "if len d <? pre + skipp",
    "if len d <? pre - skipp"
   ]
  ],
  "definition": "get_unknown",
  "desc": "Pb: '+' -> '-' (auto)",
  "breaks": [],
  "mod": "Pb",
  "id": "w0_192"
 },
 {
  "edits": [
   [
    "Crypto.v",
    "int : Z := 2^63 - 1.\nDef",
    "int : Z := 2^63 - 0.\nDef"
   ]
  ],
  "definition": "max_int",
  "desc": "Crypto: '- 1' -> '- 0' (auto)",
  "breaks": [],
  "mod": "Crypto",
  "id": "w0_193"
 },
 {
  "edits": [
   [
    "KeyFiles.v",
    "++ zeros",
    "++ []"
   ]
  ],
  "definition": "unmarshal_private",
  "desc": "KeyFiles: '++ zeros' -> '++ []' (auto)",
  "breaks": [],
  "mod": "KeyFiles",
  "id": "w0_194"
 },
 {
  "edits": [
   [
    "Encrypt.v",
    "++ key",
    "++ []"
   ]
  ],
  "definition": "sender_cksum",
  "desc": "Encrypt: '++ key' -> '++ []' (auto)",
  "breaks": [],
  "mod": "Encrypt",
  "id": "w0_195"
 },
 {
  "edits": [
   [
    "Stream.v",
    "uf =? max) && (0 <? l",
    "uf =? max) && (1 <? l"
   ]
  ],
  "definition": "ew_loop",
  "desc": "Stream: '0' -> '1' (auto)",
  "breaks": [],
  "mod": "Stream",
  "id": "w0_196"
 },
 {
  "edits": [
   [
    "Base64.v",
    "if negb (Byte.eqb c x3d) ",
    "if negb (negb (Byte.eqb c x3d)) "
   ]
  ],
  "definition": "b64_dec",
  "desc": "Base64: 'if negb (Byte.eqb c x3d)' -> 'if negb (negb (Byte.eqb c x3d))' (auto)",
  "breaks": [],
  "mod": "Base64",
  "id": "w0_197"
 },
 {
  "edits": [
   [
    "Race.v",
    "  | Some _ => Load (PkCache k 0) (fun c' ",
    "  | Some _ => Load (PkCache k 1) (fun c' "
   ]
  ],
  "definition": "conv_pk",
  "desc": "Race: '0' -> '1' (auto)",
  "breaks": [],
  "mod": "Race",
  "id": "w0_198"
 },
 {
  "edits": [
   [
    "Stream.v",
    "32 (er_blk s + 1)) No",
    "32 (er_blk s + 2)) No"
   ]
  ],
  "definition": "er_read",
  "desc": "Stream: '1' -> '2' (auto)",
  "breaks": [],
  "mod": "Stream",
  "id": "w0_199"
 },
 {
  "edits": [
   [
    "Pb.v",
    "=\n  get_varint 11 bits",
    "=\n  get_varint 12 bits"
   ]
  ],
  "definition": "varint_at",
  "desc": "Pb: '11' -> '12' (auto)",
  "breaks": [],
  "mod": "Pb",
  "id": "w0_200"
 },
 {
  "edits": [
   [
    "Fs.v",
    "64",
    "65"
   ]
  ],
  "definition": "oct",
  "desc": "Fs: '64' -> '65' (auto)",
  "breaks": [],
  "mod": "Fs",
  "id": "w0_201"
 },
 {
  "edits": [
   [
    "Ssh.v",
    "if 0 <? len rest ",
    "if negb (0 <? len rest) "
   ]
  ],
  "definition": "parse_enc_pubkey",
  "desc": "Ssh: 'if 0 <? len rest' -> 'if negb (0 <? len rest)' (auto)",
  "breaks": [],
  "mod": "Ssh",
  "id": "w0_202"
 },
 {
  "edits": [
   [
    "Pb.v",
    ";\n        if fieldNum =? 1 then\n          if negb (wireType =? 2) ",
    ";\n        if fieldNum =? 1 then\n          if id (wireType =? 2) "
   ]
  ],
  "definition": "unmarshal_wkey_loop",
  "desc": "Pb: 'negb (' -> 'id (' (auto)",
  "breaks": [],
  "mod": "Pb",
  "id": "w0_203"
 },
 {
  "edits": [
   [
    "Keys.v",
    "t g := if g <? 0 then",
    "t g := if g <? 1 then"
   ]
  ],
  "definition": "mod_inverse",
  "desc": "Keys: '0' -> '1' (auto)",
  "breaks": [],
  "mod": "Keys",
  "id": "w0_204"
 },
 {
  "edits": [
   [
    "Fs.v",
    "negb (",
    "id ("
   ]
  ],
  "definition": "sf_ops",
  "desc": "Fs: 'negb (' -> 'id (' (auto)",
  "breaks": [],
  "mod": "Fs",
  "id": "w0_205"
 },
 {
  "edits": [
   [
    "Encrypt.v",
    "    let kek := take aes_k",
    "    let kek := drop aes_k"
   ]
  ],
  "definition": "wrap_key",
  "desc": "Encrypt: 'take' -> 'drop' (auto)",
  "breaks": [],
  "mod": "Encrypt",
  "id": "w0_206"
 },
 {
  "edits": [
   [
    "Told.v",
    "_, w, r) => (code_of r, w, ms ++ die_err T r)\n    ",
    "_, w, r) => (code_of r, w, ms ++ [] T r)\n    "
   ]
  ],
  "definition": "dec_body_told",
  "desc": "Told: '++ die_err' -> '++ []' (auto)",
  "breaks": [],
  "mod": "Told",
  "id": "w0_207"
 },
 {
  "edits": [
   [
    "Cli.v",
    ", _, Ok _) => (0, snd",
    ", _, Ok _) => (1, snd"
   ]
  ],
  "definition": "enc_body",
  "desc": "Cli: '0' -> '1' (auto)",
  "breaks": [],
  "mod": "Cli",
  "id": "w0_208"
 },
 {
  "edits": [
   [
    "Store.v",
    "_file v (oct 6 0 0) f",
    "_file v (oct 6 1 0) f"
   ]
  ],
  "definition": "serialize_private",
  "desc": "Store: '0' -> '1' (auto)",
  "breaks": [],
  "mod": "Store",
  "id": "w0_209"
 },
 {
  "edits": [
   [
    "GoIO.v",
    "if 0 <? len b ",
    "if negb (0 <? len b) "
   ]
  ],
  "definition": "read_full",
  "desc": "GoIO: 'if 0 <? len b' -> 'if negb (0 <? len b)' (auto)",
  "breaks": [],
  "mod": "GoIO",
  "id": "w0_210"
 },
 {
  "edits": [
   [
    "Store.v",
    "t : bytes) (overwrite : bool)\n  : list fop * res unit := write_file v (oct 6 4 4) f dst (marshal_sign",
    "t : bytes) (overwrite : bool)\n  : list fop * res unit := write_file v (oct 7 4 4) f dst (marshal_sign"
   ]
  ],
  "definition": "serialize_signature",
  "desc": "Store: '6' -> '7' (auto)",
  "breaks": [],
  "mod": "Store",
  "id": "w0_211"
 },
 {
  "edits": [
   [
    "Pb.v",
    "st := i64 (idx1 + byteL",
    "st := i64 (idx1 - byteL"
   ]
  ],
  "definition": "get_bytes",
  "desc": "Pb: '+' -> '-' (auto)",
  "breaks": [],
  "mod": "Pb",
  "id": "w0_212"
 },
 {
  "edits": [
   [
    "KeyFiles.v",
    "th Some i => 0 <? i | ",
    "th Some i => 0 <=? i | "
   ]
  ],
  "definition": "looks_openssh",
  "desc": "KeyFiles: '<?' -> '<=?' (auto)",
  "breaks": [],
  "mod": "KeyFiles",
  "id": "w0_213"
 },
 {
  "edits": [
   [
    "Decrypt.v",
    "    let buf := drop aead_",
    "    let buf := take aead_"
   ]
  ],
  "definition": "set_private_key",
  "desc": "Decrypt: 'drop' -> 'take' (auto)",
  "breaks": [],
  "mod": "Decrypt",
  "id": "w0_214"
 },
 {
  "edits": [
   [
    "GoIO.v",
    "<=?",
    "<?"
   ]
  ],
  "definition": "read_loop",
  "desc": "GoIO: '<=?' -> '<?' (auto)",
  "breaks": [],
  "mod": "GoIO",
  "id": "w0_215"
 },
 {
  "edits": [
   [
    "Race.v",
    " C (sha256_size + aes_k",
    " C (sha256_size - aes_k"
   ]
  ],
  "definition": "set_rest",
  "desc": "Race: '+' -> '-' (auto)",
  "breaks": [],
  "mod": "Race",
  "id": "w0_216"
 },
 {
  "edits": [
   [
    "Ssh.v",
    "  | Some e => (take e inp",
    "  | Some e => (drop e inp"
   ]
  ],
  "definition": "auth_loop",
  "desc": "Ssh: 'take' -> 'drop' (auto)",
  "breaks": [],
  "mod": "Ssh",
  "id": "w0_217"
 },
 {
  "edits": [
   [
    "Base64.v",
    "if Byte.eqb x c ",
    "if negb (Byte.eqb x c) "
   ]
  ],
  "definition": "index_of",
  "desc": "Base64: 'if Byte.eqb x c' -> 'if negb (Byte.eqb x c)' (auto)",
  "breaks": [],
  "mod": "Base64",
  "id": "w0_218"
 },
 {
  "edits": [
   [
    "Keys.v",
    "et c := clamp (take 32 (s",
    "et c := clamp (drop 32 (s"
   ]
  ],
  "definition": "to_curve_sk",
  "desc": "Keys: 'take' -> 'drop' (auto)",
  "breaks": [],
  "mod": "Keys",
  "id": "w0_219"
 },
 {
  "edits": [
   [
    "Encrypt.v",
    "   let dkey := take aes_k",
    "   let dkey := drop aes_k"
   ]
  ],
  "definition": "enc_start",
  "desc": "Encrypt: 'take' -> 'drop' (auto)",
  "breaks": [],
  "mod": "Encrypt",
  "id": "w0_220"
 },
 {
  "edits": [
   [
    "Flags.v",
    ") true; fl \"no-password\" None true; fl \"env-",
    ") true; fl \"no-password\" None false; fl \"env-"
   ]
  ],
  "definition": "sign_flags",
  "desc": "Flags: 'true' -> 'false' (auto)",
  "breaks": [],
  "mod": "Flags",
  "id": "w0_221"
 },
 {
  "edits": [
   [
    "Keys.v",
    "(Z.lor (b2z b) 64)) k.",
    "(Z.lor (b2z b) 65)) k."
   ]
  ],
  "definition": "clamp",
  "desc": "Keys: '64' -> '65' (auto)",
  "breaks": [],
  "mod": "Keys",
  "id": "w0_222"
 },
 {
  "edits": [
   [
    "Stream.v",
    "ke (er_len s) (drop (er_o",
    "ke (er_len s) (take (er_o"
   ]
  ],
  "definition": "er_keep",
  "desc": "Stream: 'drop' -> 'take' (auto)",
  "breaks": [],
  "mod": "Stream",
  "id": "w0_223"
 },
 {
  "edits": [
   [
    "KeyFiles.v",
    ": Z := len s / 4 * 3 ",
    ": Z := len s / 5 * 3 "
   ]
  ],
  "definition": "b64_spare",
  "desc": "KeyFiles: '4' -> '5' (auto)",
  "breaks": [],
  "mod": "KeyFiles",
  "id": "w0_224"
 },
 {
  "edits": [
   [
    "Encrypt.v",
    "be32 i ++ drop 4 n.\n\n",
    "be32 i ++ drop 5 n.\n\n"
   ]
  ],
  "definition": "chunk_nonce",
  "desc": "Encrypt: '4' -> '5' (auto)",
  "breaks": [],
  "mod": "Encrypt",
  "id": "w0_225"
 },
 {
  "edits": [
   [
    "Pb.v",
    "t (size_wkey k) + size_",
    "t (size_wkey k) - size_"
   ]
  ],
  "definition": "size_keys",
  "desc": "Pb: '+' -> '-' (auto)",
  "breaks": [],
  "mod": "Pb",
  "id": "w0_226"
 },
 {
  "edits": [
   [
    "Pb.v",
    "127) shift mod 2 ^ bi",
    "127) shift mod 3 ^ bi"
   ]
  ],
  "definition": "get_varint",
  "desc": "Pb: '2' -> '3' (auto)",
  "breaks": [],
  "mod": "Pb",
  "id": "w0_227"
 },
 {
  "edits": [
   [
    "Flags.v",
    ":=\n  [fl \"outfile\" (Some x6f) false; fl \"sign",
    ":=\n  [fl \"outfile\" (Some x6f) true; fl \"sign"
   ]
  ],
  "definition": "enc_flags",
  "desc": "Flags: 'false' -> 'true' (auto)",
  "breaks": [],
  "mod": "Flags",
  "id": "w0_228"
 },
 {
  "edits": [
   [
    "Flags.v",
    "ssword\") []) (get_bool s (str \"no-password\") false) (get_bool s (",
    "ssword\") []) (get_bool s (str \"no-password\") true) (get_bool s ("
   ]
  ],
  "definition": "declared",
  "desc": "Flags: 'false' -> 'true' (auto)",
  "breaks": [],
  "mod": "Flags",
  "id": "w0_229"
 },
 {
  "edits": [
   [
    "Encrypt.v",
    " sk auth false false)\n   ",
    " sk auth false true)\n   "
   ]
  ],
  "definition": "new_encryptor",
  "desc": "Encrypt: 'false' -> 'true' (auto)",
  "breaks": [],
  "mod": "Encrypt",
  "id": "w0_230"
 },
 {
  "edits": [
   [
    "Ssh.v",
    "with Some e => take e inp",
    "with Some e => drop e inp"
   ]
  ],
  "definition": "auth_line",
  "desc": "Ssh: 'take' -> 'drop' (auto)",
  "breaks": [],
  "mod": "Ssh",
  "id": "w0_231"
 },
 {
  "edits": [
   [
    "Bytes.v",
    "n [] else x :: take (n - ",
    "n [] else x :: drop (n - "
   ]
  ],
  "definition": "take",
  "desc": "Bytes: 'take' -> 'drop' (auto)",
  "breaks": [],
  "mod": "Bytes",
  "id": "w0_232"
 },
 {
  "edits": [
   [
    "Decrypt.v",
    "if d_stream d ",
    "if negb (d_stream d) "
   ]
  ],
  "definition": "decrypt",
  "desc": "Decrypt: 'if d_stream d' -> 'if negb (d_stream d)' (auto)",
  "breaks": [],
  "mod": "Decrypt",
  "id": "w0_233"
 },
 {
  "edits": [
   [
    "Pb.v",
    ".lor (Z.land v 127) 128",
    ".lor (Z.land v 128) 128"
   ]
  ],
  "definition": "put_varint",
  "desc": "Pb: '127' -> '128' (auto)",
  "breaks": [],
  "mod": "Pb",
  "id": "w0_234"
 },
 {
  "edits": [
   [
    "Decrypt.v",
    "ze buf in\n       let nonce := drop aes_key_si",
    "ze buf in\n       let nonce := take aes_key_si"
   ]
  ],
  "definition": "unwrap_key",
  "desc": "Decrypt: 'drop' -> 'take' (auto)",
  "breaks": [],
  "mod": "Decrypt",
  "id": "w0_235"
 },
 {
  "edits": [
   [
    "Told.v",
    "t 6 4 4) outf (negb (beq o",
    "t 6 4 4) outf (id (beq o"
   ]
  ],
  "definition": "sign_told",
  "desc": "Told: 'negb (' -> 'id (' (auto)",
  "breaks": [],
  "mod": "Told",
  "id": "w0_236"
 },
 {
  "edits": [
   [
    "Cli.v",
    "0 <? len o) && negb (beq o",
    "0 <? len o) && id (beq o"
   ]
  ],
  "definition": "names_file",
  "desc": "Cli: 'negb (' -> 'id (' (auto)",
  "breaks": [],
  "mod": "Cli",
  "id": "w0_237"
 },
 {
  "edits": [
   [
    "Decrypt.v",
    "=> (d', Ok (m, true))\n  ",
    "=> (d', Ok (m, false))\n  "
   ]
  ],
  "definition": "process_trailer",
  "desc": "Decrypt: 'true' -> 'false' (auto)",
  "breaks": [],
  "mod": "Decrypt",
  "id": "w0_238"
 },
 {
  "edits": [
   [
    "Decrypt.v",
    "with\n  | [] => true\n  | ",
    "with\n  | [] => false\n  | "
   ]
  ],
  "definition": "wkeys_sane",
  "desc": "Decrypt: 'true' -> 'false' (auto)",
  "breaks": [],
  "mod": "Decrypt",
  "id": "w0_239"
 },
 {
  "edits": [
   [
    "Decrypt.v",
    " + 1",
    " + 2"
   ]
  ],
  "definition": "dec_loop",
  "desc": "Decrypt: '+ 1' -> '+ 2' (auto)",
  "breaks": [],
  "mod": "Decrypt",
  "id": "w0_240"
 },
 {
  "edits": [
   [
    "Ssh.v",
    "salt =? 0) || (2^20 <",
    "salt =? 0) || (3^20 <"
   ]
  ],
  "definition": "bcrypt_key",
  "desc": "Ssh: '2' -> '3' (auto)",
  "breaks": [],
  "mod": "Ssh",
  "id": "w0_241"
 },
 {
  "edits": [
   [
    "Crypto.v",
    "d n (n - 1) =? 0.\nDef",
    "d n (n - 1) =? 1.\nDef"
   ]
  ],
  "definition": "is_pow2",
  "desc": "Crypto: '0' -> '1' (auto)",
  "breaks": [],
  "mod": "Crypto",
  "id": "w0_242"
 },
 {
  "edits": [
   [
    "GoIO.v",
    " =>\n      if n <? len ",
    " =>\n      if n <=? len "
   ]
  ],
  "definition": "rd_read",
  "desc": "GoIO: '<?' -> '<=?' (auto)",
  "breaks": [],
  "mod": "GoIO",
  "id": "w0_243"
 },
 {
  "edits": [
   [
    "Bytes.v",
    " 0 then l else drop (n - ",
    " 0 then l else take (n - "
   ]
  ],
  "definition": "drop",
  "desc": "Bytes: 'drop' -> 'take' (auto)",
  "breaks": [],
  "mod": "Bytes",
  "id": "w0_244"
 },
 {
  "edits": [
   [
    "Fs.v",
    "if overwrite ",
    "if negb (overwrite) "
   ]
  ],
  "definition": "safe_open",
  "desc": "Fs: 'if overwrite' -> 'if negb (overwrite)' (auto)",
  "breaks": [],
  "mod": "Fs",
  "id": "w0_245"
 },
 {
  "edits": [
   [
    "Base64.v",
    "z :: b' => let v := b2z x * 2^16 + b2z y *",
    "z :: b' => let v := b2z x * 2^17 + b2z y *"
   ]
  ],
  "definition": "b64_encode",
  "desc": "Base64: '16' -> '17' (auto)",
  "breaks": [],
  "mod": "Base64",
  "id": "w0_246"
 },
 {
  "edits": [
   [
    "Pb.v",
    "r) : res header :=\n  if len d <=? idx then ",
    "r) : res header :=\n  if len d <? idx then "
   ]
  ],
  "definition": "unmarshal_header_loop",
  "desc": "Pb: '<=?' -> '<?' (auto)",
  "breaks": [],
  "mod": "Pb",
  "id": "w0_247"
 },
 {
  "edits": [
   [
    "Main.v",
    "if mo_version o ",
    "if negb (mo_version o) "
   ]
  ],
  "definition": "main",
  "desc": "Main: 'if mo_version o' -> 'if negb (mo_version o)' (auto)",
  "breaks": [],
  "mod": "Main",
  "id": "w0_248"
 },
 {
  "edits": [
   [
    "Race.v",
    " =>\n      draw 32 (fun",
    " =>\n      draw 33 (fun"
   ]
  ],
  "definition": "call_prog",
  "desc": "Race: '32' -> '33' (auto)",
  "breaks": [],
  "mod": "Race",
  "id": "w0_249"
 },
 {
  "edits": [
   [
    "Cli.v",
    "th Some i => 0 <? i | ",
    "th Some i => 0 <=? i | "
   ]
  ],
  "definition": "is_user",
  "desc": "Cli: '<?' -> '<=?' (auto)",
  "breaks": [],
  "mod": "Cli",
  "id": "w0_250"
 },
 {
  "edits": [
   [
    "Pb.v",
    " : Z :=\n  if 0 <? len ",
    " : Z :=\n  if 0 <=? len "
   ]
  ],
  "definition": "size_field",
  "desc": "Pb: '<?' -> '<=?' (auto)",
  "breaks": [],
  "mod": "Pb",
  "id": "w0_251"
 },
 {
  "edits": [
   [
    "Usage.v",
    "=> if get_bool s (str \"help\") false then l el",
    "=> if get_bool s (str \"help\") true then l el"
   ]
  ],
  "definition": "command_texts",
  "desc": "Usage: 'false' -> 'true' (auto)",
  "breaks": [],
  "mod": "Usage",
  "id": "w0_252"
 },
 {
  "edits": [
   [
    "Cli.v",
    "  | Ok blk =>\n      match (if 0 <? len (e",
    "  | Ok blk =>\n      match (if 1 <? len (e"
   ]
  ],
  "definition": "cli_encrypt",
  "desc": "Cli: '0' -> '1' (auto)",
  "breaks": [],
  "mod": "Cli",
  "id": "w0_253"
 },
 {
  "edits": [
   [
    "Cli.v",
    "d\n  | _ => die 1\n  en",
    "d\n  | _ => die 2\n  en"
   ]
  ],
  "definition": "verify_with",
  "desc": "Cli: '1' -> '2' (auto)",
  "breaks": [],
  "mod": "Cli",
  "id": "w0_254"
 },
 {
  "edits": [
   [
    "Bytes.v",
    " l' => b2z b + 256 * un",
    " l' => b2z b + 257 * un"
   ]
  ],
  "definition": "unle",
  "desc": "Bytes: '256' -> '257' (auto)",
  "breaks": [],
  "mod": "Bytes",
  "id": "w0_255"
 },
 {
  "edits": [
   [
    "Cli.v",
    "let outf := if 0 <? l",
    "let outf := if 1 <? l"
   ]
  ],
  "definition": "cli_sign",
  "desc": "Cli: '0' -> '1' (auto)",
  "breaks": [],
  "mod": "Cli",
  "id": "w0_256"
 },
 {
  "edits": [
   [
    "Stream.v",
    "2 * length b + 2) e w",
    "2 * length b + 3) e w"
   ]
  ],
  "definition": "ew_write",
  "desc": "Stream: '2' -> '3' (auto)",
  "breaks": [],
  "mod": "Stream",
  "id": "w0_257"
 },
 {
  "edits": [
   [
    "Pb.v",
    "nt (h_chunk m) ++ a.\n\n(*",
    "nt (h_chunk m) ++ [].\n\n(*"
   ]
  ],
  "definition": "marshal_fields",
  "desc": "Pb: '++ a' -> '++ []' (auto)",
  "breaks": [],
  "mod": "Pb",
  "id": "w0_258"
 },
 {
  "edits": [
   [
    "Ssh.v",
    " rounds ;; Ok (take 16 (d",
    " rounds ;; Ok (drop 16 (d"
   ]
  ],
  "definition": "extract_bcrypt",
  "desc": "Ssh: 'take' -> 'drop' (auto)",
  "breaks": [],
  "mod": "Ssh",
  "id": "w0_259"
 },
 {
  "edits": [
   [
    "Told.v",
    "if mo_version o ",
    "if negb (mo_version o) "
   ]
  ],
  "definition": "main_told",
  "desc": "Told: 'if mo_version o' -> 'if negb (mo_version o)' (auto)",
  "breaks": [],
  "mod": "Told",
  "id": "w0_260"
 },
 {
  "edits": [
   [
    "GoIO.v",
    "cs (w_nclosed w + 1))\n ",
    "cs (w_nclosed w - 1))\n "
   ]
  ],
  "definition": "w_close",
  "desc": "GoIO: '+' -> '-' (auto)",
  "breaks": [],
  "mod": "GoIO",
  "id": "w0_261"
 },
 {
  "edits": [
   [
    "Debug.v",
    " \"hdr-cksum: \" ++ hex cksu",
    " \"hdr-cksum: \" ++ [] cksu"
   ]
  ],
  "definition": "debug_text",
  "desc": "Debug: '++ hex' -> '++ []' (auto)",
  "breaks": [],
  "mod": "Debug",
  "id": "w0_262"
 },
 {
  "edits": [
   [
    "Crypto.v",
    "if len sig =? 64 ",
    "if negb (len sig =? 64) "
   ]
  ],
  "definition": "Ed_Verify",
  "desc": "Crypto: 'if len sig =? 64' -> 'if negb (len sig =? 64)' (auto)",
  "breaks": [],
  "mod": "Crypto",
  "id": "w0_263"
 },
 {
  "edits": [
   [
    "Cli.v",
    "1 | Panic _ => 2 end.",
    "1 | Panic _ => 3 end."
   ]
  ],
  "definition": "code_of",
  "desc": "Cli: '2' -> '3' (auto)",
  "breaks": [],
  "mod": "Cli",
  "id": "w0_264"
 },
 {
  "edits": [
   [
    "Bytes.v",
    ": _ => b2z a * 2^24 +",
    ": _ => b2z a * 3^24 +"
   ]
  ],
  "definition": "unbe32",
  "desc": "Bytes: '2' -> '3' (auto)",
  "breaks": [],
  "mod": "Bytes",
  "id": "w0_265"
 },
 {
  "edits": [
   [
    "Pb.v",
    ".log2 (Z.lor x 1) + 1",
    ".log2 (Z.lor x 2) + 1"
   ]
  ],
  "definition": "size_varint",
  "desc": "Pb: '1' -> '2' (auto)",
  "breaks": [],
  "mod": "Pb",
  "id": "w0_266"
 },
 {
  "edits": [
   [
    "Keys.v",
    "rve_p : Z := 2^255 - 19",
    "rve_p : Z := 2^256 - 19"
   ]
  ],
  "definition": "curve_p",
  "desc": "Keys: '255' -> '256' (auto)",
  "breaks": [],
  "mod": "Keys",
  "id": "w0_267"
 },
 {
  "edits": [
   [
    "Told.v",
    "if negb (ge_force o) && (exists_ W pkn || exists_ W skn)\n      ",
    "if negb (negb (ge_force o) && (exists_ W pkn || exists_ W skn)) "
   ]
  ],
  "definition": "generate_told",
  "desc": "Told: 'if negb (ge_force o) && (exists_ W pkn || exists_ W skn)' -> 'if negb (negb (ge_force o) && (exists_ W pkn || exists_ W skn))' (auto)",
  "breaks": [],
  "mod": "Told",
  "id": "w0_268"
 },
 {
  "edits": [
   [
    "Debug.v",
    "if d <? 10 ",
    "if negb (d <? 10) "
   ]
  ],
  "definition": "hex_digit",
  "desc": "Debug: 'if d <? 10' -> 'if negb (d <? 10)' (auto)",
  "breaks": [],
  "mod": "Debug",
  "id": "w0_269"
 },
 {
  "edits": [
   [
    "KeyFiles.v",
    " bytes := if z =? 0 then",
    " bytes := if z =? 1 then"
   ]
  ],
  "definition": "y_optint",
  "desc": "KeyFiles: '=? 0' -> '=? 1' (auto)",
  "breaks": [],
  "mod": "KeyFiles",
  "id": "w0_270"
 },
 {
  "edits": [
   [
    "Bytes.v",
    ":=\n  [z2b (z / 2^24);",
    ":=\n  [z2b (z / 3^24);"
   ]
  ],
  "definition": "be32",
  "desc": "Bytes: '2' -> '3' (auto)",
  "breaks": [],
  "mod": "Bytes",
  "id": "w0_271"
 },
 {
  "edits": [
   [
    "Keys.v",
    "EndianY := upd 0 (fun",
    "EndianY := upd 1 (fun"
   ]
  ],
  "definition": "curve_of",
  "desc": "Keys: '0' -> '1' (auto)",
  "breaks": [],
  "mod": "Keys",
  "id": "w0_272"
 },
 {
  "edits": [
   [
    "Stream.v",
    "ome _ =>\n      if d_eof d then ",
    "ome _ =>\n      if negb (d_eof d) then "
   ]
  ],
  "definition": "new_stream_reader",
  "desc": "Stream: 'if d_eof d' -> 'if negb (d_eof d)' (auto)",
  "breaks": [],
  "mod": "Stream",
  "id": "w0_273"
 },
 {
  "edits": [
   [
    "Cli.v",
    "if 0 <? len envpw ",
    "if negb (0 <? len envpw) "
   ]
  ],
  "definition": "get_pass",
  "desc": "Cli: 'if 0 <? len envpw' -> 'if negb (0 <? len envpw)' (auto)",
  "breaks": [],
  "mod": "Cli",
  "id": "w0_274"
 },
 {
  "edits": [
   [
    "Told.v",
    "k sk =>\n          match (if 0 <? len (do_p",
    "k sk =>\n          match (if 0 <=? len (do_p"
   ]
  ],
  "definition": "decrypt_told",
  "desc": "Told: '<?' -> '<=?' (auto)",
  "breaks": [],
  "mod": "Told",
  "id": "w0_275"
 },
 {
  "edits": [
   [
    "Encrypt.v",
    " r w (u32 (i + 1)) g\n",
    " r w (u32 (i + 2)) g\n"
   ]
  ],
  "definition": "enc_loop",
  "desc": "Encrypt: '1' -> '2' (auto)",
  "breaks": [],
  "mod": "Encrypt",
  "id": "w0_276"
 },
 {
  "edits": [
   [
    "Pb.v",
    "t (len b) ++ b ++ acc else",
    "t (len b) ++ b ++ [] else"
   ]
  ],
  "definition": "push_field",
  "desc": "Pb: '++ acc' -> '++ []' (auto)",
  "breaks": [],
  "mod": "Pb",
  "id": "w0_277"
 },
 {
  "edits": [
   [
    "Ssh.v",
    "   if negb inq && is_b",
    "   if negb inq || is_b"
   ]
  ],
  "definition": "opt_end",
  "desc": "Ssh: '&&' -> '||' (auto)",
  "breaks": [],
  "mod": "Ssh",
  "id": "w0_278"
 },
 {
  "edits": [
   [
    "Debug.v",
    " (str \"debug\") false then",
    " (str \"debug\") true then"
   ]
  ],
  "definition": "debug_level",
  "desc": "Debug: 'false' -> 'true' (auto)",
  "breaks": [],
  "mod": "Debug",
  "id": "w0_279"
 },
 {
  "edits": [
   [
    "Stream.v",
    " (mkEr 0 (len b - m) (e",
    " (mkEr 0 (len b + m) (e"
   ]
  ],
  "definition": "er_read_kept",
  "desc": "Stream: '-' -> '+' (auto)",
  "breaks": [],
  "mod": "Stream",
  "id": "w0_280"
 },
 {
  "edits": [
   [
    "Pb.v",
    "e if fieldNum <=? 0 then",
    "e if fieldNum <=? 1 then"
   ]
  ],
  "definition": "get_tag",
  "desc": "Pb: '=? 0' -> '=? 1' (auto)",
  "breaks": [],
  "mod": "Pb",
  "id": "w0_281"
 },
 {
  "edits": [
   [
    "Ssh.v",
    "es256_cbc_dec C key iv block) true\n        e",
    "es256_cbc_dec C key iv block) false\n        e"
   ]
  ],
  "definition": "parse_openssh_private",
  "desc": "Ssh: 'true' -> 'false' (auto)",
  "breaks": [],
  "mod": "Ssh",
  "id": "w0_282"
 },
 {
  "edits": [
   [
    "Bytes.v",
    "false",
    "true"
   ]
  ],
  "definition": "beq",
  "desc": "Bytes: 'false' -> 'true' (auto)",
  "breaks": [],
  "mod": "Bytes",
  "id": "w0_283"
 },
 {
  "edits": [
   [
    "Told.v",
    "if Byte.eqb (last s x00) x0a ",
    "if negb (Byte.eqb (last s x00) x0a) "
   ]
  ],
  "definition": "warn",
  "desc": "Told: 'if Byte.eqb (last s x00) x0a' -> 'if negb (Byte.eqb (last s x00) x0a)' (auto)",
  "breaks": [],
  "mod": "Told",
  "id": "w0_284"
 },
 {
  "edits": [
   [
    "GoText.v",
    "f l' with Some i => Some (i + 1) | None =",
    "f l' with Some i => Some (i + 2) | None ="
   ]
  ],
  "definition": "find_byte",
  "desc": "GoText: '1' -> '2' (auto)",
  "breaks": [],
  "mod": "GoText",
  "id": "w0_285"
 },
 {
  "edits": [
   [
    "Stream.v",
    " + m) (er_len s - m) (e",
    " + m) (er_len s + m) (e"
   ]
  ],
  "definition": "er_deliver",
  "desc": "Stream: '-' -> '+' (auto)",
  "breaks": [],
  "mod": "Stream",
  "id": "w0_286"
 },
 {
  "edits": [
   [
    "Flags.v",
    "ile\" (Some x6f) false; fl \"no-password\" None true; fl \"env-passw",
    "ile\" (Some x6f) false; fl \"no-password\" None false; fl \"env-passw"
   ]
  ],
  "definition": "dec_flags",
  "desc": "Flags: 'true' -> 'false' (auto)",
  "breaks": [],
  "mod": "Flags",
  "id": "w0_287"
 },
 {
  "edits": [
   [
    "GoText.v",
    "if is_prefix sub b ",
    "if negb (is_prefix sub b) "
   ]
  ],
  "definition": "index_sub",
  "desc": "GoText: 'if is_prefix sub b' -> 'if negb (is_prefix sub b)' (auto)",
  "breaks": [],
  "mod": "GoText",
  "id": "w0_288"
 },
 {
  "edits": [
   [
    "Ssh.v",
    "   if len data <? 4 th",
    "   if len data <=? 4 th"
   ]
  ],
  "definition": "ssh_fields",
  "desc": "Ssh: '<?' -> '<=?' (auto)",
  "breaks": [],
  "mod": "Ssh",
  "id": "w0_289"
 },
 {
  "edits": [
   [
    "Cli.v",
    "if 0 <? len (do_pubkey o) ",
    "if negb (0 <? len (do_pubkey o)) "
   ]
  ],
  "definition": "cli_decrypt",
  "desc": "Cli: 'if 0 <? len (do_pubkey o)' -> 'if negb (0 <? len (do_pubkey o))' (auto)",
  "breaks": [],
  "mod": "Cli",
  "id": "w0_290"
 },
 {
  "edits": [
   [
    "Bytes.v",
    ":= be32 (z / 2^32) ++ ",
    ":= be32 (z / 2^33) ++ "
   ]
  ],
  "definition": "be64",
  "desc": "Bytes: '32' -> '33' (auto)",
  "breaks": [],
  "mod": "Bytes",
  "id": "w0_291"
 },
 {
  "edits": [
   [
    "Cli.v",
    "g) := rand_buf 32 (wo_",
    "g) := rand_buf 33 (wo_"
   ]
  ],
  "definition": "cli_generate",
  "desc": "Cli: '32' -> '33' (auto)",
  "breaks": [],
  "mod": "Cli",
  "id": "w0_292"
 },
 {
  "edits": [
   [
    "Keys.v",
    "pubkey :=\n  if negb (len b",
    "pubkey :=\n  if id (len b"
   ]
  ],
  "definition": "make_public_from_bytes",
  "desc": "Keys: 'negb (' -> 'id (' (auto)",
  "breaks": [],
  "mod": "Keys",
  "id": "w0_293"
 },
 {
  "edits": [
   [
    "GoErr.v",
    "take ",
    "drop "
   ]
  ],
  "definition": "slice",
  "desc": "GoErr: 'take' -> 'drop' (auto)",
  "breaks": [],
  "mod": "GoErr",
  "id": "w0_294"
 },
 {
  "edits": [
   [
    "Crypto.v",
    "th\")\n  else if negb (len p",
    "th\")\n  else if id (len p"
   ]
  ],
  "definition": "X25519",
  "desc": "Crypto: 'negb (' -> 'id (' (auto)",
  "breaks": [],
  "mod": "Crypto",
  "id": "w0_295"
 },
 {
  "edits": [
   [
    "Ssh.v",
    " => (b2z b =? i + 1) &&",
    " => (b2z b =? i - 1) &&"
   ]
  ],
  "definition": "good_pad",
  "desc": "Ssh: '+' -> '-' (auto)",
  "breaks": [],
  "mod": "Ssh",
  "id": "w0_296"
 },
 {
  "edits": [
   [
    "Decrypt.v",
    "if h_chunk (d_hdr d) <? m ",
    "if negb (h_chunk (d_hdr d) <? m) "
   ]
  ],
  "definition": "dec_chunk",
  "desc": "Decrypt: 'if h_chunk (d_hdr d) <? m' -> 'if negb (h_chunk (d_hdr d) <? m)' (auto)",
  "breaks": [],
  "mod": "Decrypt",
  "id": "w0_297"
 },
 {
  "edits": [
   [
    "Encrypt.v",
    "     end\n    | None => Ok (zer",
    "     end\n    | None => id Ok (zer"
   ]
  ],
  "definition": "add_sender_sig",
  "desc": "Encrypt: 'None => Ok' -> 'None => id Ok' (auto)",
  "breaks": [],
  "mod": "Encrypt",
  "id": "w0_298"
 },
 {
  "edits": [
   [
    "Usage.v",
    " B]\n      else if get_bool s (str \"help\") false then ",
    " B]\n      else if negb (get_bool s (str \"help\") false) then "
   ]
  ],
  "definition": "main_texts",
  "desc": "Usage: 'if get_bool s (str \"help\") false' -> 'if negb (get_bool s (str \"help\") false)' (auto)",
  "breaks": [],
  "mod": "Usage",
  "id": "w0_299"
 },
 {
  "edits": [
   [
    "Cli.v",
    " + 1",
    " + 2"
   ]
  ],
  "definition": "enc_recipients",
  "desc": "Cli: '+ 1' -> '+ 2' (auto)",
  "breaks": [],
  "mod": "Cli",
  "id": "w0_300"
 },
 {
  "edits": [
   [
    "Encrypt.v",
    " (Some (hk, hd ++ b ++ p",
    " (Some (hk, hd ++ [] ++ p"
   ]
  ],
  "definition": "enc_block",
  "desc": "Encrypt: '++ b' -> '++ []' (auto)",
  "breaks": [],
  "mod": "Encrypt",
  "id": "w0_301"
 },
 {
  "edits": [
   [
    "Flags.v",
    "se\"] then Some false\n  el",
    "se\"] then Some true\n  el"
   ]
  ],
  "definition": "parse_bool",
  "desc": "Flags: 'false' -> 'true' (auto)",
  "breaks": [],
  "mod": "Flags",
  "id": "w0_302"
 },
 {
  "edits": [
   [
    "Decrypt.v",
    "if negb (wkeys_sane (h_keys h))\n                    ",
    "if negb (negb (wkeys_sane (h_keys h))) "
   ]
  ],
  "definition": "new_decryptor",
  "desc": "Decrypt: 'if negb (wkeys_sane (h_keys h))' -> 'if negb (negb (wkeys_sane (h_keys h)))' (auto)",
  "breaks": [],
  "mod": "Decrypt",
  "id": "w0_303"
 },
 {
  "edits": [
   [
    "Ssh.v",
    " (good_pad pad 0) the",
    " (good_pad pad 1) the"
   ]
  ],
  "definition": "open_section",
  "desc": "Ssh: '0' -> '1' (auto)",
  "breaks": [],
  "mod": "Ssh",
  "id": "w0_304"
 },
 {
  "edits": [
   [
    "Told.v",
    "o [] else done 1 [(\"c",
    "o [] else done 2 [(\"c"
   ]
  ],
  "definition": "encrypt_told",
  "desc": "Told: '1' -> '2' (auto)",
  "breaks": [],
  "mod": "Told",
  "id": "w0_305"
 },
 {
  "edits": [
   [
    "Flags.v",
    "then s_set (fg_name f) (VBool true) (parse_s",
    "then s_set (fg_name f) (VBool false) (parse_s"
   ]
  ],
  "definition": "parse_short",
  "desc": "Flags: 'true' -> 'false' (auto)",
  "breaks": [],
  "mod": "Flags",
  "id": "w0_306"
 },
 {
  "edits": [
   [
    "Crypto.v",
    "if (len key =? 16) || (len key =? 24) || (len key =? 32) ",
    "if negb ((len key =? 16) || (len key =? 24) || (len key =? 32)) "
   ]
  ],
  "definition": "new_gcm",
  "desc": "Crypto: 'if (len key =? 16) || (len key =? 24) || (len key =? 32)' -> 'if negb ((len key =? 16) || (len key =? 24) || (len key =? 32))' (auto)",
  "breaks": [],
  "mod": "Crypto",
  "id": "w0_307"
 },
 {
  "edits": [
   [
    "Bytes.v",
    " + 2^31) mod 2^32 - 2^",
    " + 2^31) mod 2^33 - 2^"
   ]
  ],
  "definition": "i32",
  "desc": "Bytes: '32' -> '33' (auto)",
  "breaks": [],
  "mod": "Bytes",
  "id": "w0_308"
 },
 {
  "edits": [
   [
    "GoErr.v",
    "\"\n  else match drop i d w",
    "\"\n  else match take i d w"
   ]
  ],
  "definition": "at_",
  "desc": "GoErr: 'drop' -> 'take' (auto)",
  "breaks": [],
  "mod": "GoErr",
  "id": "w0_309"
 },
 {
  "edits": [
   [
    "GoText.v",
    "if is_blank c ",
    "if negb (is_blank c) "
   ]
  ],
  "definition": "split_blanks",
  "desc": "GoText: 'if is_blank c' -> 'if negb (is_blank c)' (auto)",
  "breaks": [],
  "mod": "GoText",
  "id": "w0_310"
 },
 {
  "edits": [
   [
    "KeyFiles.v",
    "o\" (sp_algo r) ++ y_optint E \"Z",
    "o\" (sp_algo r) ++ [] E \"Z"
   ]
  ],
  "definition": "yaml_priv",
  "desc": "KeyFiles: '++ y_optint' -> '++ []' (auto)",
  "breaks": [],
  "mod": "KeyFiles",
  "id": "w0_311"
 },
 {
  "edits": [
   [
    "Race.v",
    ": prog A :=\n  Load (SkCache k 0) (fun c =",
    ": prog A :=\n  Load (SkCache k 1) (fun c ="
   ]
  ],
  "definition": "conv_sk",
  "desc": "Race: '0' -> '1' (auto)",
  "breaks": [],
  "mod": "Race",
  "id": "w0_312"
 },
 {
  "edits": [
   [
    "Pb.v",
    "ield (h_salt m) + size_",
    "ield (h_salt m) - size_"
   ]
  ],
  "definition": "size_header",
  "desc": "Pb: '+' -> '-' (auto)",
  "breaks": [],
  "mod": "Pb",
  "id": "w0_313"
 },
 {
  "edits": [
   [
    "Bytes.v",
    "(z + 2^63) mod 2^64 -",
    "(z + 2^63) mod 3^64 -"
   ]
  ],
  "definition": "i64",
  "desc": "Bytes: '2' -> '3' (auto)",
  "breaks": [],
  "mod": "Bytes",
  "id": "w0_314"
 },
 {
  "edits": [
   [
    "Pb.v",
    "if wt =? 5 ",
    "if negb (wt =? 5) "
   ]
  ],
  "definition": "skip_loop",
  "desc": "Pb: 'if wt =? 5' -> 'if negb (wt =? 5)' (auto)",
  "breaks": [],
  "mod": "Pb",
  "id": "w0_315"
 },
 {
  "edits": [
   [
    "Told.v",
    "ut (if ok then 0 else",
    "ut (if ok then 1 else"
   ]
  ],
  "definition": "verify_told",
  "desc": "Told: '0' -> '1' (auto)",
  "breaks": [],
  "mod": "Told",
  "id": "w0_316"
 },
 {
  "edits": [
   [
    "GoIO.v",
    "write_loop s' (drop (len ",
    "write_loop s' (take (len "
   ]
  ],
  "definition": "fullwrite_loop",
  "desc": "GoIO: 'drop' -> 'take' (auto)",
  "breaks": [],
  "mod": "GoIO",
  "id": "w0_317"
 },
 {
  "edits": [
   [
    "Sign.v",
    " + ",
    " - "
   ]
  ],
  "definition": "file_cksum",
  "desc": "Sign: '+' -> '-' (auto)",
  "breaks": [],
  "mod": "Sign",
  "id": "w0_318"
 },
 {
  "edits": [
   [
    "Decrypt.v",
    "e) sig then Ok false\n    ",
    "e) sig then Ok true\n    "
   ]
  ],
  "definition": "verify_sender",
  "desc": "Decrypt: 'false' -> 'true' (auto)",
  "breaks": [],
  "mod": "Decrypt",
  "id": "w0_319"
 },
 {
  "edits": [
   [
    "Cli.v",
    "ut (if ok then 0 else",
    "ut (if ok then 1 else"
   ]
  ],
  "definition": "cli_verify_cmd",
  "desc": "Cli: '0' -> '1' (auto)",
  "breaks": [],
  "mod": "Cli",
  "id": "w0_320"
 },
 {
  "edits": [
   [
    "Race.v",
    "  | Some _ => Load (PkCache k 0) (fun p' ",
    "  | Some _ => Load (PkCache k 1) (fun p' "
   ]
  ],
  "definition": "words_pk",
  "desc": "Race: '0' -> '1' (auto)",
  "breaks": [],
  "mod": "Race",
  "id": "w0_321"
 },
 {
  "edits": [
   [
    "Pb.v",
    "n\n    if len a <=? size",
    "n\n    if len a <? size"
   ]
  ],
  "definition": "marshal_to",
  "desc": "Pb: '<=?' -> '<?' (auto)",
  "breaks": [],
  "mod": "Pb",
  "id": "w0_322"
 },
 {
  "edits": [
   [
    "Pb.v",
    " d idx ;;\n           if b2z b <? 128 then ",
    " d idx ;;\n           if b2z b <=? 128 then "
   ]
  ],
  "definition": "skip_varint",
  "desc": "Pb: '<?' -> '<=?' (auto)",
  "breaks": [],
  "mod": "Pb",
  "id": "w0_323"
 },
 {
  "edits": [
   [
    "Flags.v",
    "nt\" (Some x63) false; fl ",
    "nt\" (Some x63) true; fl "
   ]
  ],
  "definition": "gen_flags",
  "desc": "Flags: 'false' -> 'true' (auto)",
  "breaks": [],
  "mod": "Flags",
  "id": "w0_324"
 },
 {
  "edits": [
   [
    "Told.v",
    "ys pka fns e g 0 with",
    "ys pka fns e g 1 with"
   ]
  ],
  "definition": "enc_body_told",
  "desc": "Told: '0' -> '1' (auto)",
  "breaks": [],
  "mod": "Told",
  "id": "w0_325"
 },
 {
  "edits": [
   [
    "KeyFiles.v",
    "en (su_pk spk) =? 0 then",
    "en (su_pk spk) =? 1 then"
   ]
  ],
  "definition": "unmarshal_public",
  "desc": "KeyFiles: '=? 0' -> '=? 1' (auto)",
  "breaks": [],
  "mod": "KeyFiles",
  "id": "w0_326"
 },
 {
  "edits": [
   [
    "Ssh.v",
    "    let inp := drop 4 inp",
    "    let inp := take 4 inp"
   ]
  ],
  "definition": "parse_string",
  "desc": "Ssh: 'drop' -> 'take' (auto)",
  "breaks": [],
  "mod": "Ssh",
  "id": "w0_327"
 },
 {
  "edits": [
   [
    "Told.v",
    " + ",
    " - "
   ]
  ],
  "definition": "recipients_told",
  "desc": "Told: '+' -> '-' (auto)",
  "breaks": [],
  "mod": "Told",
  "id": "w0_328"
 },
 {
  "edits": [
   [
    "Crypto.v",
    "  else if p =? 0 then",
    "  else if p =? 1 then"
   ]
  ],
  "definition": "scrypt_key",
  "desc": "Crypto: '0' -> '1' (auto)",
  "breaks": [],
  "mod": "Crypto",
  "id": "w0_329"
 },
 {
  "edits": [
   [
    "Flags.v",
    "d\n      | _ => if interspersed then ",
    "d\n      | _ => if negb (interspersed) then "
   ]
  ],
  "definition": "parse_args",
  "desc": "Flags: 'if interspersed' -> 'if negb (interspersed)' (auto)",
  "breaks": [],
  "mod": "Flags",
  "id": "w0_330"
 },
 {
  "edits": [
   [
    "Debug.v",
    "if level <=? 0 ",
    "if negb (level <=? 0) "
   ]
  ],
  "definition": "debug",
  "desc": "Debug: 'if level <=? 0' -> 'if negb (level <=? 0)' (auto)",
  "breaks": [],
  "mod": "Debug",
  "id": "w0_331"
 },
 {
  "edits": [
   [
    "Main.v",
    "if (65 <=? b2z c) && (b2z c <=? 90) ",
    "if negb ((65 <=? b2z c) && (b2z c <=? 90)) "
   ]
  ],
  "definition": "to_lower",
  "desc": "Main: 'if (65 <=? b2z c) && (b2z c <=? 90)' -> 'if negb ((65 <=? b2z c) && (b2z c <=? 90))' (auto)",
  "breaks": [],
  "mod": "Main",
  "id": "w0_332"
 },
 {
  "edits": [
   [
    "Keys.v",
    "t edpk := drop 32 buf ",
    "t edpk := drop 33 buf "
   ]
  ],
  "definition": "make_private_from_bytes",
  "desc": "Keys: '32' -> '33' (auto)",
  "breaks": [],
  "mod": "Keys",
  "id": "w0_333"
 },
 {
  "edits": [
   [
    "Encrypt.v",
    "e if max_chunk <? blks",
    "e if max_chunk <=? blks"
   ]
  ],
  "definition": "block_size",
  "desc": "Encrypt: '<?' -> '<=?' (auto)",
  "breaks": [],
  "mod": "Encrypt",
  "id": "w0_334"
 },
 {
  "edits": [
   [
    "Keys.v",
    "=? 0",
    "=? 1"
   ]
  ],
  "definition": "egcd",
  "desc": "Keys: '=? 0' -> '=? 1' (auto)",
  "breaks": [],
  "mod": "Keys",
  "id": "w0_335"
 },
 {
  "edits": [
   [
    "Pb.v",
    " else if len d <? pre ",
    " else if len d <=? pre "
   ]
  ],
  "definition": "get_unknown",
  "desc": "Pb: '<?' -> '<=?' (auto)",
  "breaks": [],
  "mod": "Pb",
  "id": "w0_336"
 },
 {
  "edits": [
   [
    "Crypto.v",
    "max_int : Z := 2^63 -",
    "max_int : Z := 3^63 -"
   ]
  ],
  "definition": "max_int",
  "desc": "Crypto: '2' -> '3' (auto)",
  "breaks": [],
  "mod": "Crypto",
  "id": "w0_337"
 },
 {
  "edits": [
   [
    "KeyFiles.v",
    "p_salt ssk) =? 0) || ",
    "p_salt ssk) =? 1) || "
   ]
  ],
  "definition": "unmarshal_private",
  "desc": "KeyFiles: '0' -> '1' (auto)",
  "breaks": [],
  "mod": "KeyFiles",
  "id": "w0_338"
 },
 {
  "edits": [
   [
    "Stream.v",
    "      let b := drop z b i",
    "      let b := take z b i"
   ]
  ],
  "definition": "ew_loop",
  "desc": "Stream: 'drop' -> 'take' (auto)",
  "breaks": [],
  "mod": "Stream",
  "id": "w0_339"
 },
 {
  "edits": [
   [
    "Base64.v",
    "h\n                   | [] => let v := d0 * 2^18 + d1 * 2^12 + ",
    "h\n                   | [] => let v := d0 * 2^19 + d1 * 2^12 + "
   ]
  ],
  "definition": "b64_dec",
  "desc": "Base64: '18' -> '19' (auto)",
  "breaks": [],
  "mod": "Base64",
  "id": "w0_340"
 },
 {
  "edits": [
   [
    "Stream.v",
    " (u32 (er_blk s + 1)) No",
    " (u32 (er_blk s + 2)) No"
   ]
  ],
  "definition": "er_read",
  "desc": "Stream: '+ 1' -> '+ 2' (auto)",
  "breaks": [],
  "mod": "Stream",
  "id": "w0_341"
 },
 {
  "edits": [
   [
    "Fs.v",
    " u * 64 + g * 8 + o.\n\n(",
    " u * 64 + g * 8 - o.\n\n("
   ]
  ],
  "definition": "oct",
  "desc": "Fs: '+' -> '-' (auto)",
  "breaks": [],
  "mod": "Fs",
  "id": "w0_342"
 },
 {
  "edits": [
   [
    "Ssh.v",
    "p) =>\n      if negb (beq a",
    "p) =>\n      if id (beq a"
   ]
  ],
  "definition": "parse_enc_pubkey",
  "desc": "Ssh: 'negb (' -> 'id (' (auto)",
  "breaks": [],
  "mod": "Ssh",
  "id": "w0_343"
 },
 {
  "edits": [
   [
    "Pb.v",
    " (w_unk m))\n        else if fieldNum =? 2 then\n          if negb (wireType =? 2) then ",
    " (w_unk m))\n        else if fieldNum =? 2 then\n          if id (wireType =? 2) then "
   ]
  ],
  "definition": "unmarshal_wkey_loop",
  "desc": "Pb: 'negb (' -> 'id (' (auto)",
  "breaks": [],
  "mod": "Pb",
  "id": "w0_344"
 },
 {
  "edits": [
   [
    "Keys.v",
    "if g <? 0 ",
    "if negb (g <? 0) "
   ]
  ],
  "definition": "mod_inverse",
  "desc": "Keys: 'if g <? 0' -> 'if negb (g <? 0)' (auto)",
  "breaks": [],
  "mod": "Keys",
  "id": "w0_345"
 },
 {
  "edits": [
   [
    "Fs.v",
    "<?",
    "<=?"
   ]
  ],
  "definition": "sf_ops",
  "desc": "Fs: '<?' -> '<=?' (auto)",
  "breaks": [],
  "mod": "Fs",
  "id": "w0_346"
 },
 {
  "edits": [
   [
    "Encrypt.v",
    "C (aes_key_size + rx_no",
    "C (aes_key_size - rx_no"
   ]
  ],
  "definition": "wrap_key",
  "desc": "Encrypt: '+' -> '-' (auto)",
  "breaks": [],
  "mod": "Encrypt",
  "id": "w0_347"
 },
 {
  "edits": [
   [
    "Told.v",
    "n infile =? 0) || beq ",
    "n infile =? 0) && beq "
   ]
  ],
  "definition": "dec_body_told",
  "desc": "Told: '||' -> '&&' (auto)",
  "breaks": [],
  "mod": "Told",
  "id": "w0_348"
 },
 {
  "edits": [
   [
    "Cli.v",
    " <? errs then (1, w)\n",
    " <? errs then (2, w)\n"
   ]
  ],
  "definition": "enc_body",
  "desc": "Cli: '1' -> '2' (auto)",
  "breaks": [],
  "mod": "Cli",
  "id": "w0_349"
 },
 {
  "edits": [
   [
    "Pb.v",
    "if byteLen <? 0 ",
    "if negb (byteLen <? 0) "
   ]
  ],
  "definition": "get_bytes",
  "desc": "Pb: 'if byteLen <? 0' -> 'if negb (byteLen <? 0)' (auto)",
  "breaks": [],
  "mod": "Pb",
  "id": "w0_350"
 },
 {
  "edits": [
   [
    "Decrypt.v",
    "  let nonce := take aead_",
    "  let nonce := drop aead_"
   ]
  ],
  "definition": "set_private_key",
  "desc": "Decrypt: 'take' -> 'drop' (auto)",
  "breaks": [],
  "mod": "Decrypt",
  "id": "w0_351"
 },
 {
  "edits": [
   [
    "GoIO.v",
    " r' =>\n        if n <? len b then ",
    " r' =>\n        if negb (n <? len b) then "
   ]
  ],
  "definition": "read_loop",
  "desc": "GoIO: 'if n <? len b' -> 'if negb (n <? len b)' (auto)",
  "breaks": [],
  "mod": "GoIO",
  "id": "w0_352"
 },
 {
  "edits": [
   [
    "Race.v",
    " + aes_key_size + aead_",
    " + aes_key_size - aead_"
   ]
  ],
  "definition": "set_rest",
  "desc": "Race: '+' -> '-' (auto)",
  "breaks": [],
  "mod": "Race",
  "id": "w0_353"
 },
 {
  "edits": [
   [
    "Ssh.v",
    "    if len inp =? 0 then",
    "    if len inp =? 1 then"
   ]
  ],
  "definition": "auth_loop",
  "desc": "Ssh: '=? 0' -> '=? 1' (auto)",
  "breaks": [],
  "mod": "Ssh",
  "id": "w0_354"
 },
 {
  "edits": [
   [
    "Base64.v",
    " + 1",
    " + 2"
   ]
  ],
  "definition": "index_of",
  "desc": "Base64: '+ 1' -> '+ 2' (auto)",
  "breaks": [],
  "mod": "Base64",
  "id": "w0_355"
 },
 {
  "edits": [
   [
    "Keys.v",
    " 32 (sha512 C (take 32 (s",
    " 32 (sha512 C (drop 32 (s"
   ]
  ],
  "definition": "to_curve_sk",
  "desc": "Keys: 'take' -> 'drop' (auto)",
  "breaks": [],
  "mod": "Keys",
  "id": "w0_356"
 },
 {
  "edits": [
   [
    "Encrypt.v",
    "nk (e_hdr e) + 4 + gc",
    "nk (e_hdr e) + 5 + gc"
   ]
  ],
  "definition": "enc_start",
  "desc": "Encrypt: '4' -> '5' (auto)",
  "breaks": [],
  "mod": "Encrypt",
  "id": "w0_357"
 },
 {
  "edits": [
   [
    "Flags.v",
    "ut\" (Some x6f) false; fl ",
    "ut\" (Some x6f) true; fl "
   ]
  ],
  "definition": "sign_flags",
  "desc": "Flags: 'false' -> 'true' (auto)",
  "breaks": [],
  "mod": "Flags",
  "id": "w0_358"
 },
 {
  "edits": [
   [
    "Keys.v",
    "248",
    "249"
   ]
  ],
  "definition": "clamp",
  "desc": "Keys: '248' -> '249' (auto)",
  "breaks": [],
  "mod": "Keys",
  "id": "w0_359"
 },
 {
  "edits": [
   [
    "Stream.v",
    "| (s, None) => if 0 <? er_len s then ",
    "| (s, None) => if negb (0 <? er_len s) then "
   ]
  ],
  "definition": "er_keep",
  "desc": "Stream: 'if 0 <? er_len s' -> 'if negb (0 <? er_len s)' (auto)",
  "breaks": [],
  "mod": "Stream",
  "id": "w0_360"
 },
 {
  "edits": [
   [
    "Encrypt.v",
    "ros (12 - len (take 12 sr",
    "ros (12 - len (drop 12 sr"
   ]
  ],
  "definition": "chunk_nonce",
  "desc": "Encrypt: 'take' -> 'drop' (auto)",
  "breaks": [],
  "mod": "Encrypt",
  "id": "w0_361"
 },
 {
  "edits": [
   [
    "Pb.v",
    "| k :: ks' => 1 + size_",
    "| k :: ks' => 1 - size_"
   ]
  ],
  "definition": "size_keys",
  "desc": "Pb: '+' -> '-' (auto)",
  "breaks": [],
  "mod": "Pb",
  "id": "w0_362"
 },
 {
  "edits": [
   [
    "Pb.v",
    " bits) in\n        if b2z b <? 128 then Ok (",
    " bits) in\n        if b2z b <? 129 then Ok ("
   ]
  ],
  "definition": "get_varint",
  "desc": "Pb: '128' -> '129' (auto)",
  "breaks": [],
  "mod": "Pb",
  "id": "w0_363"
 },
 {
  "edits": [
   [
    "Flags.v",
    "2) false; fl \"overwrite\" None true].\n(** cry",
    "2) false; fl \"overwrite\" None false].\n(** cry"
   ]
  ],
  "definition": "enc_flags",
  "desc": "Flags: 'true' -> 'false' (auto)",
  "breaks": [],
  "mod": "Flags",
  "id": "w0_364"
 },
 {
  "edits": [
   [
    "Flags.v",
    "args dec_flags true argv",
    "args dec_flags false argv"
   ]
  ],
  "definition": "declared",
  "desc": "Flags: 'true' -> 'false' (auto)",
  "breaks": [],
  "mod": "Flags",
  "id": "w0_365"
 },
 {
  "edits": [
   [
    "Ssh.v",
    "p with\n      | None => Ok []\n ",
    "p with\n      | None => id Ok []\n "
   ]
  ],
  "definition": "auth_line",
  "desc": "Ssh: 'None => Ok' -> 'None => id Ok' (auto)",
  "breaks": [],
  "mod": "Ssh",
  "id": "w0_366"
 },
 {
  "edits": [
   [
    "Bytes.v",
    "=> []\n  | x :: l' => if n <=? 0 then [] e",
    "=> []\n  | x :: l' => if n <=? 1 then [] e"
   ]
  ],
  "definition": "take",
  "desc": "Bytes: '0' -> '1' (auto)",
  "breaks": [],
  "mod": "Bytes",
  "id": "w0_367"
 },
 {
  "edits": [
   [
    "Pb.v",
    " S f => if 128 <=? v th",
    " S f => if 128 <? v th"
   ]
  ],
  "definition": "put_varint",
  "desc": "Pb: '<=?' -> '<?' (auto)",
  "breaks": [],
  "mod": "Pb",
  "id": "w0_368"
 },
 {
  "edits": [
   [
    "Decrypt.v",
    ") ;;\n       if negb (len (",
    ") ;;\n       if id (len ("
   ]
  ],
  "definition": "unwrap_key",
  "desc": "Decrypt: 'negb (' -> 'id (' (auto)",
  "breaks": [],
  "mod": "Decrypt",
  "id": "w0_369"
 },
 {
  "edits": [
   [
    "Told.v",
    " | _ => (mkOut 1 [] (",
    " | _ => (mkOut 2 [] ("
   ]
  ],
  "definition": "sign_told",
  "desc": "Told: '1' -> '2' (auto)",
  "breaks": [],
  "mod": "Told",
  "id": "w0_370"
 },
 {
  "edits": [
   [
    "Cli.v",
    ") : bool := (0 <? len ",
    ") : bool := (0 <=? len "
   ]
  ],
  "definition": "names_file",
  "desc": "Cli: '<?' -> '<=?' (auto)",
  "breaks": [],
  "mod": "Cli",
  "id": "w0_371"
 },
 {
  "edits": [
   [
    "Decrypt.v",
    "          | Ok true => (",
    "          | Ok false => ("
   ]
  ],
  "definition": "process_trailer",
  "desc": "Decrypt: 'true' -> 'false' (auto)",
  "breaks": [],
  "mod": "Decrypt",
  "id": "w0_372"
 },
 {
  "edits": [
   [
    "Decrypt.v",
    "len (w_dkey k) <=? aes_",
    "len (w_dkey k) <? aes_"
   ]
  ],
  "definition": "wkeys_sane",
  "desc": "Decrypt: '<=?' -> '<?' (auto)",
  "breaks": [],
  "mod": "Decrypt",
  "id": "w0_373"
 },
 {
  "edits": [
   [
    "Decrypt.v",
    "      let c := take m (d_",
    "      let c := drop m (d_"
   ]
  ],
  "definition": "dec_loop",
  "desc": "Decrypt: 'take' -> 'drop' (auto)",
  "breaks": [],
  "mod": "Decrypt",
  "id": "w0_374"
 },
 {
  "edits": [
   [
    "Ssh.v",
    "f (len salt =? 0) || ",
    "f (len salt =? 1) || "
   ]
  ],
  "definition": "bcrypt_key",
  "desc": "Ssh: '0' -> '1' (auto)",
  "breaks": [],
  "mod": "Ssh",
  "id": "w0_375"
 },
 {
  "edits": [
   [
    "Crypto.v",
    "land n (n - 1) =? 0.\nDef",
    "land n (n - 1) =? 1.\nDef"
   ]
  ],
  "definition": "is_pow2",
  "desc": "Crypto: '=? 0' -> '=? 1' (auto)",
  "breaks": [],
  "mod": "Crypto",
  "id": "w0_376"
 },
 {
  "edits": [
   [
    "GoIO.v",
    " =>\n      if n <? len b then (take n b, None,",
    " =>\n      if n <? len b then (drop n b, None,"
   ]
  ],
  "definition": "rd_read",
  "desc": "GoIO: 'take' -> 'drop' (auto)",
  "breaks": [],
  "mod": "GoIO",
  "id": "w0_377"
 },
 {
  "edits": [
   [
    "Bytes.v",
    "=> []\n  | x :: l' => if n <=? 0 then l el",
    "=> []\n  | x :: l' => if n <=? 1 then l el"
   ]
  ],
  "definition": "drop",
  "desc": "Bytes: '0' -> '1' (auto)",
  "breaks": [],
  "mod": "Bytes",
  "id": "w0_378"
 },
 {
  "edits": [
   [
    "Base64.v",
    "x; y] => let v := b2z x * 2^16 + b2z y * 2^",
    "x; y] => let v := b2z x * 2^16 - b2z y * 2^"
   ]
  ],
  "definition": "b64_encode",
  "desc": "Base64: '+' -> '-' (auto)",
  "breaks": [],
  "mod": "Base64",
  "id": "w0_379"
 },
 {
  "edits": [
   [
    "Pb.v",
    "if negb (wireType =? 0) ",
    "if negb (negb (wireType =? 0)) "
   ]
  ],
  "definition": "unmarshal_header_loop",
  "desc": "Pb: 'if negb (wireType =? 0)' -> 'if negb (negb (wireType =? 0))' (auto)",
  "breaks": [],
  "mod": "Pb",
  "id": "w0_380"
 },
 {
  "edits": [
   [
    "Main.v",
    "on o then quit 0\n    ",
    "on o then quit 1\n    "
   ]
  ],
  "definition": "main",
  "desc": "Main: '0' -> '1' (auto)",
  "breaks": [],
  "mod": "Main",
  "id": "w0_381"
 },
 {
  "edits": [
   [
    "Pb.v",
    "<? len b then 1 + len b",
    "<? len b then 1 - len b"
   ]
  ],
  "definition": "size_field",
  "desc": "Pb: '+' -> '-' (auto)",
  "breaks": [],
  "mod": "Pb",
  "id": "w0_382"
 },
 {
  "edits": [
   [
    "Cli.v",
    "<? 2 then done 1\n    ",
    "<? 2 then done 2\n    "
   ]
  ],
  "definition": "cli_encrypt",
  "desc": "Cli: '1' -> '2' (auto)",
  "breaks": [],
  "mod": "Cli",
  "id": "w0_383"
 },
 {
  "edits": [
   [
    "Cli.v",
    " | None => die 2     ",
    " | None => die 3     "
   ]
  ],
  "definition": "verify_with",
  "desc": "Cli: '2' -> '3' (auto)",
  "breaks": [],
  "mod": "Cli",
  "id": "w0_384"
 },
 {
  "edits": [
   [
    "Cli.v",
    "  | _ => mkOut 1 [] (",
    "  | _ => mkOut 2 [] ("
   ]
  ],
  "definition": "cli_sign",
  "desc": "Cli: '1' -> '2' (auto)",
  "breaks": [],
  "mod": "Cli",
  "id": "w0_385"
 },
 {
  "edits": [
   [
    "Stream.v",
    " (e, w, g, s, (0, Ok ",
    " (e, w, g, s, (1, Ok "
   ]
  ],
  "definition": "ew_write",
  "desc": "Stream: '0' -> '1' (auto)",
  "breaks": [],
  "mod": "Stream",
  "id": "w0_386"
 },
 {
  "edits": [
   [
    "Pb.v",
    " := push_field 26 (h_p",
    " := push_field 27 (h_p"
   ]
  ],
  "definition": "marshal_fields",
  "desc": "Pb: '26' -> '27' (auto)",
  "breaks": [],
  "mod": "Pb",
  "id": "w0_387"
 },
 {
  "edits": [
   [
    "Ssh.v",
    "op 32 k), take 32 k)\n ",
    "op 32 k), take 33 k)\n "
   ]
  ],
  "definition": "extract_bcrypt",
  "desc": "Ssh: '32' -> '33' (auto)",
  "breaks": [],
  "mod": "Ssh",
  "id": "w0_388"
 },
 {
  "edits": [
   [
    "Told.v",
    "lp o then quit 0 []\n ",
    "lp o then quit 1 []\n "
   ]
  ],
  "definition": "main_told",
  "desc": "Told: '0' -> '1' (auto)",
  "breaks": [],
  "mod": "Told",
  "id": "w0_389"
 },
 {
  "edits": [
   [
    "GoIO.v",
    "(w_sched w) cs (w_nclosed w + 1))\n  end.\n",
    "(w_sched w) cs (w_nclosed w + 2))\n  end.\n"
   ]
  ],
  "definition": "w_close",
  "desc": "GoIO: '1' -> '2' (auto)",
  "breaks": [],
  "mod": "GoIO",
  "id": "w0_390"
 },
 {
  "edits": [
   [
    "Debug.v",
    " ++ [x0a; x09] ++ str \"aes",
    " ++ [x0a; x09] ++ [] \"aes"
   ]
  ],
  "definition": "debug_text",
  "desc": "Debug: '++ str' -> '++ []' (auto)",
  "breaks": [],
  "mod": "Debug",
  "id": "w0_391"
 },
 {
  "edits": [
   [
    "Crypto.v",
    "k msg sig else false).\n\n(",
    "k msg sig else true).\n\n("
   ]
  ],
  "definition": "Ed_Verify",
  "desc": "Crypto: 'false' -> 'true' (auto)",
  "breaks": [],
  "mod": "Crypto",
  "id": "w0_392"
 },
 {
  "edits": [
   [
    "Bytes.v",
    "24 + b2z b * 2^16 + b2",
    "24 + b2z b * 2^17 + b2"
   ]
  ],
  "definition": "unbe32",
  "desc": "Bytes: '16' -> '17' (auto)",
  "breaks": [],
  "mod": "Bytes",
  "id": "w0_393"
 },
 {
  "edits": [
   [
    "Pb.v",
    "og2 (Z.lor x 1) + 1 + 6)",
    "og2 (Z.lor x 1) + 2 + 6)"
   ]
  ],
  "definition": "size_varint",
  "desc": "Pb: '+ 1' -> '+ 2' (auto)",
  "breaks": [],
  "mod": "Pb",
  "id": "w0_394"
 },
 {
  "edits": [
   [
    "Keys.v",
    "_p : Z := 2^255 - 19.\n\n",
    "_p : Z := 2^255 + 19.\n\n"
   ]
  ],
  "definition": "curve_p",
  "desc": "Keys: '-' -> '+' (auto)",
  "breaks": [],
  "mod": "Keys",
  "id": "w0_395"
 },
 {
  "edits": [
   [
    "Told.v",
    "&&",
    "||"
   ]
  ],
  "definition": "generate_told",
  "desc": "Told: '&&' -> '||' (auto)",
  "breaks": [],
  "mod": "Told",
  "id": "w0_396"
 },
 {
  "edits": [
   [
    "Debug.v",
    "87",
    "88"
   ]
  ],
  "definition": "hex_digit",
  "desc": "Debug: '87' -> '88' (auto)",
  "breaks": [],
  "mod": "Debug",
  "id": "w0_397"
 },
 {
  "edits": [
   [
    "Bytes.v",
    "6); z2b (z / 2^8); z2",
    "6); z2b (z / 2^9); z2"
   ]
  ],
  "definition": "be32",
  "desc": "Bytes: '8' -> '9' (auto)",
  "breaks": [],
  "mod": "Bytes",
  "id": "w0_398"
 },
 {
  "edits": [
   [
    "Keys.v",
    "let u := ((y + 1) * d",
    "let u := ((y + 2) * d"
   ]
  ],
  "definition": "curve_of",
  "desc": "Keys: '1' -> '2' (auto)",
  "breaks": [],
  "mod": "Keys",
  "id": "w0_399"
 },
 {
  "edits": [
   [
    "Stream.v",
    ", Ok (mkEr 0 0 0 None",
    ", Ok (mkEr 0 0 1 None"
   ]
  ],
  "definition": "new_stream_reader",
  "desc": "Stream: '0' -> '1' (auto)",
  "breaks": [],
  "mod": "Stream",
  "id": "w0_400"
 },
 {
  "edits": [
   [
    "Cli.v",
    "if nopw ",
    "if negb (nopw) "
   ]
  ],
  "definition": "get_pass",
  "desc": "Cli: 'if nopw' -> 'if negb (nopw)' (auto)",
  "breaks": [],
  "mod": "Cli",
  "id": "w0_401"
 },
 {
  "edits": [
   [
    "Told.v",
    "with_output_told T W v (oct 6 0 0) (do_ou",
    "with_output_told T W v (oct 6 1 0) (do_ou"
   ]
  ],
  "definition": "decrypt_told",
  "desc": "Told: '0' -> '1' (auto)",
  "breaks": [],
  "mod": "Told",
  "id": "w0_402"
 },
 {
  "edits": [
   [
    "Encrypt.v",
    "     | Ok _ => if eof then ",
    "     | Ok _ => if negb (eof) then "
   ]
  ],
  "definition": "enc_loop",
  "desc": "Encrypt: 'if eof' -> 'if negb (eof)' (auto)",
  "breaks": [],
  "mod": "Encrypt",
  "id": "w0_403"
 },
 {
  "edits": [
   [
    "Pb.v",
    ") : bytes :=\n  if 0 <? len b then ",
    ") : bytes :=\n  if negb (0 <? len b) then "
   ]
  ],
  "definition": "push_field",
  "desc": "Pb: 'if 0 <? len b' -> 'if negb (0 <? len b)' (auto)",
  "breaks": [],
  "mod": "Pb",
  "id": "w0_404"
 },
 {
  "edits": [
   [
    "Ssh.v",
    "e opt_end l' (i + 1) b (",
    "e opt_end l' (i + 2) b ("
   ]
  ],
  "definition": "opt_end",
  "desc": "Ssh: '+ 1' -> '+ 2' (auto)",
  "breaks": [],
  "mod": "Ssh",
  "id": "w0_405"
 },
 {
  "edits": [
   [
    "Debug.v",
    "if get_bool s (str \"debug\") false ",
    "if negb (get_bool s (str \"debug\") false) "
   ]
  ],
  "definition": "debug_level",
  "desc": "Debug: 'if get_bool s (str \"debug\") false' -> 'if negb (get_bool s (str \"debug\") false)' (auto)",
  "breaks": [],
  "mod": "Debug",
  "id": "w0_406"
 },
 {
  "edits": [
   [
    "Stream.v",
    " s) None, if m <? len ",
    " s) None, if m <=? len "
   ]
  ],
  "definition": "er_read_kept",
  "desc": "Stream: '<?' -> '<=?' (auto)",
  "breaks": [],
  "mod": "Stream",
  "id": "w0_407"
 },
 {
  "edits": [
   [
    "Pb.v",
    "(Z.shiftr wire 3) in\n",
    "(Z.shiftr wire 4) in\n"
   ]
  ],
  "definition": "get_tag",
  "desc": "Pb: '3' -> '4' (auto)",
  "breaks": [],
  "mod": "Pb",
  "id": "w0_408"
 },
 {
  "edits": [
   [
    "Ssh.v",
    "if negb (beq openssh_magic (take (len openssh_magic) (data ++ zeros spare))) ",
    "if negb (negb (beq openssh_magic (take (len openssh_magic) (data ++ zeros spare)))) "
   ]
  ],
  "definition": "parse_openssh_private",
  "desc": "Ssh: 'if negb (beq openssh_magic (take (len openssh_magic) (data ++ zeros spare)))' -> 'if negb (negb (beq openssh_magic (take (len openssh_magic) (data ++ zeros spare))))' (auto)",
  "breaks": [],
  "mod": "Ssh",
  "id": "w0_409"
 },
 {
  "edits": [
   [
    "GoText.v",
    "if f x ",
    "if negb (f x) "
   ]
  ],
  "definition": "find_byte",
  "desc": "GoText: 'if f x' -> 'if negb (f x)' (auto)",
  "breaks": [],
  "mod": "GoText",
  "id": "w0_410"
 },
 {
  "edits": [
   [
    "Stream.v",
    "res unit) :=\n  if 0 <? er_len s then\n",
    "res unit) :=\n  if negb (0 <? er_len s) then\n"
   ]
  ],
  "definition": "er_deliver",
  "desc": "Stream: 'if 0 <? er_len s' -> 'if negb (0 <? er_len s)' (auto)",
  "breaks": [],
  "mod": "Stream",
  "id": "w0_411"
 },
 {
  "edits": [
   [
    "Flags.v",
    ":=\n  [fl \"outfile\" (Some x6f) false; fl \"no-p",
    ":=\n  [fl \"outfile\" (Some x6f) true; fl \"no-p"
   ]
  ],
  "definition": "dec_flags",
  "desc": "Flags: 'false' -> 'true' (auto)",
  "breaks": [],
  "mod": "Flags",
  "id": "w0_412"
 },
 {
  "edits": [
   [
    "GoText.v",
    " sub b' with Some i => Some (i + 1) | None =",
    " sub b' with Some i => Some (i + 2) | None ="
   ]
  ],
  "definition": "index_sub",
  "desc": "GoText: '+ 1' -> '+ 2' (auto)",
  "breaks": [],
  "mod": "GoText",
  "id": "w0_413"
 },
 {
  "edits": [
   [
    "Ssh.v",
    "elds fs' (drop 4 data",
    "elds fs' (drop 5 data"
   ]
  ],
  "definition": "ssh_fields",
  "desc": "Ssh: '4' -> '5' (auto)",
  "breaks": [],
  "mod": "Ssh",
  "id": "w0_414"
 },
 {
  "edits": [
   [
    "Cli.v",
    "  else with_output W v (oct 6 0 0) (do_ou",
    "  else with_output W v (oct 6 1 0) (do_ou"
   ]
  ],
  "definition": "cli_decrypt",
  "desc": "Cli: '0' -> '1' (auto)",
  "breaks": [],
  "mod": "Cli",
  "id": "w0_415"
 },
 {
  "edits": [
   [
    "Cli.v",
    "||",
    "&&"
   ]
  ],
  "definition": "cli_generate",
  "desc": "Cli: '||' -> '&&' (auto)",
  "breaks": [],
  "mod": "Cli",
  "id": "w0_416"
 },
 {
  "edits": [
   [
    "GoErr.v",
    "<=? lo) && (lo <=? hi) ",
    "<=? lo) && (lo <? hi) "
   ]
  ],
  "definition": "slice",
  "desc": "GoErr: '<=?' -> '<?' (auto)",
  "breaks": [],
  "mod": "GoErr",
  "id": "w0_417"
 },
 {
  "edits": [
   [
    "Crypto.v",
    "f beq s (zeros 32) the",
    "f beq s (zeros 33) the"
   ]
  ],
  "definition": "X25519",
  "desc": "Crypto: '32' -> '33' (auto)",
  "breaks": [],
  "mod": "Crypto",
  "id": "w0_418"
 },
 {
  "edits": [
   [
    "Ssh.v",
    " => (b2z b =? i + 1) && ",
    " => (b2z b =? i + 2) && "
   ]
  ],
  "definition": "good_pad",
  "desc": "Ssh: '+ 1' -> '+ 2' (auto)",
  "breaks": [],
  "mod": "Ssh",
  "id": "w0_419"
 },
 {
  "edits": [
   [
    "Decrypt.v",
    "    let eof := 0 <? Z",
    "    let eof := 1 <? Z"
   ]
  ],
  "definition": "dec_chunk",
  "desc": "Decrypt: '0' -> '1' (auto)",
  "breaks": [],
  "mod": "Decrypt",
  "id": "w0_420"
 },
 {
  "edits": [
   [
    "Encrypt.v",
    "C (aes_key_size + aead_",
    "C (aes_key_size - aead_"
   ]
  ],
  "definition": "add_sender_sig",
  "desc": "Encrypt: '+' -> '-' (auto)",
  "breaks": [],
  "mod": "Encrypt",
  "id": "w0_421"
 },
 {
  "edits": [
   [
    "Usage.v",
    "rgs main_flags false argv",
    "rgs main_flags true argv"
   ]
  ],
  "definition": "main_texts",
  "desc": "Usage: 'false' -> 'true' (auto)",
  "breaks": [],
  "mod": "Usage",
  "id": "w0_422"
 },
 {
  "edits": [
   [
    "Cli.v",
    " + ",
    " - "
   ]
  ],
  "definition": "enc_recipients",
  "desc": "Cli: '+' -> '-' (auto)",
  "breaks": [],
  "mod": "Cli",
  "id": "w0_423"
 },
 {
  "edits": [
   [
    "Encrypt.v",
    "in\n            if eof then\n",
    "in\n            if negb (eof) then\n"
   ]
  ],
  "definition": "enc_block",
  "desc": "Encrypt: 'if eof' -> 'if negb (eof)' (auto)",
  "breaks": [],
  "mod": "Encrypt",
  "id": "w0_424"
 },
 {
  "edits": [
   [
    "Flags.v",
    "if existsb (beq s) [str \"0\"; str \"f\"; str \"F\"; str \"FALSE\"; str \"false\"; str \"False\"] ",
    "if negb (existsb (beq s) [str \"0\"; str \"f\"; str \"F\"; str \"FALSE\"; str \"false\"; str \"False\"]) "
   ]
  ],
  "definition": "parse_bool",
  "desc": "Flags: 'if existsb (beq s) [str \"0\"; str \"f\"; str \"F\"; str \"FALSE\"; str \"false\"; str \"False\"]' -> 'if negb (existsb (beq s) [str \"0\"; str \"f\"; str \"F\"; str \"FALSE\"; str \"false\"; str \"False\"])' (auto)",
  "breaks": [],
  "mod": "Flags",
  "id": "w0_425"
 },
 {
  "edits": [
   [
    "Decrypt.v",
    "egb (beq (take 7 b) m",
    "egb (beq (take 8 b) m"
   ]
  ],
  "definition": "new_decryptor",
  "desc": "Decrypt: '7' -> '8' (auto)",
  "breaks": [],
  "mod": "Decrypt",
  "id": "w0_426"
 },
 {
  "edits": [
   [
    "Ssh.v",
    "if negb (beq kt algo_ed25519) ",
    "if negb (negb (beq kt algo_ed25519)) "
   ]
  ],
  "definition": "open_section",
  "desc": "Ssh: 'if negb (beq kt algo_ed25519)' -> 'if negb (negb (beq kt algo_ed25519))' (auto)",
  "breaks": [],
  "mod": "Ssh",
  "id": "w0_427"
 },
 {
  "edits": [
   [
    "Told.v",
    "if 0 <? len (eo_keyfile o)\n             ",
    "if negb (0 <? len (eo_keyfile o)) "
   ]
  ],
  "definition": "encrypt_told",
  "desc": "Told: 'if 0 <? len (eo_keyfile o)' -> 'if negb (0 <? len (eo_keyfile o))' (auto)",
  "breaks": [],
  "mod": "Told",
  "id": "w0_428"
 },
 {
  "edits": [
   [
    "Flags.v",
    ".eqb e x3d && (0 <? l",
    ".eqb e x3d && (1 <? l"
   ]
  ],
  "definition": "parse_short",
  "desc": "Flags: '0' -> '1' (auto)",
  "breaks": [],
  "mod": "Flags",
  "id": "w0_429"
 },
 {
  "edits": [
   [
    "Crypto.v",
    "24",
    "25"
   ]
  ],
  "definition": "new_gcm",
  "desc": "Crypto: '24' -> '25' (auto)",
  "breaks": [],
  "mod": "Crypto",
  "id": "w0_430"
 },
 {
  "edits": [
   [
    "Bytes.v",
    "Z) : Z := (z + 2^31) ",
    "Z) : Z := (z + 3^31) "
   ]
  ],
  "definition": "i32",
  "desc": "Bytes: '2' -> '3' (auto)",
  "breaks": [],
  "mod": "Bytes",
  "id": "w0_431"
 },
 {
  "edits": [
   [
    "GoErr.v",
    "if i <? 0 ",
    "if negb (i <? 0) "
   ]
  ],
  "definition": "at_",
  "desc": "GoErr: 'if i <? 0' -> 'if negb (i <? 0)' (auto)",
  "breaks": [],
  "mod": "GoErr",
  "id": "w0_432"
 },
 {
  "edits": [
   [
    "GoText.v",
    "if inrun ",
    "if negb (inrun) "
   ]
  ],
  "definition": "split_blanks",
  "desc": "GoText: 'if inrun' -> 'if negb (inrun)' (auto)",
  "breaks": [],
  "mod": "GoText",
  "id": "w0_433"
 },
 {
  "edits": [
   [
    "KeyFiles.v",
    "(sp_comment r) ++ y_field \"esk",
    "(sp_comment r) ++ [] \"esk"
   ]
  ],
  "definition": "yaml_priv",
  "desc": "KeyFiles: '++ y_field' -> '++ []' (auto)",
  "breaks": [],
  "mod": "KeyFiles",
  "id": "w0_434"
 },
 {
  "edits": [
   [
    "Pb.v",
    " (h_sender m)\n  + size_",
    " (h_sender m)\n  - size_"
   ]
  ],
  "definition": "size_header",
  "desc": "Pb: '+' -> '-' (auto)",
  "breaks": [],
  "mod": "Pb",
  "id": "w0_435"
 },
 {
  "edits": [
   [
    "Bytes.v",
    ") mod 2^64 - 2^63.\n\n(*",
    ") mod 2^64 - 2^64.\n\n(*"
   ]
  ],
  "definition": "i64",
  "desc": "Bytes: '63' -> '64' (auto)",
  "breaks": [],
  "mod": "Bytes",
  "id": "w0_436"
 },
 {
  "edits": [
   [
    "Pb.v",
    "     (if wt =? 0 then",
    "     (if wt =? 1 then"
   ]
  ],
  "definition": "skip_loop",
  "desc": "Pb: '0' -> '1' (auto)",
  "breaks": [],
  "mod": "Pb",
  "id": "w0_437"
 },
 {
  "edits": [
   [
    "Told.v",
    "            if negb (is_pk",
    "            if id (is_pk"
   ]
  ],
  "definition": "verify_told",
  "desc": "Told: 'negb (' -> 'id (' (auto)",
  "breaks": [],
  "mod": "Told",
  "id": "w0_438"
 },
 {
  "edits": [
   [
    "GoIO.v",
    "> (Some x, out ++ a, s')",
    "> (Some x, out ++ [], s')"
   ]
  ],
  "definition": "fullwrite_loop",
  "desc": "GoIO: '++ a' -> '++ []' (auto)",
  "breaks": [],
  "mod": "GoIO",
  "id": "w0_439"
 },
 {
  "edits": [
   [
    "Sign.v",
    " (fun h b => h ++ b) win",
    " (fun h b => h ++ []) win"
   ]
  ],
  "definition": "file_cksum",
  "desc": "Sign: '++ b' -> '++ []' (auto)",
  "breaks": [],
  "mod": "Sign",
  "id": "w0_440"
 },
 {
  "edits": [
   [
    "Decrypt.v",
    "Sender else Ok true\n    ",
    "Sender else Ok false\n    "
   ]
  ],
  "definition": "verify_sender",
  "desc": "Decrypt: 'true' -> 'false' (auto)",
  "breaks": [],
  "mod": "Decrypt",
  "id": "w0_441"
 },
 {
  "edits": [
   [
    "Cli.v",
    "ok then 0 else 1) [] ",
    "ok then 0 else 2) [] "
   ]
  ],
  "definition": "cli_verify_cmd",
  "desc": "Cli: '1' -> '2' (auto)",
  "breaks": [],
  "mod": "Cli",
  "id": "w0_442"
 },
 {
  "edits": [
   [
    "Race.v",
    "ore (PkCache k 1) (So",
    "ore (PkCache k 2) (So"
   ]
  ],
  "definition": "words_pk",
  "desc": "Race: '1' -> '2' (auto)",
  "breaks": [],
  "mod": "Race",
  "id": "w0_443"
 },
 {
  "edits": [
   [
    "Pb.v",
    " (size_header m - len a",
    " (size_header m + len a"
   ]
  ],
  "definition": "marshal_to",
  "desc": "Pb: '-' -> '+' (auto)",
  "breaks": [],
  "mod": "Pb",
  "id": "w0_444"
 },
 {
  "edits": [
   [
    "Pb.v",
    "28 then Ok (idx + 1) el",
    "28 then Ok (idx - 1) el"
   ]
  ],
  "definition": "skip_varint",
  "desc": "Pb: '+' -> '-' (auto)",
  "breaks": [],
  "mod": "Pb",
  "id": "w0_445"
 },
 {
  "edits": [
   [
    "Flags.v",
    "5) false; fl \"overwrite\" None true].\n(** sig",
    "5) false; fl \"overwrite\" None false].\n(** sig"
   ]
  ],
  "definition": "gen_flags",
  "desc": "Flags: 'true' -> 'false' (auto)",
  "breaks": [],
  "mod": "Flags",
  "id": "w0_446"
 },
 {
  "edits": [
   [
    "Told.v",
    "w, _, r) => (code_of r, w, ms ++ die_err T r)\n    ",
    "w, _, r) => (code_of r, w, ms ++ [] T r)\n    "
   ]
  ],
  "definition": "enc_body_told",
  "desc": "Told: '++ die_err' -> '++ []' (auto)",
  "breaks": [],
  "mod": "Told",
  "id": "w0_447"
 },
 {
  "edits": [
   [
    "Ssh.v",
    "    else Some (take lengt",
    "    else Some (drop lengt"
   ]
  ],
  "definition": "parse_string",
  "desc": "Ssh: 'take' -> 'drop' (auto)",
  "breaks": [],
  "mod": "Ssh",
  "id": "w0_448"
 },
 {
  "edits": [
   [
    "Crypto.v",
    "  else if 2^30 <=? u64 ",
    "  else if 2^30 <? u64 "
   ]
  ],
  "definition": "scrypt_key",
  "desc": "Crypto: '<=?' -> '<?' (auto)",
  "breaks": [],
  "mod": "Crypto",
  "id": "w0_449"
 },
 {
  "edits": [
   [
    "Flags.v",
    "negb (",
    "id ("
   ]
  ],
  "definition": "parse_args",
  "desc": "Flags: 'negb (' -> 'id (' (auto)",
  "breaks": [],
  "mod": "Flags",
  "id": "w0_450"
 }
]