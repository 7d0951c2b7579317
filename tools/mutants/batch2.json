[
{
"id": "p029",
"edits": [
[
"Ssh.v",
"if pem_encrypted b then Fail (EMsg \"ssh: no support for legacy PEM encrypted keys\")\n      else",
""
]
],
"definition": "parse_ssh_private",
"desc": "legacy encrypted PEM accepted",
"breaks": [
"C39"
]
},
{
"id": "p030",
"edits": [
[
"Ssh.v",
"if beq (pem_type b) (str \"OPENSSH PRIVATE KEY\") then",
"if true then"
]
],
"definition": "parse_ssh_private",
"desc": "PEM type not checked",
"breaks": [
"C39"
]
},
{
"id": "p057",
"edits": [
[
"Fs.v",
"| None => match se_open v with Some e => Fail e | None => Ok tt end",
"| None => Ok tt"
]
],
"definition": "safe_open",
"desc": "open error ignored",
"breaks": [
"C42"
]
},
{
"id": "p061",
"edits": [
[
"Fs.v",
"   else [ORemove (se_tmp v)]).",
"   else [])."
]
],
"definition": "sf_ops",
"desc": "temporary file left behind",
"breaks": [
"C42"
]
},
{
"id": "p067",
"edits": [
[
"Store.v",
"| (Fail e, g) => ([], Fail e, g)",
"| (Fail e, g) => ([], Ok tt, g)"
]
],
"definition": "serialize_private",
"desc": "marshal error swallowed",
"breaks": [
"C42",
"C43"
]
},
{
"id": "p069",
"edits": [
[
"Cli.v",
"if nopw then Ok []\n  else",
""
]
],
"definition": "get_pass",
"desc": "--no-password ignored",
"breaks": [
"C43",
"C47"
]
},
{
"id": "n002",
"edits": [
[
"Stream.v",
"if (len buf =? max) && (0 <? len b) then",
"if (len buf =? max) then"
]
],
"definition": "ew_loop",
"desc": "a full last chunk is flushed by Write, Close adds an empty frame",
"breaks": [
"C06"
]
},
{
"id": "n003",
"edits": [
[
"Stream.v",
"ew_loop C f e w g (mkEw [] (u32 (ew_blk s + 1)) (ew_err s)) b",
"ew_loop C f e w g (mkEw [] (ew_blk s) (ew_err s)) b"
]
],
"definition": "ew_loop",
"desc": "block number not incremented by Write",
"breaks": [
"C07",
"C02"
]
},
{
"id": "n008",
"edits": [
[
"Stream.v",
"enc_block C e (ew_buf s) w (ew_blk s) true g",
"enc_block C e (ew_buf s) w (ew_blk s) false g"
]
],
"definition": "ew_close",
"desc": "Close does not mark the last frame",
"breaks": [
"C02",
"C06"
]
},
{
"id": "n029",
"edits": [
[
"Keys.v",
"if negb (len buf =? 64)",
"if (len buf <? 64)"
]
],
"definition": "make_private_from_bytes",
"desc": "longer private keys accepted",
"breaks": [
"C67"
]
},
{
"id": "n031",
"edits": [
[
"Keys.v",
"mkPriv (seed ++ pkb) None",
"mkPriv (pkb ++ seed) None"
]
],
"definition": "new_private_key",
"desc": "halves of the private key swapped",
"breaks": [
"C30",
"C43"
]
},
{
"id": "r001",
"edits": [
[
"Main.v",
"if mo_version o then quit 0",
"if mo_version o then quit 1"
]
],
"definition": "main",
"desc": "--version exits with an error",
"breaks": [
"C55"
]
},
{
"id": "r002",
"edits": [
[
"Main.v",
"else if mo_help o then quit 0\n",
""
]
],
"definition": "main",
"desc": "--help ignored",
"breaks": [
"C55"
]
},
{
"id": "r003",
"edits": [
[
"Main.v",
"| [] => quit 1\n           | a :: args",
"| [] => quit 0\n           | a :: args"
]
],
"definition": "main",
"desc": "no command at all is a success",
"breaks": [
"C55"
]
},
{
"id": "r004",
"edits": [
[
"Main.v",
"| None => quit 1\n               | Some canon",
"| None => quit 0\n               | Some canon"
]
],
"definition": "main",
"desc": "unknown command is a success",
"breaks": [
"C55"
]
},
{
"id": "r005",
"edits": [
[
"Main.v",
"(to_lower a)",
"a"
]
],
"definition": "main",
"desc": "command words are case-sensitive",
"breaks": [
"C55"
]
},
{
"id": "r006",
"edits": [
[
"Main.v",
"run_command C E W P v1 v2 c args",
"run_command C E W P v1 v2 c (mo_args o)"
]
],
"definition": "main",
"desc": "the command word is passed on as an argument",
"breaks": [
"C55"
]
},
{
"id": "r007",
"edits": [
[
"Main.v",
"| _ :: _, [w] => Some w",
"| _ :: _, w :: _ => Some w"
]
],
"definition": "abbrev",
"desc": "ambiguous prefixes take the first command",
"breaks": [
"C55"
]
},
{
"id": "r008",
"edits": [
[
"Main.v",
"if existsb (beq a) words then Some a\n  else ",
""
]
],
"definition": "abbrev",
"desc": "exact words looked up as prefixes only",
"breaks": [
"C55"
]
},
{
"id": "r009",
"edits": [
[
"Main.v",
"| _ :: _, [w] => Some w",
"| _, [w] => Some w"
]
],
"definition": "abbrev",
"desc": "empty word (cannot match one word only)",
"breaks": []
},
{
"id": "r010",
"edits": [
[
"Main.v",
"(str \"sign\", Sign); (str \"verify\", Verify)",
"(str \"sign\", Verify); (str \"verify\", Sign)"
]
],
"definition": "cmds",
"desc": "sign and verify swapped in the table",
"breaks": [
"C55"
]
},
{
"id": "r011",
"edits": [
[
"Main.v",
"(str \"decrypt\", Decrypt_); ",
""
]
],
"definition": "cmds",
"desc": "decrypt missing from the table",
"breaks": [
"C55"
]
},
{
"id": "r012",
"edits": [
[
"Main.v",
"| Decrypt_ => match fl_dec P args with Quit c => quit c | Options o => cli_decrypt C E W v1 o end",
"| Decrypt_ => match fl_dec P args with Quit c => quit 0 | Options o => cli_decrypt C E W v1 o end"
]
],
"definition": "run_command",
"desc": "a wrong flag of decrypt exits with 0",
"breaks": [
"C55"
]
},
{
"id": "r013",
"edits": [
[
"Main.v",
"cli_generate C E W v1 v2 o",
"cli_generate C E W v2 v1 o"
]
],
"definition": "run_command",
"desc": "the two SafeFile environments swapped (model symmetry)",
"breaks": []
},
{
"id": "r014",
"edits": [
[
"Main.v",
"(65 <=? b2z c) && (b2z c <=? 90)",
"(65 <=? b2z c) && (b2z c <? 90)"
]
],
"definition": "to_lower",
"desc": "Z is not lowered",
"breaks": [
"C55"
]
},
{
"id": "r015",
"edits": [
[
"Main.v",
"z2b (b2z c + 32)",
"z2b (b2z c + 31)"
]
],
"definition": "to_lower",
"desc": "wrong offset",
"breaks": [
"C55"
]
},
{
"id": "r016",
"edits": [
[
"Cli.v",
"(if quiet then wo_stdout W else",
"(if negb quiet then wo_stdout W else"
]
],
"definition": "cli_verify_cmd",
"desc": "--quiet inverted",
"breaks": [
"C55",
"C62"
]
},
{
"id": "r017",
"edits": [
[
"Cli.v",
"(if ok then str \" verified\" else str \" verification failure\")",
"(if ok then str \" verification failure\" else str \" verified\")"
]
],
"definition": "verify_text",
"desc": "verify prints the opposite verdict",
"breaks": [
"C62"
]
},
{
"id": "r018",
"edits": [
[
"Cli.v",
"fn ++ str \": Signature \" ++ sn ++",
"sn ++ str \": Signature \" ++ fn ++"
]
],
"definition": "verify_text",
"desc": "names swapped in the verdict",
"breaks": [
"C62"
]
},
{
"id": "r019",
"edits": [
[
"Cli.v",
"mkOut (if ok then 0 else 1) []",
"mkOut 0 []"
]
],
"definition": "cli_verify_cmd",
"desc": "a bad signature exits 0 in the command",
"breaks": [
"C47",
"C62"
]
},
{
"id": "r020",
"edits": [
[
"Cli.v",
"match (match make_public_from_string C pn with",
"match (match make_public_from_string C sn with"
]
],
"definition": "verify_with",
"desc": "key argument read from the signature argument",
"breaks": [
"C47"
]
},
{
"id": "r021",
"edits": [
[
"Cli.v",
"read_signature E (slurp W sn)",
"read_signature E (slurp W pn)"
]
],
"definition": "verify_with",
"desc": "signature read from the key file",
"breaks": [
"C47"
]
},
{
"id": "r022",
"edits": [
[
"Cli.v",
"verify_file C pk (map_in W fn) sig",
"verify_file C pk (map_in W sn) sig"
]
],
"definition": "verify_with",
"desc": "the signature file itself is verified",
"breaks": [
"C47"
]
},
{
"id": "r023",
"edits": [
[
"Cli.v",
"| None => die 2  ",
"| None => say fn sn true  "
]
],
"definition": "verify_with",
"desc": "a key of another type verifies anything",
"breaks": [
"C47",
"C53"
]
},
{
"id": "r024",
"edits": [
[
"Cli.v",
"let '(c, w) := body (wo_stdout W) in mkOut c [] w",
"let '(c, w) := body (wo_stdout W) in mkOut c [] (wo_stdout W)"
]
],
"definition": "with_output",
"desc": "output to stdout lost",
"breaks": [
"C62",
"C63"
]
},
{
"id": "r025",
"edits": [
[
"Cli.v",
"mkOut c (sf_ops v (wo_place W outfile) w) (wo_stdout W)",
"mkOut c (sf_ops v (wo_place W outfile) w) (snd (fullwrite (w_out w) (wo_stdout W)))"
]
],
"definition": "with_output",
"desc": "output copied to stdout too",
"breaks": [
"C62",
"C55"
]
},
{
"id": "r026",
"edits": [
[
"Cli.v",
"| r => mkOut (code_of r) [] (wo_stdout W)\n    end\n  else",
"| r => mkOut 0 [] (wo_stdout W)\n    end\n  else"
]
],
"definition": "with_output",
"desc": "existing output file silently skipped with exit 0",
"breaks": [
"C44",
"C45"
]
},
{
"id": "r027",
"edits": [
[
"Cli.v",
"(0 <? len o) && negb (beq o (str \"-\"))",
"(0 <? len o)"
]
],
"definition": "names_file",
"desc": "-o - writes a file named -",
"breaks": [
"C62",
"C45"
]
},
{
"id": "r028",
"edits": [
[
"Cli.v",
"if beq infile (str \"-\") then Ok (wo_stdin W) else open_in W infile) with\n            | Ok rd",
"open_in W infile) with\n            | Ok rd"
]
],
"definition": "cli_encrypt",
"desc": "- is not standard input for encrypt",
"breaks": [
"C63"
]
},
{
"id": "r029",
"edits": [
[
"Cli.v",
"| Fail e => if not_exist e then go [] else done 1",
"| Fail e => go []"
]
],
"definition": "cli_encrypt",
"desc": "unreadable authorized_keys ignored",
"breaks": [
"C48"
]
},
{
"id": "r030",
"edits": [
[
"Cli.v",
"if len (eo_args o) <? 2 then done 1",
"if len (eo_args o) <? 1 then done 1"
]
],
"definition": "cli_encrypt",
"desc": "encryption without recipients",
"breaks": [
"C48",
"C45"
]
},
{
"id": "r031",
"edits": [
[
"Cli.v",
"(removelast (eo_args o))",
"(eo_args o)"
]
],
"definition": "cli_encrypt",
"desc": "the input file is taken as a recipient too",
"breaks": [
"C48"
]
},
{
"id": "r032",
"edits": [
[
"Cli.v",
"let pka := match r with Ok pka => pka | _ => [] end in",
"let pka := [] in"
]
],
"definition": "cli_encrypt",
"desc": "authorized_keys never used",
"breaks": [
"C48"
]
},
{
"id": "r033",
"edits": [
[
"Cli.v",
"with_output W v (eo_outfile o) (names_file (eo_outfile o)) (eo_force o)",
"with_output W v (eo_outfile o) (names_file (eo_outfile o)) true"
]
],
"definition": "cli_encrypt",
"desc": "encrypt always overwrites",
"breaks": [
"C44"
]
},
{
"id": "r034",
"edits": [
[
"Cli.v",
"if 0 <? errs then (1, w)\n          else ",
""
]
],
"definition": "enc_body",
"desc": "errors with recipients ignored",
"breaks": [
"C48"
]
},
{
"id": "r035",
"edits": [
[
"Cli.v",
"| (_, _, w, _, r) => (code_of r, w)",
"| (_, _, w, _, r) => (code_of r, snd (w_close w))"
]
],
"definition": "enc_body",
"desc": "partial output committed after an encryption error",
"breaks": [
"C45"
]
},
{
"id": "r036",
"edits": [
[
"Cli.v",
"enc_recipients C E W pka fns' e g (errs + 1)",
"enc_recipients C E W pka fns' e g errs"
]
],
"definition": "enc_recipients",
"desc": "a missing recipient is not counted",
"breaks": [
"C48"
]
},
{
"id": "r037",
"edits": [
[
"Cli.v",
"0 <? i",
"0 <=? i"
]
],
"definition": "is_user",
"desc": "@name is a user",
"breaks": [
"C48"
]
},
{
"id": "r038",
"edits": [
[
"Cli.v",
"| (_, w, r) => (code_of r, w)\n          end",
"| (_, w, r) => (code_of r, snd (w_close w))\n          end"
]
],
"definition": "dec_body",
"desc": "partial plaintext committed after a decryption error",
"breaks": [
"C45"
]
},
{
"id": "r039",
"edits": [
[
"Cli.v",
"set_private_key C d sk pk with",
"set_private_key C d sk None with"
]
],
"definition": "dec_body",
"desc": "-v ignored by decrypt",
"breaks": [
"C46"
]
},
{
"id": "r040",
"edits": [
[
"Cli.v",
"if do_test o then done (fst (dec_body C sk pk rd (mkWriter [] [] [] 0)))\n                  else ",
""
]
],
"definition": "cli_decrypt",
"desc": "--test writes output",
"breaks": [
"C45",
"C68"
]
},
{
"id": "r041",
"edits": [
[
"Cli.v",
"if do_test o then done (fst (dec_body C sk pk rd (mkWriter [] [] [] 0)))",
"if do_test o then done 0"
]
],
"definition": "cli_decrypt",
"desc": "--test always succeeds",
"breaks": [
"C65",
"C46"
]
},
{
"id": "r042",
"edits": [
[
"Cli.v",
"| [] => Ok (wo_stdin W)\n",
"| [] => Fail (EMsg \"no input\")\n"
]
],
"definition": "cli_decrypt",
"desc": "decrypt does not default to stdin",
"breaks": [
"C63"
]
},
{
"id": "r043",
"edits": [
[
"Cli.v",
"fn ++ str \".sig\"",
"fn ++ str \".sg\""
]
],
"definition": "cli_sign",
"desc": "wrong default name of the signature",
"breaks": [
"C49"
]
},
{
"id": "r044",
"edits": [
[
"Cli.v",
"sign_file C sk (map_in W fn)",
"sign_file C sk (map_in W kn)"
]
],
"definition": "sign_body",
"desc": "the key file is signed instead of the input",
"breaks": [
"C52",
"C49"
]
},
{
"id": "r045",
"edits": [
[
"Cli.v",
"(str \"input=\" ++ fn)",
"(str \"input=\" ++ kn)"
]
],
"definition": "sign_body",
"desc": "comment names the key file",
"breaks": [
"C49"
]
},
{
"id": "r046",
"edits": [
[
"Cli.v",
"w in (0, snd (w_close w))",
"w in (0, w)"
]
],
"definition": "sign_body",
"desc": "signature file never closed",
"breaks": [
"C49",
"C52"
]
},
{
"id": "r047",
"edits": [
[
"Cli.v",
"let pkn := wo_clean W bn ++ str \".pub\" in",
"let pkn := wo_clean W bn ++ str \".key\" in"
]
],
"definition": "cli_generate",
"desc": "both keys to one file",
"breaks": [
"C43"
]
},
{
"id": "r048",
"edits": [
[
"Cli.v",
"(ge_comment o) (ge_force o) pw g with",
"(ge_comment o) (ge_force o) [] g with"
]
],
"definition": "cli_generate",
"desc": "passphrase not used by generate",
"breaks": [
"C43"
]
},
{
"id": "r049",
"edits": [
[
"Cli.v",
"(sk_pk sk) (ge_comment o) (ge_force o) with",
"(sk_pk sk) [] (ge_force o) with"
]
],
"definition": "cli_generate",
"desc": "comment not written to the public key",
"breaks": [
"C43"
]
},
{
"id": "r050",
"edits": [
[
"Cli.v",
"done (code_of r) (ops1 ++ ops2)",
"done 0 (ops1 ++ ops2)"
]
],
"definition": "cli_generate",
"desc": "failure to write the public key not reported",
"breaks": [
"C43"
]
},
{
"id": "r051",
"edits": [
[
"Cli.v",
"(exists_ W pkn || exists_ W skn)",
"(exists_ W pkn && exists_ W skn)"
]
],
"definition": "cli_generate",
"desc": "only refuses if both exist",
"breaks": [
"C43"
]
},
{
"id": "r052",
"edits": [
[
"Cli.v",
"else if 0 <? len envpw then Ok (wo_getenv W envpw)\n",
""
]
],
"definition": "get_pass",
"desc": "--env-password ignored",
"breaks": [
"C47"
]
},
{
"id": "r053",
"edits": [
[
"Encrypt.v",
"let '(salt, g) := rand_buf salt_size g in\n  (match",
"let '(salt, _) := rand_buf salt_size g in\n  (match"
]
],
"definition": "new_encryptor",
"desc": "salt bytes drawn again for the first recipient",
"breaks": [
"C58",
"C61"
]
},
{
"id": "r054",
"edits": [
[
"Encrypt.v",
"let '(key, g) := rand_buf aes_key_size g in\n  let '(salt, g)",
"let '(key, _) := rand_buf aes_key_size g in\n  let '(salt, g)"
]
],
"definition": "new_encryptor",
"desc": "salt shares randomness with the file key",
"breaks": [
"C58"
]
},
{
"id": "r055",
"edits": [
[
"Encrypt.v",
"let '(rbuf, g) := rand_buf rx_nonce_size g in",
"let '(rbuf, _) := rand_buf rx_nonce_size g in"
]
],
"definition": "wrap_key",
"desc": "all recipients get the same nonce",
"breaks": [
"C58"
]
},
{
"id": "r056",
"edits": [
[
"Encrypt.v",
"if e_started e then (e, pk, g, Fail ErrEncStarted)\n  else",
""
]
],
"definition": "add_recipient",
"desc": "recipients added after start",
"breaks": [
"C17"
]
},
{
"id": "r057",
"edits": [
[
"Encrypt.v",
"if e_stream e then (e, r, w, g, Fail ErrEncIsStream)\n  else",
""
]
],
"definition": "encrypt",
"desc": "Encrypt allowed on a stream",
"breaks": [
"C18"
]
},
{
"id": "r058",
"edits": [
[
"Encrypt.v",
"(e_sender e) (e_auth e) true (e_stream e)",
"(e_sender e) (e_auth e) false (e_stream e)"
]
],
"definition": "enc_start",
"desc": "start does not record that it started",
"breaks": [
"C17",
"C18"
]
},
{
"id": "r059",
"edits": [
[
"Encrypt.v",
"let '(e, w, rs) := if e_started e then (e, w, Ok tt) else enc_start C e w in\n    match rs with\n    | Ok _ =>\n        let '(e, r",
"let '(e, w, rs) := enc_start C e w in\n    match rs with\n    | Ok _ =>\n        let '(e, r"
]
],
"definition": "encrypt",
"desc": "a second Encrypt writes a header again",
"breaks": [
"C70"
]
},
{
"id": "r060",
"edits": [
[
"Decrypt.v",
"else if d_eof d then (d, w, Fail IoEOF)\n",
""
]
],
"definition": "decrypt",
"desc": "Decrypt may be repeated",
"breaks": [
"C18"
]
},
{
"id": "r061",
"edits": [
[
"Decrypt.v",
"if d_stream d then (d, w, Fail ErrDecStarted)\n      else ",
""
]
],
"definition": "decrypt",
"desc": "Decrypt allowed on a stream",
"breaks": [
"C18"
]
},
{
"id": "r062",
"edits": [
[
"Decrypt.v",
"let auth := d_auth d || signed in",
"let auth := signed in"
]
],
"definition": "set_private_key",
"desc": "authentication flag reset by a later call",
"breaks": [
"C60"
]
},
{
"id": "r063",
"edits": [
[
"Decrypt.v",
"if eof then (d_set_eof d true, w, Ok tt)",
"if eof then (d, w, Ok tt)"
]
],
"definition": "dec_loop",
"desc": "end of file not remembered",
"breaks": [
"C18"
]
},
{
"id": "r064",
"edits": [
[
"Decrypt.v",
"let d' := d_with d (d_hmac d) r (d_buf d) in",
"let d' := d_with d (d_hmac d) (d_rd d) (d_buf d) in"
]
],
"definition": "process_trailer",
"desc": "trailer not consumed",
"breaks": [
"C19"
]
},
{
"id": "r065",
"edits": [
[
"Decrypt.v",
"if 1048576 <? varSize then",
"if 2097152 <? varSize then"
]
],
"definition": "new_decryptor",
"desc": "header limit doubled",
"breaks": [
"C19",
"C57",
"C67"
]
},
{
"id": "r066",
"edits": [
[
"Decrypt.v",
"(h_chunk h =? 0) || (max_chunk <=? h_chunk h)",
"(max_chunk <=? h_chunk h)"
]
],
"definition": "new_decryptor",
"desc": "chunk size 0 accepted",
"breaks": [
"C19",
"C67"
]
},
{
"id": "r067",
"edits": [
[
"Stream.v",
"er_deliver (d_set_eof d eof) (mkEr 0 m (u32 (er_blk s + 1)) None) n",
"er_deliver d (mkEr 0 m (u32 (er_blk s + 1)) None) n"
]
],
"definition": "er_read",
"desc": "stream reader does not remember the last chunk",
"breaks": [
"C03",
"C28",
"C69"
]
},
{
"id": "r068",
"edits": [
[
"Stream.v",
"er_deliver (d_set_eof d eof) (mkEr 0 m (u32 (er_blk s + 1)) None) n",
"er_deliver (d_set_eof d eof) (mkEr 0 m (er_blk s) None) n"
]
],
"definition": "er_read",
"desc": "block number not advanced",
"breaks": [
"C02",
"C69"
]
},
{
"id": "r069",
"edits": [
[
"Stream.v",
"(d, mkEr (er_off s) (er_len s) (er_blk s) (Some x), ([], Fail x))",
"(d, s, ([], Fail x))"
]
],
"definition": "er_read",
"desc": "error not remembered",
"breaks": [
"C28"
]
},
{
"id": "r070",
"edits": [
[
"Stream.v",
"else (d, mkEr (er_off s) (er_len s) (er_blk s) (Some IoEOF), ([], Fail IoEOF))",
"else (d, mkEr (er_off s) (er_len s) (er_blk s) None, ([], Ok tt))"
]
],
"definition": "er_deliver",
"desc": "empty last chunk: Read returns 0, nil",
"breaks": [
"C28",
"C03"
]
},
{
"id": "r071",
"edits": [
[
"Stream.v",
"if d_eof d then (d, Fail IoEOF)\n      else",
""
]
],
"definition": "new_stream_reader",
"desc": "a stream reader after Decrypt",
"breaks": [
"C18"
]
},
{
"id": "r072",
"edits": [
[
"Stream.v",
"(e_sender e) (e_auth e) (e_started e) true",
"(e_sender e) (e_auth e) (e_started e) false"
]
],
"definition": "new_stream_writer",
"desc": "stream flag not set",
"breaks": [
"C18"
]
},
{
"id": "r073",
"edits": [
[
"Stream.v",
"let s := mkEw [] (ew_blk s) (Some ErrClosed) in",
"let s := mkEw [] (ew_blk s) None in"
]
],
"definition": "ew_close",
"desc": "Close may be repeated",
"breaks": [
"C27"
]
},
{
"id": "r074",
"edits": [
[
"Fs.v",
"| (Some e, w) => (sf_ops v dst w, Fail e)\n                     | (None, w) => (sf_ops v dst w, Ok tt)",
"| (Some e, w) => (sf_ops v dst w, Fail e)\n                     | (None, w) => (sf_ops v dst w, Fail ErrClosed)"
]
],
"definition": "write_file",
"desc": "writeFile always fails",
"breaks": [
"C42"
]
},
{
"id": "r075",
"edits": [
[
"Fs.v",
"| (Some e, w) => (sf_ops v dst w, Fail e)\n                     | (None, w)",
"| (Some e, w) => (sf_ops v dst w, Ok tt)\n                     | (None, w)"
]
],
"definition": "write_file",
"desc": "commit errors swallowed",
"breaks": [
"C42"
]
},
{
"id": "r076",
"edits": [
[
"Fs.v",
"| (Some e, w) => (sf_ops v dst w, Fail e)\n      | (None, w) => match",
"| (Some e, w) => (sf_ops v dst w, Ok tt)\n      | (None, w) => match"
]
],
"definition": "write_file",
"desc": "write errors swallowed",
"breaks": [
"C42"
]
},
{
"id": "n049",
"edits": [
[
"KeyFiles.v",
"(b64_encode salt) sk_algo",
"(b64_encode (zeros 32)) sk_algo"
]
],
"definition": "marshal_private",
"desc": "wrong salt stored",
"breaks": [
"C34"
]
},
{
"id": "n050",
"edits": [
[
"KeyFiles.v",
"let pass := sha512 C pw in",
"let pass := pw in"
]
],
"definition": "marshal_private",
"desc": "password not hashed when writing",
"breaks": [
"C34"
]
},
{
"id": "n051",
"edits": [
[
"KeyFiles.v",
"scrypt_N scrypt_r scrypt_p)), g)",
"scrypt_N scrypt_p scrypt_r)), g)"
]
],
"definition": "marshal_private",
"desc": "r and p swapped in the file",
"breaks": [
"C34"
]
},
{
"id": "n052",
"edits": [
[
"KeyFiles.v",
"Some i => 0 <? i",
"Some i => true"
]
],
"definition": "looks_openssh",
"desc": "marker at position 0 selects the OpenSSH parser",
"breaks": [
"C34"
]
},
{
"id": "n053",
"edits": [
[
"KeyFiles.v",
"| None => Fail (EMsg \"unmarshal priv key: wrong password\")",
"| None => make_private_from_bytes C sk (zeros 64)"
]
],
"definition": "unmarshal_private",
"desc": "wrong password yields an all-zero key",
"breaks": [
"C34"
]
},
{
"id": "n054",
"edits": [
[
"KeyFiles.v",
"if (len (sp_salt ssk) =? 0) || (len (sp_esk ssk) =? 0) then",
"if (len (sp_esk ssk) =? 0) then"
]
],
"definition": "unmarshal_private",
"desc": "missing salt not detected",
"breaks": [
"C36"
]
},
{
"id": "n055",
"edits": [
[
"KeyFiles.v",
"if len full <? gcm_nonce_size then Panic \"slice bounds out of range\"\n              else",
"if len full <? gcm_nonce_size then Fail (EMsg \"short salt\")\n              else"
]
],
"definition": "unmarshal_private",
"desc": "short salt is an error (a fix: C36_refuted must stop holding)",
"breaks": [
"C36"
]
},
{
"id": "n056",
"edits": [
[
"KeyFiles.v",
"(b64_encode (pk_Pk pk)) (b64_encode (pk_hash pk))",
"(b64_encode (pk_hash pk)) (b64_encode (pk_Pk pk))"
]
],
"definition": "marshal_public",
"desc": "key and hash swapped",
"breaks": [
"C33"
]
},
{
"id": "n057",
"edits": [
[
"KeyFiles.v",
"| Fail _ =>\n      match y_pub E yml with\n      | None => (pk, Fail (EMsg \"can't parse YAML: %s\"))",
"| Fail _ =>\n      match y_pub E yml with\n      | None => (pk, Ok tt)"
]
],
"definition": "unmarshal_public",
"desc": "unparsable public key accepted",
"breaks": [
"C33"
]
},
{
"id": "n058",
"edits": [
[
"KeyFiles.v",
"pkb <- b64_decode s ;; pk <- make_public_from_bytes C zero_pub pkb ;; Ok (Some pk)",
"pkb <- b64_decode s ;; Ok (Some (mkPub pkb [] None (pkhash C pkb)))"
]
],
"definition": "make_public_from_string",
"desc": "length of a key string not checked",
"breaks": [
"C54"
]
},
{
"id": "n059",
"edits": [
[
"KeyFiles.v",
"(b64_encode (sig_pkhash s)) (b64_encode (sig_Sig s))",
"(b64_encode (sig_Sig s)) (b64_encode (sig_pkhash s))"
]
],
"definition": "marshal_signature",
"desc": "signature fields swapped",
"breaks": [
"C32"
]
},
{
"id": "n060",
"edits": [
[
"KeyFiles.v",
"mkSsig comment (b64_encode (sig_pkhash s))",
"mkSsig comment []"
]
],
"definition": "marshal_signature",
"desc": "key hash not written",
"breaks": [
"C32",
"C52"
]
},
{
"id": "n061",
"edits": [
[
"KeyFiles.v",
"| Ok p => (mkSig sg p, Ok tt)",
"| Ok p => (mkSig sg (sig_pkhash s), Ok tt)"
]
],
"definition": "unmarshal_signature",
"desc": "key hash not loaded",
"breaks": [
"C32"
]
},
{
"id": "n062",
"edits": [
[
"KeyFiles.v",
"y_opt E \"comment\" (sp_comment r) ++ y_field \"esk\"",
"y_field \"esk\""
]
],
"definition": "yaml_priv",
"desc": "comment not written into the private key file",
"breaks": []
},
{
"id": "n063",
"edits": [
[
"KeyFiles.v",
"y_opt E \"comment\" (su_comment r) ++ y_field \"pk\"",
"y_field \"pk\""
]
],
"definition": "yaml_pub",
"desc": "comment not written into the public key file",
"breaks": []
},
{
"id": "n064",
"edits": [
[
"Base64.v",
"456789+/\"",
"456789-_\""
]
],
"definition": "b64_alphabet",
"desc": "URL alphabet",
"breaks": [
"C40"
]
},
{
"id": "n065",
"edits": [
[
"Base64.v",
"b64_char (v / 2^6 mod 64); x3d]",
"b64_char (v / 2^6 mod 64)]"
]
],
"definition": "b64_encode",
"desc": "no padding",
"breaks": [
"C40"
]
},
{
"id": "n066",
"edits": [
[
"Base64.v",
"if is_crlf c then b64_dec s' q\n          else",
""
]
],
"definition": "b64_dec",
"desc": "CR/LF not skipped",
"breaks": [
"C40"
]
},
{
"id": "n067",
"edits": [
[
"Base64.v",
"| [] => match q with [] => Some [] | _ => None end",
"| [] => Some []"
]
],
"definition": "b64_dec",
"desc": "truncated quantum accepted",
"breaks": [
"C40"
]
},
{
"id": "n068",
"edits": [
[
"Base64.v",
"match skip_nl s' with\n                   | [] => let v := d0 * 2^18 + d1 * 2^12 + d2 * 2^6 in Some [z2b (v / 2^16); z2b (v / 2^8)]\n                   | _ => None\n                   end",
"let v := d0 * 2^18 + d1 * 2^12 + d2 * 2^6 in Some [z2b (v / 2^16); z2b (v / 2^8)]"
]
],
"definition": "b64_dec",
"desc": "data after the padding ignored",
"breaks": [
"C40"
]
},
{
"id": "n069",
"edits": [
[
"Base64.v",
"Byte.eqb c x0a || Byte.eqb c x0d",
"Byte.eqb c x0a || Byte.eqb c x0d || Byte.eqb c x20"
]
],
"definition": "is_crlf",
"desc": "blanks skipped too",
"breaks": [
"C40"
]
},
{
"id": "m001",
"edits": [
[
"Encrypt.v",
"Definition eof_bit : Z := 2^31.",
"Definition eof_bit : Z := 2^30."
]
],
"definition": "eof_bit",
"desc": "EOF bit is bit 30",
"breaks": [
"C05",
"C06"
]
},
{
"id": "m002",
"edits": [
[
"Encrypt.v",
"Definition max_chunk : Z := 2^30.",
"Definition max_chunk : Z := 2^31."
]
],
"definition": "max_chunk",
"desc": "chunk limit 2 GiB",
"breaks": [
"C19",
"C23"
]
},
{
"id": "m003",
"edits": [
[
"Encrypt.v",
"if max_chunk <? blksize then max_chunk\n  else u32 blksize",
"u32 blksize"
]
],
"definition": "block_size",
"desc": "no upper limit on the block size",
"breaks": [
"C23"
]
},
{
"id": "m004",
"edits": [
[
"Encrypt.v",
"if blksize =? 0 then chunk_default\n  else ",
""
]
],
"definition": "block_size",
"desc": "no default for block size 0",
"breaks": [
"C23"
]
},
{
"id": "m005",
"edits": [
[
"Encrypt.v",
"Definition chunk_default : Z := 4 * 1048576.",
"Definition chunk_default : Z := 1048576."
]
],
"definition": "chunk_default",
"desc": "default chunk 1 MiB",
"breaks": [
"C23"
]
},
{
"id": "m006",
"edits": [
[
"Encrypt.v",
"pk ++ salt ++ key)",
"salt ++ key)"
]
],
"definition": "sender_cksum",
"desc": "ephemeral key not covered by the sender signature",
"breaks": [
"C12"
]
},
{
"id": "m007",
"edits": [
[
"Encrypt.v",
"pk ++ salt ++ key)",
"pk ++ salt)"
]
],
"definition": "sender_cksum",
"desc": "root key not covered by the sender signature",
"breaks": [
"C12"
]
},
{
"id": "m008",
"edits": [
[
"Encrypt.v",
"| None => Ok (zeros sig_size, false)",
"| None => Ok (zeros sig_size, true)"
]
],
"definition": "add_sender_sig",
"desc": "anonymous sender marked as authenticated: trailer dereferences nil",
"breaks": [
"C01",
"C18"
]
},
{
"id": "m009",
"edits": [
[
"Encrypt.v",
"Ok (sig_Sig s, true)",
"Ok (sig_Sig s, false)"
]
],
"definition": "add_sender_sig",
"desc": "signed file: random trailer",
"breaks": [
"C13",
"C01"
]
},
{
"id": "m010",
"edits": [
[
"Encrypt.v",
"| None => Ok (zeros sig_size, false)",
"| None => Ok (zeros 32, false)"
]
],
"definition": "add_sender_sig",
"desc": "anonymous marker of 32 zero bytes",
"breaks": [
"C01"
]
},
{
"id": "m011",
"edits": [
[
"Encrypt.v",
"mkHeader blksz salt epk snd_ [] []",
"mkHeader blksz salt esk snd_ [] []"
]
],
"definition": "new_encryptor",
"desc": "ephemeral private key published instead of the public one",
"breaks": [
"C01"
]
},
{
"id": "m012",
"edits": [
[
"Encrypt.v",
"gcm_seal C ae nonce (e_key e) (pk_Pk pk)",
"gcm_seal C ae nonce (e_key e) []"
]
],
"definition": "wrap_key",
"desc": "wrapped key not bound to the recipient",
"breaks": [
"C01",
"C16"
]
},
{
"id": "m013",
"edits": [
[
"Encrypt.v",
"sha256 C (h_salt (e_hdr e) ++ rbuf)",
"sha256 C rbuf"
]
],
"definition": "wrap_key",
"desc": "file salt not used when wrapping",
"breaks": [
"C01",
"C16"
]
},
{
"id": "m014",
"edits": [
[
"Encrypt.v",
"(h_keys h ++ [w])",
"([w])"
]
],
"definition": "h_add_key",
"desc": "only the last recipient is kept",
"breaks": [
"C16",
"C48"
]
},
{
"id": "m015",
"edits": [
[
"Encrypt.v",
"(h_keys h ++ [w])",
"(w :: h_keys h)"
]
],
"definition": "h_add_key",
"desc": "recipients stored in reverse order",
"breaks": [
"C48"
]
},
{
"id": "m016",
"edits": [
[
"Encrypt.v",
"if e_started e then (e, pk, g, Fail ErrEncStarted)\n  else",
""
]
],
"definition": "add_recipient",
"desc": "no started check",
"breaks": [
"C17"
]
},
{
"id": "m017",
"edits": [
[
"Encrypt.v",
"(e, match to_curve_pk pk with Ok (_, pk') => pk' | _ => pk end, g, Fail x)",
"(e_with_hdr e (h_add_key (e_hdr e) (mkWkey [] [] [])), pk, g, Fail x)"
]
],
"definition": "add_recipient",
"desc": "failed AddRecipient appends an empty wrapped key",
"breaks": [
"C17"
]
},
{
"id": "m018",
"edits": [
[
"Encrypt.v",
"be32 (u32 varSize)",
"be32 (u32 (varSize + sha256_size))"
]
],
"definition": "fixed_header",
"desc": "length field counts the checksum too",
"breaks": [
"C05",
"C01"
]
},
{
"id": "m019",
"edits": [
[
"Encrypt.v",
"let cksum := sha256 C hdr in",
"let cksum := sha256 C varHdr in"
]
],
"definition": "enc_start",
"desc": "checksum over the variable header only",
"breaks": [
"C05",
"C01"
]
},
{
"id": "m020",
"edits": [
[
"Encrypt.v",
"let nonce := take aead_nonce_size buf in\n      let buf := drop aead_nonce_size buf in\n      let dkey := take aes_key_size buf in\n      let hmackey := drop aes_key_size buf in",
"let dkey := take aes_key_size buf in\n      let buf := drop aes_key_size buf in\n      let nonce := take aead_nonce_size buf in\n      let hmackey := drop aead_nonce_size buf in"
]
],
"definition": "enc_start",
"desc": "data key and nonce cut from the expansion in another order",
"breaks": [
"C01"
]
},
{
"id": "m021",
"edits": [
[
"Encrypt.v",
"(e_sender e) (e_auth e) true (e_stream e),\n               w', Ok tt)",
"(e_sender e) (e_auth e) false (e_stream e),\n               w', Ok tt)"
]
],
"definition": "enc_start",
"desc": "started flag not set",
"breaks": [
"C17"
]
},
{
"id": "m022",
"edits": [
[
"Encrypt.v",
"u32 (h_chunk (e_hdr e) + 4 + gcm_overhead)",
"u32 (h_chunk (e_hdr e) + gcm_overhead)"
]
],
"definition": "enc_start",
"desc": "encryption buffer 4 bytes short",
"breaks": [
"C01",
"C21"
]
},
{
"id": "m023",
"edits": [
[
"Encrypt.v",
"be32 i ++ drop 4 n",
"be32 0 ++ drop 4 n"
]
],
"definition": "chunk_nonce",
"desc": "chunk counter not mixed into the nonce",
"breaks": [
"C07",
"C09"
]
},
{
"id": "m024",
"edits": [
[
"Encrypt.v",
"be32 i ++ drop 4 n",
"[z2b i] ++ drop 1 n"
]
],
"definition": "chunk_nonce",
"desc": "8-bit chunk counter",
"breaks": [
"C07"
]
},
{
"id": "m025",
"edits": [
[
"Encrypt.v",
"sign_message C sk (hmac_sha256 C k d)",
"sign_message C sk (hmac_sha256 C k [])"
]
],
"definition": "write_trailer",
"desc": "trailer signs an empty HMAC",
"breaks": [
"C13",
"C01"
]
},
{
"id": "m026",
"edits": [
[
"Encrypt.v",
"rand_buf sig_size g in (Ok r, g)",
"rand_buf 32 g in (Ok r, g)"
]
],
"definition": "write_trailer",
"desc": "32-byte trailer for anonymous files",
"breaks": [
"C05"
]
},
{
"id": "m027",
"edits": [
[
"Encrypt.v",
"let ct := gcm_seal C k (chunk_nonce (e_nonce e) i) pt b in",
"let ct := gcm_seal C k (chunk_nonce (e_nonce e) i) pt [] in"
]
],
"definition": "enc_block",
"desc": "frame header not authenticated",
"breaks": [
"C09",
"C10",
"C01"
]
},
{
"id": "m028",
"edits": [
[
"Encrypt.v",
"(Some (hk, hd ++ b ++ pt))",
"(Some (hk, hd ++ pt))"
]
],
"definition": "enc_block",
"desc": "HMAC skips frame headers",
"breaks": [
"C13",
"C01"
]
},
{
"id": "m029",
"edits": [
[
"Encrypt.v",
"(Some (hk, hd ++ b ++ pt))",
"(Some (hk, b ++ pt))"
]
],
"definition": "enc_block",
"desc": "HMAC covers the last frame only",
"breaks": [
"C13",
"C01"
]
},
{
"id": "m030",
"edits": [
[
"Encrypt.v",
"let z := if eof then Z.lor z eof_bit else z in",
""
]
],
"definition": "enc_block",
"desc": "EOF bit never set",
"breaks": [
"C05",
"C06"
]
},
{
"id": "m031",
"edits": [
[
"Encrypt.v",
"| (Some x, w') => (e, w', g, Fail (EWrap \"encrypt\" x))\n        | (None, w') =>\n            let e'",
"| (_, w') =>\n            let e'"
]
],
"definition": "enc_block",
"desc": "write error of a frame ignored",
"breaks": [
"C21"
]
},
{
"id": "m032",
"edits": [
[
"Encrypt.v",
"if eof then\n              let '(w', g, r) := write_trailer C e' w' g in (e', w', g, r)\n            else (e', w', g, Ok tt)",
"(e', w', g, Ok tt)"
]
],
"definition": "enc_block",
"desc": "no trailer",
"breaks": [
"C05",
"C01"
]
},
{
"id": "m033",
"edits": [
[
"Encrypt.v",
"| Some IoEOF | Some ErrClosedPipe | Some ErrUnexpectedEOF => Ok true\n                 | Some x => Fail (EWrap \"encrypt: I/O read error\" x)",
"| Some _ => Ok true"
]
],
"definition": "enc_loop",
"desc": "any read error is taken for the end of the input",
"breaks": [
"C21"
]
},
{
"id": "m034",
"edits": [
[
"Encrypt.v",
"enc_loop C f e r w (u32 (i + 1)) g",
"enc_loop C f e r w i g"
]
],
"definition": "enc_loop",
"desc": "block number not incremented",
"breaks": [
"C07"
]
},
{
"id": "m035",
"edits": [
[
"Encrypt.v",
"enc_loop C f e r w (u32 (i + 1)) g",
"enc_loop C f e r w (u32 (i + 2)) g"
]
],
"definition": "enc_loop",
"desc": "block number incremented by two",
"breaks": [
"C01",
"C05"
]
},
{
"id": "m036",
"edits": [
[
"Encrypt.v",
"read_full r (h_chunk (e_hdr e))",
"read_full r (h_chunk (e_hdr e) - 1)"
]
],
"definition": "enc_loop",
"desc": "chunks one byte short",
"breaks": [
"C06"
]
},
{
"id": "m037",
"edits": [
[
"Encrypt.v",
"if e_stream e then (e, r, w, g, Fail ErrEncIsStream)\n  else",
""
]
],
"definition": "encrypt",
"desc": "no stream guard",
"breaks": [
"C18"
]
},
{
"id": "m038",
"edits": [
[
"Encrypt.v",
"| (Some x, w) => (e, r, w, g, Fail x)\n                  end",
"| (Some x, w) => (e, r, w, g, Ok tt)\n                  end"
]
],
"definition": "encrypt",
"desc": "Close error ignored",
"breaks": [
"C21"
]
},
{
"id": "m039",
"edits": [
[
"Encrypt.v",
"match w_close w with\n                  | (None, w) => (e, r, w, g, Ok tt)\n                  | (Some x, w) => (e, r, w, g, Fail x)\n                  end",
"(e, r, w, g, Ok tt)"
]
],
"definition": "encrypt",
"desc": "destination not closed",
"breaks": [
"C21",
"C45"
]
},
{
"id": "m040",
"edits": [
[
"Encrypt.v",
"if e_started e then (e, w, Ok tt) else enc_start C e w in",
"enc_start C e w in"
]
],
"definition": "encrypt",
"desc": "second Encrypt writes the header again",
"breaks": []
},
{
"id": "m041",
"edits": [
[
"Decrypt.v",
"<=? aes_key_size then",
"<? aes_key_size then"
]
],
"definition": "wkeys_sane",
"desc": "wrapped keys of 32 bytes accepted",
"breaks": [
"C19"
]
},
{
"id": "m042",
"edits": [
[
"Decrypt.v",
"then false else wkeys_sane ks'",
"then false else true"
]
],
"definition": "wkeys_sane",
"desc": "only the first wrapped key checked",
"breaks": [
"C19"
]
},
{
"id": "m043",
"edits": [
[
"Decrypt.v",
"if negb (beq (take 7 b) magic) then (Fail ErrNotSigTool, r)\n      else",
""
]
],
"definition": "new_decryptor",
"desc": "magic not checked",
"breaks": [
"C08"
]
},
{
"id": "m044",
"edits": [
[
"Decrypt.v",
"if negb (b2z (nth 7 b x00) =? sigtool_version)",
"if (b2z (nth 7 b x00) <? sigtool_version)"
]
],
"definition": "new_decryptor",
"desc": "later versions accepted",
"breaks": [
"C08"
]
},
{
"id": "m045",
"edits": [
[
"Decrypt.v",
"if 1048576 <? varSize",
"if 1048577 <? varSize"
]
],
"definition": "new_decryptor",
"desc": "header length limit off by one",
"breaks": [
"C08",
"C19"
]
},
{
"id": "m046",
"edits": [
[
"Decrypt.v",
"else if varSize <? 32 then (Fail ErrHeaderTooSmall, r)\n",
""
]
],
"definition": "new_decryptor",
"desc": "no minimum header length",
"breaks": [
"C08"
]
},
{
"id": "m047",
"edits": [
[
"Decrypt.v",
"sha256 C (b ++ take varSize varBuf)",
"sha256 C (take varSize varBuf)"
]
],
"definition": "new_decryptor",
"desc": "checksum excludes the fixed header",
"breaks": [
"C08"
]
},
{
"id": "m048",
"edits": [
[
"Decrypt.v",
"if negb (beq verify cksum) then (Fail ErrBadHeader, r)\n              else",
""
]
],
"definition": "new_decryptor",
"desc": "checksum not compared",
"breaks": [
"C08"
]
},
{
"id": "m049",
"edits": [
[
"Decrypt.v",
"(h_chunk h =? 0) || (max_chunk <=? h_chunk h)",
"(max_chunk <=? h_chunk h)"
]
],
"definition": "new_decryptor",
"desc": "zero chunk size accepted",
"breaks": [
"C19"
]
},
{
"id": "m050",
"edits": [
[
"Decrypt.v",
"(max_chunk <=? h_chunk h)",
"(max_chunk <? h_chunk h)"
]
],
"definition": "new_decryptor",
"desc": "chunk size of 2^30 accepted",
"breaks": [
"C19",
"C23"
]
},
{
"id": "m051",
"edits": [
[
"Decrypt.v",
"else if negb (len (h_salt h) =? salt_size)\n                    then (Fail (EMsg \"decrypt: invalid nonce length\"), r)\n",
""
]
],
"definition": "new_decryptor",
"desc": "salt length not checked",
"breaks": [
"C19"
]
},
{
"id": "m052",
"edits": [
[
"Decrypt.v",
"else if len (h_keys h) =? 0 then (Fail ErrNoWrappedKeys, r)\n",
""
]
],
"definition": "new_decryptor",
"desc": "no check for missing wrapped keys",
"breaks": [
"C19"
]
},
{
"id": "m053",
"edits": [
[
"Decrypt.v",
"sha256 C (h_salt h ++ w_nonce w)",
"sha256 C (w_nonce w ++ h_salt h)"
]
],
"definition": "unwrap_key",
"desc": "salt and nonce swapped when unwrapping",
"breaks": [
"C01"
]
},
{
"id": "m054",
"edits": [
[
"Decrypt.v",
"(pk_Pk (sk_pk sk))",
"(h_pk h)"
]
],
"definition": "unwrap_key",
"desc": "wrong associated data when unwrapping",
"breaks": [
"C01"
]
},
{
"id": "m055",
"edits": [
[
"Decrypt.v",
"| (Ok None, sk') => find_key C h ks' sk'",
"| (Ok None, sk') => (Fail ErrBadKey, sk')"
]
],
"definition": "find_key",
"desc": "only the first wrapped key tried",
"breaks": [
"C16"
]
},
{
"id": "m056",
"edits": [
[
"Decrypt.v",
"| [] => (Fail ErrBadKey, sk)",
"| [] => (Ok (zeros 32), sk)"
]
],
"definition": "find_key",
"desc": "a non-recipient gets an all-zero key",
"breaks": [
"C15"
]
},
{
"id": "m057",
"edits": [
[
"Decrypt.v",
"if beq (zeros sig_size) sig then Ok false\n      else",
""
]
],
"definition": "verify_sender",
"desc": "anonymous marker not recognised",
"breaks": [
"C01"
]
},
{
"id": "m058",
"edits": [
[
"Decrypt.v",
"if beq (zeros sig_size) sig then Ok false",
"if beq (zeros sig_size) sig then Ok true"
]
],
"definition": "verify_sender",
"desc": "anonymous files reported as authenticated",
"breaks": [
"C12"
]
},
{
"id": "m059",
"edits": [
[
"Decrypt.v",
"| None => Fail ErrNoSenderPK",
"| None => Ok false"
]
],
"definition": "verify_sender",
"desc": "a signed file accepted without a sender key",
"breaks": [
"C14"
]
},
{
"id": "m060",
"edits": [
[
"Decrypt.v",
"if negb ok then Fail ErrBadSender else Ok true",
"if negb ok then Ok false else Ok true"
]
],
"definition": "verify_sender",
"desc": "bad sender signature tolerated",
"breaks": [
"C14"
]
},
{
"id": "m061",
"edits": [
[
"Decrypt.v",
"if negb ok then Fail ErrBadSender else Ok true",
"Ok true"
]
],
"definition": "verify_sender",
"desc": "bad sender signature accepted as authenticated",
"breaks": [
"C12",
"C14",
"C46"
]
},
{
"id": "m062",
"edits": [
[
"Decrypt.v",
"Fail (EWrap \"unwrap: can't open sender info\" (EMsg \"cipher: message authentication failed\"))",
"Ok false"
]
],
"definition": "verify_sender",
"desc": "tampered sender field treated as anonymous",
"breaks": [
"C14"
]
},
{
"id": "m063",
"edits": [
[
"Decrypt.v",
"let auth := d_auth d || signed in",
"let auth := d_auth d in"
]
],
"definition": "set_private_key",
"desc": "auth flag never set",
"breaks": [
"C01",
"C12"
]
},
{
"id": "m064",
"edits": [
[
"Decrypt.v",
"(h_chunk (d_hdr d) + gcm_overhead) nonce",
"(h_chunk (d_hdr d)) nonce"
]
],
"definition": "set_private_key",
"desc": "decryption buffer lacks room for the tag",
"breaks": [
"C20",
"C01"
]
},
{
"id": "m065",
"edits": [
[
"Decrypt.v",
"if negb (d_auth d) then (d', Ok (m, true))\n      else",
""
]
],
"definition": "process_trailer",
"desc": "trailer of anonymous files verified",
"breaks": [
"C01"
]
},
{
"id": "m066",
"edits": [
[
"Decrypt.v",
"| Ok false => (d', Fail ErrBadTrailer)",
"| Ok false => (d', Ok (m, true))"
]
],
"definition": "process_trailer",
"desc": "bad trailer accepted",
"breaks": [
"C13"
]
},
{
"id": "m067",
"edits": [
[
"Decrypt.v",
"read_full (d_rd d) sig_size in",
"read_full (d_rd d) 32 in"
]
],
"definition": "process_trailer",
"desc": "only half of the trailer read",
"breaks": [
"C01"
]
},
{
"id": "m068",
"edits": [
[
"Decrypt.v",
"| Some x => (d', Fail (EWrap \"decrypt: premature EOF while reading trailer\" x))\n  | None =>",
"| _ =>"
]
],
"definition": "process_trailer",
"desc": "missing trailer tolerated",
"breaks": [
"C09"
]
},
{
"id": "m069",
"edits": [
[
"Decrypt.v",
"if h_chunk (d_hdr d) <? m then (d1, Fail (EMsg \"decrypt: chunksize is too large\"))\n        else",
""
]
],
"definition": "dec_chunk",
"desc": "frame length not limited",
"breaks": [
"C20"
]
},
{
"id": "m070",
"edits": [
[
"Decrypt.v",
"if h_chunk (d_hdr d) <? m",
"if h_chunk (d_hdr d) <=? m"
]
],
"definition": "dec_chunk",
"desc": "full-size frames rejected",
"breaks": [
"C01"
]
},
{
"id": "m071",
"edits": [
[
"Decrypt.v",
"if negb eof then (d1, Fail (EMsg \"decrypt: zero-sized chunk without EOF\"))\n          else (d1, Ok (0, true))",
"(d1, Ok (0, true))"
]
],
"definition": "dec_chunk",
"desc": "empty frame always ends the file",
"breaks": [
"C09"
]
},
{
"id": "m072",
"edits": [
[
"Decrypt.v",
"else (d1, Ok (0, true))",
"else process_trailer C d1 0"
]
],
"definition": "dec_chunk",
"desc": "trailer verified after an empty last frame (a fix: should change what is provable)",
"breaks": [
"C09"
]
},
{
"id": "m073",
"edits": [
[
"Decrypt.v",
"gcm_open C k nonce c b with",
"gcm_open C k (d_nonce d) c b with"
]
],
"definition": "dec_chunk",
"desc": "frame counter ignored when opening",
"breaks": [
"C01"
]
},
{
"id": "m074",
"edits": [
[
"Decrypt.v",
"hd ++ b ++ pt",
"hd ++ pt"
]
],
"definition": "dec_chunk",
"desc": "HMAC skips frame headers when decrypting",
"breaks": [
"C13",
"C01"
]
},
{
"id": "m075",
"edits": [
[
"Decrypt.v",
"if eof then process_trailer C d3 m else (d3, Ok (m, false))",
"(d3, Ok (m, eof))"
]
],
"definition": "dec_chunk",
"desc": "trailer not checked",
"breaks": [
"C13"
]
},
{
"id": "m076",
"edits": [
[
"Decrypt.v",
"let eof := 0 <? Z.land m eof_bit in",
"let eof := false in"
]
],
"definition": "dec_chunk",
"desc": "EOF bit ignored",
"breaks": [
"C01"
]
},
{
"id": "m077",
"edits": [
[
"Decrypt.v",
"dec_loop C f d w (u32 (i + 1))",
"dec_loop C f d w i"
]
],
"definition": "dec_loop",
"desc": "block number not incremented when decrypting",
"breaks": [
"C01",
"C11"
]
},
{
"id": "m078",
"edits": [
[
"Decrypt.v",
"| Some x => (d, w, Fail (EWrap \"decrypt\" x))\n          | None => ",
"| _ => "
]
],
"definition": "dec_loop",
"desc": "write error ignored",
"breaks": [
"C21"
]
},
{
"id": "m079",
"edits": [
[
"Decrypt.v",
"if eof then (d_set_eof d true, w, Ok tt)",
"if eof then (d, w, Ok tt)"
]
],
"definition": "dec_loop",
"desc": "eof not recorded",
"breaks": [
"C18"
]
},
{
"id": "m080",
"edits": [
[
"Decrypt.v",
"let c := take m (d_buf d) in",
"let c := d_buf d in"
]
],
"definition": "dec_loop",
"desc": "stale buffer bytes written",
"breaks": [
"C11"
]
},
{
"id": "m081",
"edits": [
[
"Decrypt.v",
"| None => (d, w, Fail ErrNoKey)",
"| None => (d, w, Ok tt)"
]
],
"definition": "decrypt",
"desc": "Decrypt without a key succeeds",
"breaks": [
"C15"
]
},
{
"id": "m082",
"edits": [
[
"Decrypt.v",
"if d_stream d then (d, w, Fail ErrDecStarted)\n      else",
""
]
],
"definition": "decrypt",
"desc": "no stream guard",
"breaks": [
"C18"
]
},
{
"id": "m083",
"edits": [
[
"Decrypt.v",
"else if d_eof d then (d, w, Fail IoEOF)\n      else",
"else"
]
],
"definition": "decrypt",
"desc": "no eof guard",
"breaks": [
"C18"
]
}
]