{"mid": "p030", "lemmas": ["Thm_KeyFiles.C35_private_partial", "Thm_KeyFiles.C36_private_partial", "Thm_KeyFiles.C36_openssh_refuted", "CliProofs.read_private_loaded", "CliProofs.unasked", "Thm_KeyCrash.C36_private_panics_exactly", "Thm_Accept.C67_private_exact"], "hard": [], "failed": ["C35_private_partial", "C36_openssh_refuted", "C36_private_panics_exactly", "C36_private_partial", "C43_pair_usable_partial", "C44_no_overwrite_partial", "C44_old_or_new_partial", "C45_decrypt_succeeds", "C45_decrypt_to_file_partial", "C45_test_mode", "C46_refuted", "C46_sender_partial", "C48_encrypt_exact", "C48_encrypt_succeeds", "C48_unresolved", "C49_sign_partial", "C51_encrypt_then_decrypt", "C52_sign_then_verify", "C56_decrypt_ends", "C56_encrypt_ends", "C56_sign_ends", "C63_decrypt_to_stdout", "C63_output_genuine", "C64_encrypt_to_stdout", "C64_pipeline", "C65_generate_encrypt_decrypt", "C66_generate_sign_verify", "C67_one_key", "C67_private_exact", "C68_only_outputs"], "secs": 162, "m": {"id": "p030", "edits": [["Ssh.v", "if beq (pem_type b) (str \"OPENSSH PRIVATE KEY\") then", "if true then"]], "definition": "parse_ssh_private", "desc": "PEM type not checked", "breaks": ["C39"]}}
{"mid": "p029", "lemmas": ["Thm_KeyFiles.C35_private_partial", "Thm_KeyFiles.C36_private_partial", "Thm_KeyFiles.C36_openssh_refuted", "CliProofs.read_private_loaded", "CliProofs.unasked", "Thm_KeyCrash.C36_private_panics_exactly", "Thm_Accept.C67_private_exact"], "hard": [], "failed": ["C35_private_partial", "C36_openssh_refuted", "C36_private_panics_exactly", "C36_private_partial", "C43_pair_usable_partial", "C44_no_overwrite_partial", "C44_old_or_new_partial", "C45_decrypt_succeeds", "C45_decrypt_to_file_partial", "C45_test_mode", "C46_refuted", "C46_sender_partial", "C48_encrypt_exact", "C48_encrypt_succeeds", "C48_unresolved", "C49_sign_partial", "C51_encrypt_then_decrypt", "C52_sign_then_verify", "C56_decrypt_ends", "C56_encrypt_ends", "C56_sign_ends", "C63_decrypt_to_stdout", "C63_output_genuine", "C64_encrypt_to_stdout", "C64_pipeline", "C65_generate_encrypt_decrypt", "C66_generate_sign_verify", "C67_one_key", "C67_private_exact", "C68_only_outputs"], "secs": 164, "m": {"id": "p029", "edits": [["Ssh.v", "if pem_encrypted b then Fail (EMsg \"ssh: no support for legacy PEM encrypted keys\")\n      else", ""]], "definition": "parse_ssh_private", "desc": "legacy encrypted PEM accepted", "breaks": ["C39"]}}
{"mid": "p061", "lemmas": ["FsProofs.sf_ops_trace"], "hard": [], "failed": ["C42_stored_objects", "C42_write_atomic", "C42_write_outcome", "C43_generate", "C44_old_or_new_partial", "C45_decrypt_to_file_partial", "C48_encrypt_exact", "C48_unresolved", "C49_sign_partial", "C50_new_pair_partial", "C51_encrypt_then_decrypt", "C52_sign_then_verify", "C65_generate_encrypt_decrypt", "C66_generate_sign_verify", "C68_only_outputs"], "secs": 48, "m": {"id": "p061", "edits": [["Fs.v", "   else [ORemove (se_tmp v)]).", "   else [])."]], "definition": "sf_ops", "desc": "temporary file left behind", "breaks": ["C42"]}}
{"mid": "p057", "lemmas": ["CliProofs.with_output_file", "Thm_Touch.C42_write_outcome"], "hard": [], "failed": ["C42_write_outcome", "C44_no_overwrite_partial", "C44_old_or_new_partial", "C45_decrypt_succeeds", "C45_decrypt_to_file_partial", "C48_encrypt_exact", "C48_encrypt_succeeds", "C48_unresolved", "C49_sign_partial", "C51_encrypt_then_decrypt", "C52_sign_then_verify", "C65_generate_encrypt_decrypt", "C66_generate_sign_verify"], "secs": 52, "m": {"id": "p057", "edits": [["Fs.v", "| None => match se_open v with Some e => Fail e | None => Ok tt end", "| None => Ok tt"]], "definition": "safe_open", "desc": "open error ignored", "breaks": ["C42"]}}
{"mid": "p067", "lemmas": ["Thm_Crash.C56_generate_ends", "Thm_Files.C43_generate", "Thm_Touch.generate_ops"], "hard": [], "failed": ["C43_generate", "C50_new_pair_partial", "C56_generate_ends", "C65_generate_encrypt_decrypt", "C66_generate_sign_verify", "C68_only_outputs"], "secs": 54, "m": {"id": "p067", "edits": [["Store.v", "| (Fail e, g) => ([], Fail e, g)", "| (Fail e, g) => ([], Ok tt, g)"]], "definition": "serialize_private", "desc": "marshal error swallowed", "breaks": ["C42", "C43"]}}
{"mid": "p069", "lemmas": ["CliProofs.get_pass_ok", "CliProofs.get_pass_is", "Thm_Cli.C45_close_refuted", "Thm_Commands.C46_refuted", "Thm_Commands.town_akey", "Thm_Chain.town1_akey", "Thm_Crash.pass_nopanic", "Thm_Pipe.c64_akey"], "hard": [], "failed": ["C43_generate", "C44_no_overwrite_partial", "C44_old_or_new_partial", "C45_close_refuted", "C45_decrypt_succeeds", "C45_decrypt_to_file_partial", "C45_test_mode", "C46_refuted", "C46_sender_partial", "C48_encrypt_exact", "C48_encrypt_succeeds", "C48_unresolved", "C49_sign_partial", "C50_new_pair_partial", "C51_encrypt_then_decrypt", "C52_sign_then_verify", "C56_decrypt_ends", "C56_encrypt_ends", "C56_generate_ends", "C56_sign_ends", "C63_decrypt_to_stdout", "C63_output_genuine", "C64_encrypt_to_stdout", "C64_pipeline", "C65_generate_encrypt_decrypt", "C66_generate_sign_verify", "C68_only_outputs"], "secs": 61, "m": {"id": "p069", "edits": [["Cli.v", "if nopw then Ok []\n  else", ""]], "definition": "get_pass", "desc": "--no-password ignored", "breaks": ["C43", "C47"]}}
{"mid": "n003", "lemmas": ["StreamProofs.ew_loop_spec"], "hard": [], "failed": ["C02_stream_round_trip", "C02_stream_writes_succeed", "C03_encrypted_file_streams", "C03_stream_file_decrypts", "C04_stream_agrees_with_encrypt", "C04_stream_write_sizes_irrelevant", "C05_stream_format", "C06_stream_chunks", "C07_stream_nonces_distinct_partial", "C08_tampered_stream_header", "C09_truncated_file", "C09_truncated_stream", "C10_complete_partial", "C10_refuted_truncation", "C10_stream_complete_partial", "C11_released_data_genuine", "C13_refuted_recipient_forges", "C14_refuted", "C20_refuted", "C27_writes", "C29_refuted", "C57_stream_size", "C58_stream_randomness", "C59_encrypt_against_stream", "C63_output_genuine"], "secs": 152, "m": {"id": "n003", "edits": [["Stream.v", "ew_loop C f e w g (mkEw [] (u32 (ew_blk s + 1)) (ew_err s)) b", "ew_loop C f e w g (mkEw [] (ew_blk s) (ew_err s)) b"]], "definition": "ew_loop", "desc": "block number not incremented by Write", "breaks": ["C07", "C02"]}}
{"mid": "n008", "lemmas": ["StreamProofs.ew_close_spec"], "hard": [], "failed": ["C02_stream_round_trip", "C02_stream_writes_succeed", "C03_encrypted_file_streams", "C03_stream_file_decrypts", "C04_stream_agrees_with_encrypt", "C04_stream_write_sizes_irrelevant", "C05_stream_format", "C06_stream_chunks", "C07_stream_nonces_distinct_partial", "C08_tampered_stream_header", "C09_truncated_file", "C09_truncated_stream", "C10_complete_partial", "C10_refuted_truncation", "C10_stream_complete_partial", "C11_released_data_genuine", "C13_refuted_recipient_forges", "C14_refuted", "C20_refuted", "C29_refuted", "C57_stream_size", "C58_stream_randomness", "C59_encrypt_against_stream", "C63_output_genuine"], "secs": 156, "m": {"id": "n008", "edits": [["Stream.v", "enc_block C e (ew_buf s) w (ew_blk s) true g", "enc_block C e (ew_buf s) w (ew_blk s) false g"]], "definition": "ew_close", "desc": "Close does not mark the last frame", "breaks": ["C02", "C06"]}}
{"mid": "n002", "lemmas": ["StreamProofs.ew_loop_spec", "Thm_Session.ew_loop_flags", "Thm_Calls.ew_loop_hdr", "Thm_Calls.ew_loop_headless", "Thm_Stream.ew_loop_fail"], "hard": [], "failed": ["C02_stream_round_trip", "C02_stream_writes_succeed", "C03_encrypted_file_streams", "C03_stream_file_decrypts", "C04_stream_agrees_with_encrypt", "C04_stream_write_sizes_irrelevant", "C05_stream_format", "C06_stream_chunks", "C07_stream_nonces_distinct_partial", "C08_tampered_stream_header", "C09_truncated_file", "C09_truncated_stream", "C10_complete_partial", "C10_refuted_truncation", "C10_stream_complete_partial", "C11_released_data_genuine", "C13_refuted_recipient_forges", "C14_refuted", "C17_every_history", "C17_no_recipient_after_start", "C18_encrypt_after_stream_writer", "C18_encrypt_every_history", "C20_refuted", "C27_sticky_errors", "C27_writes", "C29_refuted", "C57_stream_size", "C58_stream_randomness", "C59_encrypt_against_stream", "C63_output_genuine", "C70_one_file_per_encryptor"], "secs": 157, "m": {"id": "n002", "edits": [["Stream.v", "if (len buf =? max) && (0 <? len b) then", "if (len buf =? max) then"]], "definition": "ew_loop", "desc": "a full last chunk is flushed by Write, Close adds an empty frame", "breaks": ["C06"]}}
{"mid": "r001", "lemmas": ["Thm_Main.C55_dispatch"], "hard": [], "failed": ["C55_dispatch", "C68_only_outputs"], "secs": 5, "m": {"id": "r001", "edits": [["Main.v", "if mo_version o then quit 0", "if mo_version o then quit 1"]], "definition": "main", "desc": "--version exits with an error", "breaks": ["C55"]}}
{"mid": "r002", "lemmas": ["Thm_Main.C55_dispatch"], "hard": [], "failed": ["C55_dispatch", "C68_only_outputs"], "secs": 5, "m": {"id": "r002", "edits": [["Main.v", "else if mo_help o then quit 0\n", ""]], "definition": "main", "desc": "--help ignored", "breaks": ["C55"]}}
{"mid": "r003", "lemmas": ["Thm_Main.C55_dispatch"], "hard": [], "failed": ["C55_dispatch", "C68_only_outputs"], "secs": 6, "m": {"id": "r003", "edits": [["Main.v", "| [] => quit 1\n           | a :: args", "| [] => quit 0\n           | a :: args"]], "definition": "main", "desc": "no command at all is a success", "breaks": ["C55"]}}
{"mid": "r004", "lemmas": ["Thm_Main.C55_dispatch"], "hard": [], "failed": ["C55_dispatch", "C68_only_outputs"], "secs": 6, "m": {"id": "r004", "edits": [["Main.v", "| None => quit 1\n               | Some canon", "| None => quit 0\n               | Some canon"]], "definition": "main", "desc": "unknown command is a success", "breaks": ["C55"]}}
{"mid": "r005", "lemmas": ["Thm_Main.C55_dispatch"], "hard": [], "failed": ["C55_dispatch", "C68_only_outputs"], "secs": 6, "m": {"id": "r005", "edits": [["Main.v", "(to_lower a)", "a"]], "definition": "main", "desc": "command words are case-sensitive", "breaks": ["C55"]}}
{"mid": "r006", "lemmas": ["Thm_Main.C55_dispatch"], "hard": [], "failed": ["C55_dispatch", "C68_only_outputs"], "secs": 6, "m": {"id": "r006", "edits": [["Main.v", "run_command C E W P v1 v2 c args", "run_command C E W P v1 v2 c (mo_args o)"]], "definition": "main", "desc": "the command word is passed on as an argument", "breaks": ["C55"]}}
{"mid": "r007", "lemmas": [], "hard": [], "failed": [], "secs": 5, "m": {"id": "r007", "edits": [["Main.v", "| _ :: _, [w] => Some w", "| _ :: _, w :: _ => Some w"]], "definition": "abbrev", "desc": "ambiguous prefixes take the first command", "breaks": ["C55"]}}
{"mid": "r008", "lemmas": [], "hard": [], "failed": [], "secs": 5, "m": {"id": "r008", "edits": [["Main.v", "if existsb (beq a) words then Some a\n  else ", ""]], "definition": "abbrev", "desc": "exact words looked up as prefixes only", "breaks": ["C55"]}}
{"mid": "r009", "lemmas": [], "hard": [], "failed": [], "secs": 5, "m": {"id": "r009", "edits": [["Main.v", "| _ :: _, [w] => Some w", "| _, [w] => Some w"]], "definition": "abbrev", "desc": "empty word (cannot match one word only)", "breaks": []}}
{"mid": "r010", "lemmas": ["Thm_Main.abbrev_prefix", "Thm_Main.cmds_called"], "hard": [], "failed": ["C55_dispatch", "C68_only_outputs"], "secs": 6, "m": {"id": "r010", "edits": [["Main.v", "(str \"sign\", Sign); (str \"verify\", Verify)", "(str \"sign\", Verify); (str \"verify\", Sign)"]], "definition": "cmds", "desc": "sign and verify swapped in the table", "breaks": ["C55"]}}
{"mid": "r011", "lemmas": ["Thm_Main.abbrev_prefix"], "hard": [], "failed": ["C55_dispatch", "C68_only_outputs"], "secs": 5, "m": {"id": "r011", "edits": [["Main.v", "(str \"decrypt\", Decrypt_); ", ""]], "definition": "cmds", "desc": "decrypt missing from the table", "breaks": ["C55"]}}
{"mid": "r012", "lemmas": [], "hard": [], "failed": [], "secs": 5, "m": {"id": "r012", "edits": [["Main.v", "| Decrypt_ => match fl_dec P args with Quit c => quit c | Options o => cli_decrypt C E W v1 o end", "| Decrypt_ => match fl_dec P args with Quit c => quit 0 | Options o => cli_decrypt C E W v1 o end"]], "definition": "run_command", "desc": "a wrong flag of decrypt exits with 0", "breaks": ["C55"]}}
{"mid": "r013", "lemmas": ["Thm_Touch.main_ops"], "hard": [], "failed": ["C68_only_outputs"], "secs": 6, "m": {"id": "r013", "edits": [["Main.v", "cli_generate C E W v1 v2 o", "cli_generate C E W v2 v1 o"]], "definition": "run_command", "desc": "the two SafeFile environments swapped (model symmetry)", "breaks": []}}
{"mid": "r014", "lemmas": ["Thm_Main.to_lower_spells", "Thm_Main.to_lower_ascii"], "hard": [], "failed": ["C55_dispatch", "C68_only_outputs"], "secs": 6, "m": {"id": "r014", "edits": [["Main.v", "(65 <=? b2z c) && (b2z c <=? 90)", "(65 <=? b2z c) && (b2z c <? 90)"]], "definition": "to_lower", "desc": "Z is not lowered", "breaks": ["C55"]}}
{"mid": "r015", "lemmas": ["Thm_Main.to_lower_spells", "Thm_Main.to_lower_ascii"], "hard": [], "failed": ["C55_dispatch", "C68_only_outputs"], "secs": 6, "m": {"id": "r015", "edits": [["Main.v", "z2b (b2z c + 32)", "z2b (b2z c + 31)"]], "definition": "to_lower", "desc": "wrong offset", "breaks": ["C55"]}}
{"mid": "r016", "lemmas": ["Thm_Pipe.C62_verify_report"], "hard": [], "failed": ["C62_verify_report", "C68_only_outputs"], "secs": 47, "m": {"id": "r016", "edits": [["Cli.v", "(if quiet then wo_stdout W else", "(if negb quiet then wo_stdout W else"]], "definition": "cli_verify_cmd", "desc": "--quiet inverted", "breaks": ["C55", "C62"]}}
{"mid": "r017", "lemmas": ["Thm_Pipe.C62_verify_report"], "hard": [], "failed": ["C62_verify_report", "C68_only_outputs"], "secs": 48, "m": {"id": "r017", "edits": [["Cli.v", "(if ok then str \" verified\" else str \" verification failure\")", "(if ok then str \" verification failure\" else str \" verified\")"]], "definition": "verify_text", "desc": "verify prints the opposite verdict", "breaks": ["C62"]}}
{"mid": "r018", "lemmas": ["Thm_Pipe.C62_verify_report"], "hard": [], "failed": ["C62_verify_report", "C68_only_outputs"], "secs": 46, "m": {"id": "r018", "edits": [["Cli.v", "fn ++ str \": Signature \" ++ sn ++", "sn ++ str \": Signature \" ++ fn ++"]], "definition": "verify_text", "desc": "names swapped in the verdict", "breaks": ["C62"]}}
{"mid": "r019", "lemmas": ["Thm_Pipe.C62_verify_report"], "hard": [], "failed": ["C62_verify_report", "C68_only_outputs"], "secs": 45, "m": {"id": "r019", "edits": [["Cli.v", "mkOut (if ok then 0 else 1) []", "mkOut 0 []"]], "definition": "cli_verify_cmd", "desc": "a bad signature exits 0 in the command", "breaks": ["C47", "C62"]}}
{"mid": "n029", "lemmas": ["Thm_KeyFiles.C35_private_partial", "Thm_KeyFiles.C35_stale_refuted", "Thm_KeyFiles.open_section_no_panic", "Thm_KeyFiles.C36_private_partial", "CliProofs.read_private_loaded", "Thm_KeyCrash.C36_private_panics_exactly", "Thm_Accept.C67_private_exact", "Thm_Sign.C30_key_objects_named"], "hard": [], "failed": ["C30_key_objects_named", "C35_private_partial", "C35_stale_refuted", "C36_private_panics_exactly", "C36_private_partial", "C43_pair_usable_partial", "C52_sign_then_verify", "C56_decrypt_ends", "C56_encrypt_ends", "C56_sign_ends", "C65_generate_encrypt_decrypt", "C66_generate_sign_verify", "C67_one_key", "C67_private_exact"], "secs": 287, "m": {"id": "n029", "edits": [["Keys.v", "if negb (len buf =? 64)", "if (len buf <? 64)"]], "definition": "make_private_from_bytes", "desc": "longer private keys accepted", "breaks": ["C67"]}}
{"mid": "n031", "lemmas": ["Scene.keypair_new", "Thm_Sign.C30_generated_keys", "Thm_Cli.C45_close_refuted", "Thm_Commands.C46_refuted", "Thm_Commands.akey_pair", "Thm_Chain.town_skeyS", "Thm_Chain.c51_sender", "Thm_Files.C43_pair_usable_partial", "Thm_EndToEnd.g_key", "Thm_History.C60_refuted"], "hard": [], "failed": ["C21_refuted", "C30_generated_keys", "C43_pair_usable_partial", "C45_close_refuted", "C46_refuted", "C60_refuted", "C65_generate_encrypt_decrypt", "C66_generate_sign_verify"], "secs": 287, "m": {"id": "n031", "edits": [["Keys.v", "mkPriv (seed ++ pkb) None", "mkPriv (pkb ++ seed) None"]], "definition": "new_private_key", "desc": "halves of the private key swapped", "breaks": ["C30", "C43"]}}
{"mid": "r020", "lemmas": ["Thm_Commands.C47_verify_exact", "Thm_Chain.C53_crash_exactly_partial", "Thm_Chain.C53_refuted", "Thm_Pipe.verify_with_verdict", "Thm_Pipe.verdict_spec"], "hard": [], "failed": ["C47_verify_exact", "C52_sign_then_verify", "C53_crash_exactly_partial", "C53_refuted", "C62_verify_report", "C66_generate_sign_verify", "C68_only_outputs"], "secs": 57, "m": {"id": "r020", "edits": [["Cli.v", "match (match make_public_from_string C pn with", "match (match make_public_from_string C sn with"]], "definition": "verify_with", "desc": "key argument read from the signature argument", "breaks": ["C47"]}}
{"mid": "r021", "lemmas": ["Thm_Commands.C47_verify_exact", "Thm_Chain.C53_crash_exactly_partial", "Thm_Chain.C53_refuted", "Thm_Pipe.verify_with_verdict", "Thm_Pipe.verdict_spec"], "hard": [], "failed": ["C47_verify_exact", "C52_sign_then_verify", "C53_crash_exactly_partial", "C53_refuted", "C62_verify_report", "C66_generate_sign_verify", "C68_only_outputs"], "secs": 59, "m": {"id": "r021", "edits": [["Cli.v", "read_signature E (slurp W sn)", "read_signature E (slurp W pn)"]], "definition": "verify_with", "desc": "signature read from the key file", "breaks": ["C47"]}}
{"mid": "r022", "lemmas": ["Thm_Commands.C47_verify_exact", "Thm_Chain.C53_crash_exactly_partial", "Thm_Pipe.verify_with_verdict", "Thm_Pipe.verdict_spec"], "hard": [], "failed": ["C47_verify_exact", "C52_sign_then_verify", "C53_crash_exactly_partial", "C62_verify_report", "C66_generate_sign_verify", "C68_only_outputs"], "secs": 56, "m": {"id": "r022", "edits": [["Cli.v", "verify_file C pk (map_in W fn) sig", "verify_file C pk (map_in W sn) sig"]], "definition": "verify_with", "desc": "the signature file itself is verified", "breaks": ["C47"]}}
{"mid": "r025", "lemmas": ["CliProofs.with_output_file"], "hard": [], "failed": ["C44_no_overwrite_partial", "C44_old_or_new_partial", "C45_decrypt_succeeds", "C45_decrypt_to_file_partial", "C48_encrypt_exact", "C48_encrypt_succeeds", "C48_unresolved", "C49_sign_partial", "C51_encrypt_then_decrypt", "C52_sign_then_verify", "C65_generate_encrypt_decrypt", "C66_generate_sign_verify"], "secs": 51, "m": {"id": "r025", "edits": [["Cli.v", "mkOut c (sf_ops v (wo_place W outfile) w) (wo_stdout W)", "mkOut c (sf_ops v (wo_place W outfile) w) (snd (fullwrite (w_out w) (wo_stdout W)))"]], "definition": "with_output", "desc": "output copied to stdout too", "breaks": ["C62", "C55"]}}
{"mid": "r024", "lemmas": ["Thm_Pipe.C63_decrypt_to_stdout", "Thm_Pipe.C64_encrypt_to_stdout"], "hard": [], "failed": ["C63_decrypt_to_stdout", "C63_output_genuine", "C64_encrypt_to_stdout", "C64_pipeline"], "secs": 53, "m": {"id": "r024", "edits": [["Cli.v", "let '(c, w) := body (wo_stdout W) in mkOut c [] w", "let '(c, w) := body (wo_stdout W) in mkOut c [] (wo_stdout W)"]], "definition": "with_output", "desc": "output to stdout lost", "breaks": ["C62", "C63"]}}
{"mid": "r023", "lemmas": ["Thm_Commands.C47_verify_exact", "Thm_Chain.C53_crash_exactly_partial", "Thm_Chain.C53_refuted", "Thm_Pipe.verdict_spec"], "hard": [], "failed": ["C47_verify_exact", "C52_sign_then_verify", "C53_crash_exactly_partial", "C53_refuted", "C62_verify_report", "C66_generate_sign_verify", "C68_only_outputs"], "secs": 57, "m": {"id": "r023", "edits": [["Cli.v", "| None => die 2  ", "| None => say fn sn true  "]], "definition": "verify_with", "desc": "a key of another type verifies anything", "breaks": ["C47", "C53"]}}
{"mid": "r027", "lemmas": ["CliProofs.names_ok"], "hard": [], "failed": ["C44_no_overwrite_partial", "C44_old_or_new_partial", "C45_decrypt_succeeds", "C45_decrypt_to_file_partial", "C48_encrypt_exact", "C48_encrypt_succeeds", "C48_unresolved", "C51_encrypt_then_decrypt", "C63_decrypt_to_stdout", "C63_output_genuine", "C64_encrypt_to_stdout", "C64_pipeline", "C65_generate_encrypt_decrypt", "C68_only_outputs"], "secs": 42, "m": {"id": "r027", "edits": [["Cli.v", "(0 <? len o) && negb (beq o (str \"-\"))", "(0 <? len o)"]], "definition": "names_file", "desc": "-o - writes a file named -", "breaks": ["C62", "C45"]}}
{"mid": "r028", "lemmas": ["Thm_Cli.cli_encrypt_any", "Thm_Cli.C48_encrypt_succeeds", "Thm_Crash.C56_encrypt_ends"], "hard": [], "failed": ["C44_no_overwrite_partial", "C44_old_or_new_partial", "C48_encrypt_exact", "C48_encrypt_succeeds", "C48_unresolved", "C51_encrypt_then_decrypt", "C56_encrypt_ends", "C64_encrypt_to_stdout", "C64_pipeline", "C65_generate_encrypt_decrypt", "C68_only_outputs"], "secs": 43, "m": {"id": "r028", "edits": [["Cli.v", "if beq infile (str \"-\") then Ok (wo_stdin W) else open_in W infile) with\n            | Ok rd", "open_in W infile) with\n            | Ok rd"]], "definition": "cli_encrypt", "desc": "- is not standard input for encrypt", "breaks": ["C63"]}}
{"mid": "r026", "lemmas": ["CliProofs.with_output_file", "Thm_Commands.decrypt_done", "Thm_Crash.with_output_ends"], "hard": [], "failed": ["C44_no_overwrite_partial", "C44_old_or_new_partial", "C45_decrypt_succeeds", "C45_decrypt_to_file_partial", "C46_sender_partial", "C48_encrypt_exact", "C48_encrypt_succeeds", "C48_unresolved", "C49_sign_partial", "C51_encrypt_then_decrypt", "C52_sign_then_verify", "C56_decrypt_ends", "C56_encrypt_ends", "C56_sign_ends", "C65_generate_encrypt_decrypt", "C66_generate_sign_verify"], "secs": 47, "m": {"id": "r026", "edits": [["Cli.v", "| r => mkOut (code_of r) [] (wo_stdout W)\n    end\n  else", "| r => mkOut 0 [] (wo_stdout W)\n    end\n  else"]], "definition": "with_output", "desc": "existing output file silently skipped with exit 0", "breaks": ["C44", "C45"]}}
{"mid": "r029", "lemmas": ["Thm_Cli.cli_encrypt_any", "Thm_Crash.C56_encrypt_ends"], "hard": [], "failed": ["C44_no_overwrite_partial", "C44_old_or_new_partial", "C48_encrypt_exact", "C48_unresolved", "C51_encrypt_then_decrypt", "C56_encrypt_ends", "C64_encrypt_to_stdout", "C64_pipeline", "C65_generate_encrypt_decrypt", "C68_only_outputs"], "secs": 45, "m": {"id": "r029", "edits": [["Cli.v", "| Fail e => if not_exist e then go [] else done 1", "| Fail e => go []"]], "definition": "cli_encrypt", "desc": "unreadable authorized_keys ignored", "breaks": ["C48"]}}
{"mid": "r030", "lemmas": ["Thm_Cli.cli_encrypt_any", "Thm_Cli.C48_encrypt_succeeds", "Thm_Crash.C56_encrypt_ends"], "hard": [], "failed": ["C44_no_overwrite_partial", "C44_old_or_new_partial", "C48_encrypt_exact", "C48_encrypt_succeeds", "C48_unresolved", "C51_encrypt_then_decrypt", "C56_encrypt_ends", "C64_encrypt_to_stdout", "C64_pipeline", "C65_generate_encrypt_decrypt", "C68_only_outputs"], "secs": 45, "m": {"id": "r030", "edits": [["Cli.v", "if len (eo_args o) <? 2 then done 1", "if len (eo_args o) <? 1 then done 1"]], "definition": "cli_encrypt", "desc": "encryption without recipients", "breaks": ["C48", "C45"]}}
{"mid": "r031", "lemmas": ["Thm_Cli.cli_encrypt_any", "Thm_Cli.C48_encrypt_succeeds", "Thm_Commands.C44_refuted", "Thm_Chain.c51_code", "Thm_Chain.c51_ops", "Thm_Crash.C56_encrypt_ends", "Thm_EndToEnd.g_code", "Thm_EndToEnd.enc_ops3", "Thm_Pipe.c64_code"], "hard": [], "failed": ["C44_no_overwrite_partial", "C44_old_or_new_partial", "C44_refuted", "C48_encrypt_exact", "C48_encrypt_succeeds", "C48_unresolved", "C51_encrypt_then_decrypt", "C56_encrypt_ends", "C64_encrypt_to_stdout", "C64_pipeline", "C65_generate_encrypt_decrypt", "C68_only_outputs"], "secs": 66, "m": {"id": "r031", "edits": [["Cli.v", "(removelast (eo_args o))", "(eo_args o)"]], "definition": "cli_encrypt", "desc": "the input file is taken as a recipient too", "breaks": ["C48"]}}
{"mid": "r033", "lemmas": ["Thm_Cli.cli_encrypt_any", "Thm_Cli.C48_encrypt_succeeds", "Thm_Crash.C56_encrypt_ends"], "hard": [], "failed": ["C44_no_overwrite_partial", "C44_old_or_new_partial", "C48_encrypt_exact", "C48_encrypt_succeeds", "C48_unresolved", "C51_encrypt_then_decrypt", "C56_encrypt_ends", "C64_encrypt_to_stdout", "C64_pipeline", "C65_generate_encrypt_decrypt", "C68_only_outputs"], "secs": 46, "m": {"id": "r033", "edits": [["Cli.v", "with_output W v (eo_outfile o) (names_file (eo_outfile o)) (eo_force o)", "with_output W v (eo_outfile o) (names_file (eo_outfile o)) true"]], "definition": "cli_encrypt", "desc": "encrypt always overwrites", "breaks": ["C44"]}}
{"mid": "r032", "lemmas": ["Thm_Cli.cli_encrypt_any", "Thm_Cli.C48_encrypt_succeeds", "Thm_Chain.c51_code", "Thm_Chain.c51_ops", "Thm_Crash.C56_encrypt_ends", "Thm_Pipe.c64_code"], "hard": [], "failed": ["C44_no_overwrite_partial", "C44_old_or_new_partial", "C48_encrypt_exact", "C48_encrypt_succeeds", "C48_unresolved", "C51_encrypt_then_decrypt", "C56_encrypt_ends", "C64_encrypt_to_stdout", "C64_pipeline", "C65_generate_encrypt_decrypt", "C68_only_outputs"], "secs": 52, "m": {"id": "r032", "edits": [["Cli.v", "let pka := match r with Ok pka => pka | _ => [] end in", "let pka := [] in"]], "definition": "cli_encrypt", "desc": "authorized_keys never used", "breaks": ["C48"]}}
{"mid": "r034", "lemmas": ["CliProofs.enc_body_spec", "Thm_Crash.enc_body_ends", "Thm_Pipe.enc_body_any"], "hard": [], "failed": ["C44_old_or_new_partial", "C48_encrypt_exact", "C48_unresolved", "C51_encrypt_then_decrypt", "C56_encrypt_ends", "C64_encrypt_to_stdout", "C64_pipeline", "C65_generate_encrypt_decrypt"], "secs": 56, "m": {"id": "r034", "edits": [["Cli.v", "if 0 <? errs then (1, w)\n          else ", ""]], "definition": "enc_body", "desc": "errors with recipients ignored", "breaks": ["C48"]}}
{"mid": "r035", "lemmas": ["CliProofs.enc_body_spec"], "hard": [], "failed": ["C44_old_or_new_partial", "C48_encrypt_exact", "C48_unresolved", "C51_encrypt_then_decrypt", "C65_generate_encrypt_decrypt"], "secs": 62, "m": {"id": "r035", "edits": [["Cli.v", "| (_, _, w, _, r) => (code_of r, w)", "| (_, _, w, _, r) => (code_of r, snd (w_close w))"]], "definition": "enc_body", "desc": "partial output committed after an encryption error", "breaks": ["C45"]}}
{"mid": "r036", "lemmas": ["CliProofs.enc_recipients_spec"], "hard": [], "failed": ["C44_old_or_new_partial", "C48_encrypt_exact", "C48_unresolved", "C51_encrypt_then_decrypt", "C56_encrypt_ends", "C64_encrypt_to_stdout", "C64_pipeline", "C65_generate_encrypt_decrypt"], "secs": 64, "m": {"id": "r036", "edits": [["Cli.v", "enc_recipients C E W pka fns' e g (errs + 1)", "enc_recipients C E W pka fns' e g errs"]], "definition": "enc_recipients", "desc": "a missing recipient is not counted", "breaks": ["C48"]}}
{"mid": "r037", "lemmas": ["CliProofs.is_user_iff"], "hard": [], "failed": ["C44_old_or_new_partial", "C48_encrypt_exact", "C48_encrypt_succeeds", "C48_unresolved", "C51_encrypt_then_decrypt", "C56_encrypt_ends", "C64_encrypt_to_stdout", "C64_pipeline", "C65_generate_encrypt_decrypt"], "secs": 60, "m": {"id": "r037", "edits": [["Cli.v", "0 <? i", "0 <=? i"]], "definition": "is_user", "desc": "@name is a user", "breaks": ["C48"]}}
{"mid": "r038", "lemmas": ["CliProofs.dec_body_spec", "Thm_Pipe.C63_decrypt_to_stdout"], "hard": [], "failed": ["C44_old_or_new_partial", "C45_decrypt_to_file_partial", "C51_encrypt_then_decrypt", "C63_decrypt_to_stdout", "C63_output_genuine", "C64_pipeline", "C65_generate_encrypt_decrypt"], "secs": 63, "m": {"id": "r038", "edits": [["Cli.v", "| (_, w, r) => (code_of r, w)\n          end", "| (_, w, r) => (code_of r, snd (w_close w))\n          end"]], "definition": "dec_body", "desc": "partial plaintext committed after a decryption error", "breaks": ["C45"]}}
{"mid": "r039", "lemmas": ["CliProofs.dec_body_spec", "Thm_Cli.C45_close_refuted", "Thm_Cli.C45_test_mode", "Thm_Cli.dec_body_total", "Thm_Commands.decrypt_done", "Thm_Crash.dec_body_ends", "Thm_Pipe.C63_decrypt_to_stdout"], "hard": [], "failed": ["C44_old_or_new_partial", "C45_close_refuted", "C45_decrypt_succeeds", "C45_decrypt_to_file_partial", "C45_test_mode", "C46_sender_partial", "C51_encrypt_then_decrypt", "C56_decrypt_ends", "C63_decrypt_to_stdout", "C63_output_genuine", "C64_pipeline", "C65_generate_encrypt_decrypt", "C68_only_outputs"], "secs": 72, "m": {"id": "r039", "edits": [["Cli.v", "set_private_key C d sk pk with", "set_private_key C d sk None with"]], "definition": "dec_body", "desc": "-v ignored by decrypt", "breaks": ["C46"]}}
{"mid": "r040", "lemmas": ["Thm_Cli.cli_decrypt_any", "Thm_Cli.C45_test_mode", "Thm_Cli.C45_decrypt_succeeds", "Thm_Commands.decrypt_done", "Thm_Crash.C56_decrypt_ends"], "hard": [], "failed": ["C44_no_overwrite_partial", "C44_old_or_new_partial", "C45_decrypt_succeeds", "C45_decrypt_to_file_partial", "C45_test_mode", "C46_sender_partial", "C51_encrypt_then_decrypt", "C56_decrypt_ends", "C63_decrypt_to_stdout", "C63_output_genuine", "C64_pipeline", "C65_generate_encrypt_decrypt", "C68_only_outputs"], "secs": 70, "m": {"id": "r040", "edits": [["Cli.v", "if do_test o then done (fst (dec_body C sk pk rd (mkWriter [] [] [] 0)))\n                  else ", ""]], "definition": "cli_decrypt", "desc": "--test writes output", "breaks": ["C45", "C68"]}}
{"mid": "r041", "lemmas": ["Thm_Cli.C45_test_mode", "Thm_Commands.decrypt_done", "Thm_Crash.C56_decrypt_ends"], "hard": [], "failed": ["C44_old_or_new_partial", "C45_test_mode", "C46_sender_partial", "C56_decrypt_ends", "C68_only_outputs"], "secs": 58, "m": {"id": "r041", "edits": [["Cli.v", "if do_test o then done (fst (dec_body C sk pk rd (mkWriter [] [] [] 0)))", "if do_test o then done 0"]], "definition": "cli_decrypt", "desc": "--test always succeeds", "breaks": ["C65", "C46"]}}
{"mid": "r042", "lemmas": ["Thm_Cli.cli_decrypt_any", "Thm_Cli.C45_test_mode", "Thm_Cli.C45_decrypt_succeeds", "Thm_Commands.decrypt_done", "Thm_Crash.C56_decrypt_ends"], "hard": [], "failed": ["C44_no_overwrite_partial", "C44_old_or_new_partial", "C45_decrypt_succeeds", "C45_decrypt_to_file_partial", "C45_test_mode", "C46_sender_partial", "C51_encrypt_then_decrypt", "C56_decrypt_ends", "C63_decrypt_to_stdout", "C63_output_genuine", "C64_pipeline", "C65_generate_encrypt_decrypt", "C68_only_outputs"], "secs": 65, "m": {"id": "r042", "edits": [["Cli.v", "| [] => Ok (wo_stdin W)\n", "| [] => Fail (EMsg \"no input\")\n"]], "definition": "cli_decrypt", "desc": "decrypt does not default to stdin", "breaks": ["C63"]}}
{"mid": "r043", "lemmas": ["Thm_Commands.C49_sign_partial", "Thm_Chain.C53_refuted", "Thm_Touch.main_ops"], "hard": [], "failed": ["C49_sign_partial", "C52_sign_then_verify", "C53_refuted", "C66_generate_sign_verify", "C68_only_outputs"], "secs": 56, "m": {"id": "r043", "edits": [["Cli.v", "fn ++ str \".sig\"", "fn ++ str \".sg\""]], "definition": "cli_sign", "desc": "wrong default name of the signature", "breaks": ["C49"]}}
{"mid": "r044", "lemmas": ["Thm_Commands.sign_body_spec", "Thm_Crash.C56_sign_ends"], "hard": [], "failed": ["C49_sign_partial", "C52_sign_then_verify", "C56_sign_ends", "C66_generate_sign_verify"], "secs": 56, "m": {"id": "r044", "edits": [["Cli.v", "sign_file C sk (map_in W fn)", "sign_file C sk (map_in W kn)"]], "definition": "sign_body", "desc": "the key file is signed instead of the input", "breaks": ["C52", "C49"]}}
{"mid": "r045", "lemmas": ["Thm_Commands.sign_body_spec"], "hard": [], "failed": ["C49_sign_partial", "C52_sign_then_verify", "C66_generate_sign_verify"], "secs": 54, "m": {"id": "r045", "edits": [["Cli.v", "(str \"input=\" ++ fn)", "(str \"input=\" ++ kn)"]], "definition": "sign_body", "desc": "comment names the key file", "breaks": ["C49"]}}
{"mid": "r046", "lemmas": ["Thm_Commands.sign_body_spec", "Thm_Chain.C53_refuted"], "hard": [], "failed": ["C49_sign_partial", "C52_sign_then_verify", "C53_refuted", "C66_generate_sign_verify"], "secs": 55, "m": {"id": "r046", "edits": [["Cli.v", "w in (0, snd (w_close w))", "w in (0, w)"]], "definition": "sign_body", "desc": "signature file never closed", "breaks": ["C49", "C52"]}}
{"mid": "r047", "lemmas": ["Thm_Files.C43_generate", "Thm_Files.C50_refuted", "Thm_EndToEnd.gen_ops", "Thm_EndToEnd.gen_code", "Thm_EndToEnd.g_code", "Thm_EndToEnd.g_pks", "Thm_EndToEnd.enc_ops3", "Thm_Touch.generate_ops"], "hard": [], "failed": ["C43_generate", "C50_new_pair_partial", "C50_refuted", "C65_generate_encrypt_decrypt", "C66_generate_sign_verify", "C68_only_outputs"], "secs": 70, "m": {"id": "r047", "edits": [["Cli.v", "let pkn := wo_clean W bn ++ str \".pub\" in", "let pkn := wo_clean W bn ++ str \".key\" in"]], "definition": "cli_generate", "desc": "both keys to one file", "breaks": ["C43"]}}
{"mid": "r049", "lemmas": ["Thm_Files.C43_generate"], "hard": [], "failed": ["C43_generate", "C50_new_pair_partial", "C65_generate_encrypt_decrypt", "C66_generate_sign_verify"], "secs": 48, "m": {"id": "r049", "edits": [["Cli.v", "(sk_pk sk) (ge_comment o) (ge_force o) with", "(sk_pk sk) [] (ge_force o) with"]], "definition": "cli_generate", "desc": "comment not written to the public key", "breaks": ["C43"]}}
{"mid": "r048", "lemmas": ["Thm_Crash.C56_generate_ends", "Thm_Files.C43_generate", "Thm_EndToEnd.g_key", "Thm_EndToEnd.s_code", "Thm_Touch.generate_ops"], "hard": [], "failed": ["C43_generate", "C50_new_pair_partial", "C56_generate_ends", "C65_generate_encrypt_decrypt", "C66_generate_sign_verify", "C68_only_outputs"], "secs": 70, "m": {"id": "r048", "edits": [["Cli.v", "(ge_comment o) (ge_force o) pw g with", "(ge_comment o) (ge_force o) [] g with"]], "definition": "cli_generate", "desc": "passphrase not used by generate", "breaks": ["C43"]}}
{"mid": "r050", "lemmas": ["Thm_Crash.C56_generate_ends", "Thm_Files.C43_generate"], "hard": [], "failed": ["C43_generate", "C50_new_pair_partial", "C56_generate_ends", "C65_generate_encrypt_decrypt", "C66_generate_sign_verify"], "secs": 48, "m": {"id": "r050", "edits": [["Cli.v", "done (code_of r) (ops1 ++ ops2)", "done 0 (ops1 ++ ops2)"]], "definition": "cli_generate", "desc": "failure to write the public key not reported", "breaks": ["C43"]}}
{"mid": "r051", "lemmas": ["Thm_Files.C43_generate"], "hard": [], "failed": ["C43_generate", "C50_new_pair_partial", "C65_generate_encrypt_decrypt", "C66_generate_sign_verify"], "secs": 42, "m": {"id": "r051", "edits": [["Cli.v", "(exists_ W pkn || exists_ W skn)", "(exists_ W pkn && exists_ W skn)"]], "definition": "cli_generate", "desc": "only refuses if both exist", "breaks": ["C43"]}}
{"mid": "r052", "lemmas": ["CliProofs.get_pass_ok", "CliProofs.get_pass_is", "Thm_Crash.pass_nopanic"], "hard": [], "failed": ["C43_generate", "C44_no_overwrite_partial", "C44_old_or_new_partial", "C45_decrypt_succeeds", "C45_decrypt_to_file_partial", "C45_test_mode", "C46_refuted", "C46_sender_partial", "C48_encrypt_exact", "C48_encrypt_succeeds", "C48_unresolved", "C49_sign_partial", "C50_new_pair_partial", "C51_encrypt_then_decrypt", "C52_sign_then_verify", "C56_decrypt_ends", "C56_encrypt_ends", "C56_generate_ends", "C56_sign_ends", "C63_decrypt_to_stdout", "C63_output_genuine", "C64_encrypt_to_stdout", "C64_pipeline", "C65_generate_encrypt_decrypt", "C66_generate_sign_verify", "C68_only_outputs"], "secs": 47, "m": {"id": "r052", "edits": [["Cli.v", "else if 0 <? len envpw then Ok (wo_getenv W envpw)\n", ""]], "definition": "get_pass", "desc": "--env-password ignored", "breaks": ["C47"]}}
{"mid": "r053", "lemmas": ["Scene.session1", "Scene.session2", "Thm_Size.C58_session_randomness"], "hard": [], "failed": ["C21_refuted", "C58_file_randomness", "C58_session_randomness", "C58_stream_randomness"], "secs": 203, "m": {"id": "r053", "edits": [["Encrypt.v", "let '(salt, g) := rand_buf salt_size g in\n  (match", "let '(salt, _) := rand_buf salt_size g in\n  (match"]], "definition": "new_encryptor", "desc": "salt bytes drawn again for the first recipient", "breaks": ["C58", "C61"]}}
{"mid": "r055", "lemmas": ["Scene.session1", "Scene.session2", "Thm_Size.wrap_key_rng"], "hard": [], "failed": ["C21_refuted", "C58_file_randomness", "C58_session_randomness", "C58_stream_randomness"], "secs": 212, "m": {"id": "r055", "edits": [["Encrypt.v", "let '(rbuf, g) := rand_buf rx_nonce_size g in", "let '(rbuf, _) := rand_buf rx_nonce_size g in"]], "definition": "wrap_key", "desc": "all recipients get the same nonce", "breaks": ["C58"]}}
{"mid": "r056", "lemmas": ["EncryptProofs.add_recipients_spec", "Support.add_recipient_total", "Thm_Session.C17_no_recipient_after_start", "Thm_Session.C17_failed_add_changes_nothing", "Thm_Calls.estep_started", "Thm_Calls.C17_every_history", "Thm_Calls.estep_headless", "Thm_Calls.estep_chunk", "Thm_Size.add_recipients_rng", "Thm_Crash.add_any", "Thm_History.C61_rejected_recipients_leave_no_trace", "Thm_History.C61_rejected_exactly"], "hard": [], "failed": ["C01_encrypt_decrypt_round_trip", "C01_encrypt_succeeds", "C02_stream_round_trip", "C02_stream_writes_succeed", "C03_encrypted_file_streams", "C03_stream_file_decrypts", "C04_fragmentation_independent", "C04_stream_agrees_with_encrypt", "C04_stream_write_sizes_irrelevant", "C05_file_format", "C05_stream_format", "C06_chunks", "C06_stream_chunks", "C07_nonces_distinct_partial", "C07_refuted_counter_wraps", "C07_refuted_second_encrypt", "C07_stream_nonces_distinct_partial", "C08_tampered_header", "C08_tampered_stream_header", "C09_truncated_file", "C09_truncated_stream", "C10_complete_partial", "C10_refuted_truncation", "C10_stream_complete_partial", "C11_released_data_genuine", "C13_refuted_recipient_forges", "C14_refuted", "C16_own_entry_opens", "C16_recipients_agree", "C17_every_history", "C17_failed_add_changes_nothing", "C17_no_recipient_after_start", "C18_encrypt_every_history", "C20_refuted", "C21_encrypt_errors_partial", "C23_chunk_size_partial", "C23_refuted", "C24_recipients_partial", "C24_refuted", "C27_writes", "C29_refuted", "C48_encrypt_succeeds", "C51_encrypt_then_decrypt", "C56_encrypt_ends", "C57_encrypt_size", "C57_stream_size", "C58_file_randomness", "C58_session_randomness", "C58_stream_randomness", "C59_encrypt_against_stream", "C61_rejected_exactly", "C61_rejected_recipients_leave_no_trace", "C63_output_genuine", "C64_pipeline", "C65_generate_encrypt_decrypt", "C70_one_file_per_encryptor"], "secs": 224, "m": {"id": "r056", "edits": [["Encrypt.v", "if e_started e then (e, pk, g, Fail ErrEncStarted)\n  else", ""]], "definition": "add_recipient", "desc": "recipients added after start", "breaks": ["C17"]}}
{"mid": "r057", "lemmas": ["EncryptProofs.encrypt_spec", "Support.encrypt_clean", "Support.encrypt_again", "FreeProofs.encrypt_free", "Thm_Session.encrypt_flags", "Thm_Session.C18_encrypt_after_stream_writer", "Thm_Calls.estep_started", "Thm_Calls.C18_encrypt_every_history", "Thm_Calls.estep_chunk", "Thm_Calls.C70_one_file_per_encryptor", "Thm_Crash.encrypt_any", "Thm_Limits.C21_encrypt_errors_partial"], "hard": [], "failed": ["C01_encrypt_decrypt_round_trip", "C01_encrypt_succeeds", "C02_stream_round_trip", "C03_encrypted_file_streams", "C03_stream_file_decrypts", "C04_fragmentation_independent", "C04_stream_agrees_with_encrypt", "C05_file_format", "C06_chunks", "C07_nonces_distinct_partial", "C07_refuted_counter_wraps", "C07_refuted_second_encrypt", "C08_tampered_header", "C09_truncated_file", "C09_truncated_stream", "C10_complete_partial", "C10_refuted_truncation", "C10_stream_complete_partial", "C11_released_data_genuine", "C13_refuted_recipient_forges", "C14_refuted", "C16_recipients_agree", "C17_every_history", "C17_no_recipient_after_start", "C18_encrypt_after_stream_writer", "C18_encrypt_every_history", "C20_refuted", "C21_encrypt_errors_partial", "C23_refuted", "C24_recipients_partial", "C24_refuted", "C29_refuted", "C44_old_or_new_partial", "C48_encrypt_exact", "C48_encrypt_succeeds", "C48_unresolved", "C51_encrypt_then_decrypt", "C56_encrypt_ends", "C57_encrypt_size", "C58_file_randomness", "C59_encrypt_against_stream", "C63_output_genuine", "C64_encrypt_to_stdout", "C64_pipeline", "C65_generate_encrypt_decrypt", "C70_one_file_per_encryptor"], "secs": 212, "m": {"id": "r057", "edits": [["Encrypt.v", "if e_stream e then (e, r, w, g, Fail ErrEncIsStream)\n  else", ""]], "definition": "encrypt", "desc": "Encrypt allowed on a stream", "breaks": ["C18"]}}
{"mid": "r058", "lemmas": ["EncryptProofs.enc_start_spec", "Thm_Session.enc_start_flags", "Thm_Calls.enc_start_hdr"], "hard": [], "failed": ["C01_encrypt_decrypt_round_trip", "C01_encrypt_succeeds", "C02_stream_round_trip", "C02_stream_writes_succeed", "C03_encrypted_file_streams", "C03_stream_file_decrypts", "C04_fragmentation_independent", "C04_stream_agrees_with_encrypt", "C04_stream_write_sizes_irrelevant", "C05_file_format", "C05_stream_format", "C06_chunks", "C06_stream_chunks", "C07_nonces_distinct_partial", "C07_refuted_counter_wraps", "C07_refuted_second_encrypt", "C07_stream_nonces_distinct_partial", "C08_tampered_header", "C08_tampered_stream_header", "C09_truncated_file", "C09_truncated_stream", "C10_complete_partial", "C10_refuted_truncation", "C10_stream_complete_partial", "C11_released_data_genuine", "C13_refuted_recipient_forges", "C14_refuted", "C16_recipients_agree", "C17_every_history", "C17_no_recipient_after_start", "C18_encrypt_after_stream_writer", "C18_encrypt_every_history", "C20_refuted", "C21_encrypt_errors_partial", "C23_refuted", "C24_recipients_partial", "C24_refuted", "C27_writes", "C29_refuted", "C48_encrypt_succeeds", "C51_encrypt_then_decrypt", "C56_encrypt_ends", "C57_encrypt_size", "C57_stream_size", "C58_file_randomness", "C58_stream_randomness", "C59_encrypt_against_stream", "C63_output_genuine", "C64_pipeline", "C65_generate_encrypt_decrypt", "C70_one_file_per_encryptor"], "secs": 150, "m": {"id": "r058", "edits": [["Encrypt.v", "(e_sender e) (e_auth e) true (e_stream e)", "(e_sender e) (e_auth e) false (e_stream e)"]], "definition": "enc_start", "desc": "start does not record that it started", "breaks": ["C17", "C18"]}}
{"mid": "r059", "lemmas": ["EncryptProofs.encrypt_spec", "Support.encrypt_clean", "Support.encrypt_again", "FreeProofs.encrypt_free", "Thm_Session.encrypt_flags", "Thm_Calls.estep_started", "Thm_Calls.estep_chunk", "Thm_Calls.C70_one_file_per_encryptor", "Thm_Crash.encrypt_any", "Thm_Limits.C21_encrypt_errors_partial"], "hard": [], "failed": ["C01_encrypt_decrypt_round_trip", "C01_encrypt_succeeds", "C02_stream_round_trip", "C03_encrypted_file_streams", "C03_stream_file_decrypts", "C04_fragmentation_independent", "C04_stream_agrees_with_encrypt", "C05_file_format", "C06_chunks", "C07_nonces_distinct_partial", "C07_refuted_counter_wraps", "C07_refuted_second_encrypt", "C08_tampered_header", "C09_truncated_file", "C09_truncated_stream", "C10_complete_partial", "C10_refuted_truncation", "C10_stream_complete_partial", "C11_released_data_genuine", "C13_refuted_recipient_forges", "C14_refuted", "C16_recipients_agree", "C17_every_history", "C17_no_recipient_after_start", "C18_encrypt_every_history", "C20_refuted", "C21_encrypt_errors_partial", "C23_refuted", "C24_recipients_partial", "C24_refuted", "C29_refuted", "C44_old_or_new_partial", "C48_encrypt_exact", "C48_encrypt_succeeds", "C48_unresolved", "C51_encrypt_then_decrypt", "C56_encrypt_ends", "C57_encrypt_size", "C58_file_randomness", "C59_encrypt_against_stream", "C63_output_genuine", "C64_encrypt_to_stdout", "C64_pipeline", "C65_generate_encrypt_decrypt", "C70_one_file_per_encryptor"], "secs": 167, "m": {"id": "r059", "edits": [["Encrypt.v", "let '(e, w, rs) := if e_started e then (e, w, Ok tt) else enc_start C e w in\n    match rs with\n    | Ok _ =>\n        let '(e, r", "let '(e, w, rs) := enc_start C e w in\n    match rs with\n    | Ok _ =>\n        let '(e, r"]], "definition": "encrypt", "desc": "a second Encrypt writes a header again", "breaks": ["C70"]}}
{"mid": "r060", "lemmas": ["RoundTrip.decrypt_spec", "Support.decrypt_clean", "FreeProofs.decrypt_free", "FreeProofs.decrypt_willing", "Hostile.decrypt_any", "Thm_Session.C18_nothing_after_decrypt", "Thm_Calls.C18_nothing_after_decrypt_every_history"], "hard": [], "failed": ["C01_encrypt_decrypt_round_trip", "C02_stream_round_trip", "C03_encrypted_file_streams", "C03_stream_file_decrypts", "C09_truncated_file", "C10_complete_partial", "C10_refuted_truncation", "C11_released_data_genuine", "C13_content_signed_partial", "C13_refuted_recipient_forges", "C14_refuted", "C18_nothing_after_decrypt", "C18_nothing_after_decrypt_every_history", "C20_no_panic_partial", "C21_decrypt_write_errors", "C44_old_or_new_partial", "C45_decrypt_succeeds", "C45_decrypt_to_file_partial", "C46_sender_partial", "C51_encrypt_then_decrypt", "C56_decrypt_ends", "C63_decrypt_to_stdout", "C63_output_genuine", "C64_pipeline", "C65_generate_encrypt_decrypt", "C69_stream_and_decrypt_agree"], "secs": 177, "m": {"id": "r060", "edits": [["Decrypt.v", "else if d_eof d then (d, w, Fail IoEOF)\n", ""]], "definition": "decrypt", "desc": "Decrypt may be repeated", "breaks": ["C18"]}}
{"mid": "r061", "lemmas": ["RoundTrip.decrypt_spec", "Support.decrypt_clean", "FreeProofs.decrypt_free", "FreeProofs.decrypt_willing", "Hostile.decrypt_any", "Thm_Session.C18_decrypt_after_stream_reader", "Thm_Session.C18_nothing_after_decrypt", "Thm_Calls.dstep_stream", "Thm_Calls.C18_decrypt_every_history", "Thm_Calls.C18_nothing_after_decrypt_every_history"], "hard": [], "failed": ["C01_encrypt_decrypt_round_trip", "C02_stream_round_trip", "C03_encrypted_file_streams", "C03_stream_file_decrypts", "C09_truncated_file", "C10_complete_partial", "C10_refuted_truncation", "C11_released_data_genuine", "C13_content_signed_partial", "C13_refuted_recipient_forges", "C14_refuted", "C18_decrypt_after_stream_reader", "C18_decrypt_every_history", "C18_nothing_after_decrypt", "C18_nothing_after_decrypt_every_history", "C20_no_panic_partial", "C21_decrypt_write_errors", "C44_old_or_new_partial", "C45_decrypt_succeeds", "C45_decrypt_to_file_partial", "C46_sender_partial", "C51_encrypt_then_decrypt", "C56_decrypt_ends", "C63_decrypt_to_stdout", "C63_output_genuine", "C64_pipeline", "C65_generate_encrypt_decrypt", "C69_stream_and_decrypt_agree"], "secs": 191, "m": {"id": "r061", "edits": [["Decrypt.v", "if d_stream d then (d, w, Fail ErrDecStarted)\n      else ", ""]], "definition": "decrypt", "desc": "Decrypt allowed on a stream", "breaks": ["C18"]}}
{"mid": "r062", "lemmas": ["OpenProofs.set_private_key_spec", "Thm_Crash.set_any", "Thm_History.set_shape", "Thm_History.set_again"], "hard": [], "failed": ["C01_encrypt_decrypt_round_trip", "C02_stream_round_trip", "C03_encrypted_file_streams", "C03_stream_file_decrypts", "C09_truncated_file", "C09_truncated_stream", "C10_complete_partial", "C10_refuted_truncation", "C10_stream_complete_partial", "C11_released_data_genuine", "C12_authenticated_means_signed", "C13_content_signed_partial", "C13_refuted_recipient_forges", "C13_stream_signed_partial", "C14_refuted", "C14_signed_file_partial", "C16_recipients_agree", "C20_no_panic_partial", "C28_read_discipline", "C29_refuted", "C29_single_reader_partial", "C46_sender_partial", "C51_encrypt_then_decrypt", "C56_decrypt_ends", "C60_authenticated_exactly", "C60_last_call_decides_partial", "C63_output_genuine", "C64_pipeline", "C65_generate_encrypt_decrypt", "C69_stream_and_decrypt_agree"], "secs": 179, "m": {"id": "r062", "edits": [["Decrypt.v", "let auth := d_auth d || signed in", "let auth := signed in"]], "definition": "set_private_key", "desc": "authentication flag reset by a later call", "breaks": ["C60"]}}
{"mid": "r063", "lemmas": ["DecryptProofs.dec_loop_S"], "hard": [], "failed": ["C01_encrypt_decrypt_round_trip", "C02_stream_round_trip", "C03_encrypted_file_streams", "C03_stream_file_decrypts", "C09_truncated_file", "C10_complete_partial", "C10_refuted_truncation", "C11_released_data_genuine", "C13_content_signed_partial", "C13_refuted_recipient_forges", "C14_refuted", "C18_nothing_after_decrypt", "C18_nothing_after_decrypt_every_history", "C20_no_panic_partial", "C21_decrypt_write_errors", "C44_old_or_new_partial", "C45_decrypt_succeeds", "C45_decrypt_to_file_partial", "C46_sender_partial", "C51_encrypt_then_decrypt", "C56_decrypt_ends", "C63_decrypt_to_stdout", "C63_output_genuine", "C64_pipeline", "C65_generate_encrypt_decrypt", "C69_stream_and_decrypt_agree"], "secs": 182, "m": {"id": "r063", "edits": [["Decrypt.v", "if eof then (d_set_eof d true, w, Ok tt)", "if eof then (d, w, Ok tt)"]], "definition": "dec_loop", "desc": "end of file not remembered", "breaks": ["C18"]}}
{"mid": "r054", "lemmas": ["EncryptProofs.new_encryptor_spec", "EncryptProofs.new_encryptor_total", "Scene.session1", "Scene.session2", "Thm_Calls.C70_one_file_per_encryptor", "Thm_Size.C58_session_randomness", "Thm_Crash.enc_body_ends"], "hard": ["Thm_History(timeout/mem)"], "failed": ["C01_encrypt_decrypt_round_trip", "C01_encrypt_succeeds", "C02_stream_round_trip", "C02_stream_writes_succeed", "C03_encrypted_file_streams", "C03_stream_file_decrypts", "C04_fragmentation_independent", "C04_stream_agrees_with_encrypt", "C04_stream_write_sizes_irrelevant", "C05_file_format", "C05_stream_format", "C06_chunks", "C06_stream_chunks", "C07_nonces_distinct_partial", "C07_refuted_counter_wraps", "C07_refuted_second_encrypt", "C07_stream_nonces_distinct_partial", "C08_tampered_header", "C08_tampered_stream_header", "C09_truncated_file", "C09_truncated_stream", "C10_complete_partial", "C10_refuted_truncation", "C10_stream_complete_partial", "C11_released_data_genuine", "C13_refuted_recipient_forges", "C14_refuted", "C16_own_entry_opens", "C16_recipients_agree", "C20_refuted", "C21_encrypt_errors_partial", "C21_refuted", "C23_chunk_size_partial", "C23_refuted", "C24_recipients_partial", "C24_refuted", "C27_writes", "C29_refuted", "C48_encrypt_succeeds", "C51_encrypt_then_decrypt", "C56_encrypt_ends", "C57_encrypt_size", "C57_stream_size", "C58_file_randomness", "C58_session_randomness", "C58_stream_randomness", "C59_encrypt_against_stream", "C60_authenticated_exactly", "C60_last_call_decides_partial", "C60_refuted", "C61_rejected_exactly", "C61_rejected_recipients_leave_no_trace", "C63_output_genuine", "C64_pipeline", "C65_generate_encrypt_decrypt", "C70_one_file_per_encryptor"], "secs": 1127, "m": {"id": "r054", "edits": [["Encrypt.v", "let '(key, g) := rand_buf aes_key_size g in\n  let '(salt, g)", "let '(key, _) := rand_buf aes_key_size g in\n  let '(salt, g)"]], "definition": "new_encryptor", "desc": "salt shares randomness with the file key", "breaks": ["C58"]}}
{"mid": "r064", "lemmas": ["DecryptProofs.process_trailer_spec", "Hostile.process_trailer_any"], "hard": [], "failed": ["C01_encrypt_decrypt_round_trip", "C02_stream_round_trip", "C03_encrypted_file_streams", "C03_stream_file_decrypts", "C09_truncated_file", "C09_truncated_stream", "C10_complete_partial", "C10_refuted_truncation", "C10_stream_complete_partial", "C11_released_data_genuine", "C13_content_signed_partial", "C13_refuted_recipient_forges", "C13_stream_signed_partial", "C14_refuted", "C20_no_panic_partial", "C28_read_discipline", "C29_refuted", "C29_single_reader_partial", "C51_encrypt_then_decrypt", "C56_decrypt_ends", "C63_output_genuine", "C64_pipeline", "C65_generate_encrypt_decrypt", "C69_stream_and_decrypt_agree"], "secs": 248, "m": {"id": "r064", "edits": [["Decrypt.v", "let d' := d_with d (d_hmac d) r (d_buf d) in", "let d' := d_with d (d_hmac d) (d_rd d) (d_buf d) in"]], "definition": "process_trailer", "desc": "trailer not consumed", "breaks": ["C19"]}}
{"mid": "r065", "lemmas": ["OpenProofs.new_decryptor_spec", "Hostile.new_decryptor_any"], "hard": [], "failed": ["C01_encrypt_decrypt_round_trip", "C02_stream_round_trip", "C03_encrypted_file_streams", "C03_stream_file_decrypts", "C08_accepted_header", "C08_tampered_header", "C08_tampered_stream_header", "C09_truncated_file", "C09_truncated_stream", "C10_complete_partial", "C10_refuted_truncation", "C10_stream_complete_partial", "C11_released_data_genuine", "C12_authenticated_means_signed", "C13_content_signed_partial", "C13_refuted_recipient_forges", "C13_stream_signed_partial", "C14_refuted", "C14_signed_file_partial", "C15_not_a_recipient", "C16_recipients_agree", "C19_new_decryptor_total", "C20_no_panic_partial", "C20_refuted", "C23_refuted", "C24_recipients_partial", "C24_refuted", "C28_read_discipline", "C29_refuted", "C29_single_reader_partial", "C46_sender_partial", "C51_encrypt_then_decrypt", "C56_decrypt_ends", "C60_authenticated_exactly", "C60_last_call_decides_partial", "C63_output_genuine", "C64_pipeline", "C65_generate_encrypt_decrypt", "C69_stream_and_decrypt_agree", "C70_one_file_per_encryptor"], "secs": 266, "m": {"id": "r065", "edits": [["Decrypt.v", "if 1048576 <? varSize then", "if 2097152 <? varSize then"]], "definition": "new_decryptor", "desc": "header limit doubled", "breaks": ["C19", "C57", "C67"]}}
{"mid": "r066", "lemmas": ["OpenProofs.new_decryptor_spec", "Hostile.new_decryptor_any"], "hard": [], "failed": ["C01_encrypt_decrypt_round_trip", "C02_stream_round_trip", "C03_encrypted_file_streams", "C03_stream_file_decrypts", "C08_accepted_header", "C08_tampered_header", "C08_tampered_stream_header", "C09_truncated_file", "C09_truncated_stream", "C10_complete_partial", "C10_refuted_truncation", "C10_stream_complete_partial", "C11_released_data_genuine", "C12_authenticated_means_signed", "C13_content_signed_partial", "C13_refuted_recipient_forges", "C13_stream_signed_partial", "C14_refuted", "C14_signed_file_partial", "C15_not_a_recipient", "C16_recipients_agree", "C19_new_decryptor_total", "C20_no_panic_partial", "C20_refuted", "C23_refuted", "C24_recipients_partial", "C24_refuted", "C28_read_discipline", "C29_refuted", "C29_single_reader_partial", "C46_sender_partial", "C51_encrypt_then_decrypt", "C56_decrypt_ends", "C60_authenticated_exactly", "C60_last_call_decides_partial", "C63_output_genuine", "C64_pipeline", "C65_generate_encrypt_decrypt", "C69_stream_and_decrypt_agree", "C70_one_file_per_encryptor"], "secs": 235, "m": {"id": "r066", "edits": [["Decrypt.v", "(h_chunk h =? 0) || (max_chunk <=? h_chunk h)", "(max_chunk <=? h_chunk h)"]], "definition": "new_decryptor", "desc": "chunk size 0 accepted", "breaks": ["C19", "C67"]}}
{"mid": "r067", "lemmas": ["StreamRead.er_read_spec", "Hostile.er_read_any", "Thm_Stream.C29_refuted"], "hard": [], "failed": ["C02_stream_round_trip", "C03_encrypted_file_streams", "C03_stream_file_decrypts", "C09_truncated_stream", "C10_stream_complete_partial", "C11_released_data_genuine", "C13_stream_signed_partial", "C20_no_panic_partial", "C28_read_discipline", "C29_refuted", "C29_single_reader_partial", "C63_output_genuine", "C69_stream_and_decrypt_agree"], "secs": 205, "m": {"id": "r067", "edits": [["Stream.v", "er_deliver (d_set_eof d eof) (mkEr 0 m (u32 (er_blk s + 1)) None) n", "er_deliver d (mkEr 0 m (u32 (er_blk s + 1)) None) n"]], "definition": "er_read", "desc": "stream reader does not remember the last chunk", "breaks": ["C03", "C28", "C69"]}}
{"mid": "r068", "lemmas": ["StreamRead.er_read_spec", "Thm_Stream.C29_refuted"], "hard": [], "failed": ["C02_stream_round_trip", "C03_encrypted_file_streams", "C03_stream_file_decrypts", "C09_truncated_stream", "C10_stream_complete_partial", "C11_released_data_genuine", "C13_stream_signed_partial", "C29_refuted", "C29_single_reader_partial", "C63_output_genuine", "C69_stream_and_decrypt_agree"], "secs": 178, "m": {"id": "r068", "edits": [["Stream.v", "er_deliver (d_set_eof d eof) (mkEr 0 m (u32 (er_blk s + 1)) None) n", "er_deliver (d_set_eof d eof) (mkEr 0 m (er_blk s) None) n"]], "definition": "er_read", "desc": "block number not advanced", "breaks": ["C02", "C69"]}}
{"mid": "r069", "lemmas": ["StreamRead.er_read_spec", "Hostile.er_read_any", "Thm_Stream.C28_sticky_errors", "Thm_Stream.C29_refuted"], "hard": [], "failed": ["C02_stream_round_trip", "C03_encrypted_file_streams", "C03_stream_file_decrypts", "C09_truncated_stream", "C10_stream_complete_partial", "C11_released_data_genuine", "C13_stream_signed_partial", "C20_no_panic_partial", "C28_read_discipline", "C28_sticky_errors", "C29_refuted", "C29_single_reader_partial", "C63_output_genuine", "C69_stream_and_decrypt_agree"], "secs": 179, "m": {"id": "r069", "edits": [["Stream.v", "(d, mkEr (er_off s) (er_len s) (er_blk s) (Some x), ([], Fail x))", "(d, s, ([], Fail x))"]], "definition": "er_read", "desc": "error not remembered", "breaks": ["C28"]}}
{"mid": "r070", "lemmas": ["StreamRead.er_deliver_spec", "Hostile.er_deliver_any", "Thm_Stream.C28_sticky_errors"], "hard": [], "failed": ["C02_stream_round_trip", "C03_encrypted_file_streams", "C03_stream_file_decrypts", "C09_truncated_stream", "C10_stream_complete_partial", "C11_released_data_genuine", "C13_stream_signed_partial", "C20_no_panic_partial", "C28_read_discipline", "C28_sticky_errors", "C29_refuted", "C29_single_reader_partial", "C63_output_genuine", "C69_stream_and_decrypt_agree"], "secs": 173, "m": {"id": "r070", "edits": [["Stream.v", "else (d, mkEr (er_off s) (er_len s) (er_blk s) (Some IoEOF), ([], Fail IoEOF))", "else (d, mkEr (er_off s) (er_len s) (er_blk s) None, ([], Ok tt))"]], "definition": "er_deliver", "desc": "empty last chunk: Read returns 0, nil", "breaks": ["C28", "C03"]}}
{"mid": "r071", "lemmas": ["StreamRead.stream_read_spec", "Thm_Session.C18_decrypt_after_stream_reader", "Thm_Session.C18_nothing_after_decrypt", "Thm_Calls.C18_decrypt_every_history", "Thm_Calls.C18_nothing_after_decrypt_every_history", "Thm_Decrypt.C20_no_panic_partial", "Thm_Stream.C28_read_discipline", "Thm_Stream.C29_refuted"], "hard": [], "failed": ["C02_stream_round_trip", "C03_encrypted_file_streams", "C03_stream_file_decrypts", "C09_truncated_stream", "C10_stream_complete_partial", "C11_released_data_genuine", "C13_stream_signed_partial", "C18_decrypt_after_stream_reader", "C18_decrypt_every_history", "C18_nothing_after_decrypt", "C18_nothing_after_decrypt_every_history", "C20_no_panic_partial", "C28_read_discipline", "C29_refuted", "C29_single_reader_partial", "C63_output_genuine", "C69_stream_and_decrypt_agree"], "secs": 193, "m": {"id": "r071", "edits": [["Stream.v", "if d_eof d then (d, Fail IoEOF)\n      else", ""]], "definition": "new_stream_reader", "desc": "a stream reader after Decrypt", "breaks": ["C18"]}}
{"mid": "r074", "lemmas": ["FsProofs.write_file_spec", "Thm_Files.C50_refuted", "Thm_EndToEnd.gen_ops", "Thm_EndToEnd.gen_code", "Thm_EndToEnd.g_code", "Thm_EndToEnd.g_pks", "Thm_EndToEnd.enc_ops3", "Thm_Touch.C42_write_outcome"], "hard": [], "failed": ["C42_stored_objects", "C42_write_atomic", "C42_write_outcome", "C43_generate", "C50_new_pair_partial", "C50_refuted", "C65_generate_encrypt_decrypt", "C66_generate_sign_verify", "C68_only_outputs"], "secs": 81, "m": {"id": "r074", "edits": [["Fs.v", "| (Some e, w) => (sf_ops v dst w, Fail e)\n                     | (None, w) => (sf_ops v dst w, Ok tt)", "| (Some e, w) => (sf_ops v dst w, Fail e)\n                     | (None, w) => (sf_ops v dst w, Fail ErrClosed)"]], "definition": "write_file", "desc": "writeFile always fails", "breaks": ["C42"]}}
{"mid": "r072", "lemmas": ["StreamProofs.new_stream_writer_spec", "Thm_Session.stream_writer_flags", "Thm_Calls.estep_started"], "hard": [], "failed": ["C02_stream_round_trip", "C02_stream_writes_succeed", "C03_encrypted_file_streams", "C03_stream_file_decrypts", "C04_stream_agrees_with_encrypt", "C04_stream_write_sizes_irrelevant", "C05_stream_format", "C06_stream_chunks", "C07_stream_nonces_distinct_partial", "C08_tampered_stream_header", "C09_truncated_file", "C09_truncated_stream", "C10_complete_partial", "C10_refuted_truncation", "C10_stream_complete_partial", "C11_released_data_genuine", "C13_refuted_recipient_forges", "C14_refuted", "C17_every_history", "C17_no_recipient_after_start", "C18_encrypt_after_stream_writer", "C18_encrypt_every_history", "C20_refuted", "C27_writes", "C29_refuted", "C57_stream_size", "C58_stream_randomness", "C59_encrypt_against_stream", "C63_output_genuine", "C70_one_file_per_encryptor"], "secs": 196, "m": {"id": "r072", "edits": [["Stream.v", "(e_sender e) (e_auth e) (e_started e) true", "(e_sender e) (e_auth e) (e_started e) false"]], "definition": "new_stream_writer", "desc": "stream flag not set", "breaks": ["C18"]}}
{"mid": "r073", "lemmas": ["StreamProofs.ew_close_spec", "Thm_Stream.C27_sticky_errors"], "hard": [], "failed": ["C02_stream_round_trip", "C02_stream_writes_succeed", "C03_encrypted_file_streams", "C03_stream_file_decrypts", "C04_stream_agrees_with_encrypt", "C04_stream_write_sizes_irrelevant", "C05_stream_format", "C06_stream_chunks", "C07_stream_nonces_distinct_partial", "C08_tampered_stream_header", "C09_truncated_file", "C09_truncated_stream", "C10_complete_partial", "C10_refuted_truncation", "C10_stream_complete_partial", "C11_released_data_genuine", "C13_refuted_recipient_forges", "C14_refuted", "C20_refuted", "C27_sticky_errors", "C29_refuted", "C57_stream_size", "C58_stream_randomness", "C59_encrypt_against_stream", "C63_output_genuine"], "secs": 196, "m": {"id": "r073", "edits": [["Stream.v", "let s := mkEw [] (ew_blk s) (Some ErrClosed) in", "let s := mkEw [] (ew_blk s) None in"]], "definition": "ew_close", "desc": "Close may be repeated", "breaks": ["C27"]}}
{"mid": "r075", "lemmas": ["FsProofs.write_file_spec", "Thm_Touch.C42_write_outcome"], "hard": [], "failed": ["C42_stored_objects", "C42_write_atomic", "C42_write_outcome", "C43_generate", "C50_new_pair_partial", "C65_generate_encrypt_decrypt", "C66_generate_sign_verify", "C68_only_outputs"], "secs": 71, "m": {"id": "r075", "edits": [["Fs.v", "| (Some e, w) => (sf_ops v dst w, Fail e)\n                     | (None, w)", "| (Some e, w) => (sf_ops v dst w, Ok tt)\n                     | (None, w)"]], "definition": "write_file", "desc": "commit errors swallowed", "breaks": ["C42"]}}
{"mid": "r076", "lemmas": ["FsProofs.write_file_spec", "Thm_Touch.C42_write_outcome"], "hard": [], "failed": ["C42_stored_objects", "C42_write_atomic", "C42_write_outcome", "C43_generate", "C50_new_pair_partial", "C65_generate_encrypt_decrypt", "C66_generate_sign_verify", "C68_only_outputs"], "secs": 89, "m": {"id": "r076", "edits": [["Fs.v", "| (Some e, w) => (sf_ops v dst w, Fail e)\n      | (None, w) => match", "| (Some e, w) => (sf_ops v dst w, Ok tt)\n      | (None, w) => match"]], "definition": "write_file", "desc": "write errors swallowed", "breaks": ["C42"]}}
{"mid": "n049", "lemmas": ["Thm_KeyFiles.marshal_private_spec", "Thm_Cli.C45_close_refuted", "Thm_Commands.C46_refuted", "Thm_Commands.town_akey", "Thm_Commands.C49_refuted", "Thm_Chain.town_skeyS", "Thm_Chain.sign1_code", "Thm_Chain.town_skey", "Thm_Chain.town1_akey", "Thm_Chain.c51_code", "Thm_Chain.c51_ops", "Thm_Chain.C53_refuted", "Thm_EndToEnd.g_key", "Thm_EndToEnd.s_code", "Thm_Pipe.c64_code", "Thm_Pipe.c64_akey"], "hard": [], "failed": ["C34_comment_refuted", "C34_private_round_trip_partial", "C42_stored_objects", "C43_pair_usable_partial", "C45_close_refuted", "C46_refuted", "C49_refuted", "C53_refuted", "C65_generate_encrypt_decrypt", "C66_generate_sign_verify"], "secs": 227, "m": {"id": "n049", "edits": [["KeyFiles.v", "(b64_encode salt) sk_algo", "(b64_encode (zeros 32)) sk_algo"]], "definition": "marshal_private", "desc": "wrong salt stored", "breaks": ["C34"]}}
{"mid": "n050", "lemmas": ["Thm_KeyFiles.marshal_private_spec", "Thm_Cli.C45_close_refuted", "Thm_Commands.C46_refuted", "Thm_Commands.town_akey", "Thm_Commands.C49_refuted", "Thm_Chain.town_skeyS", "Thm_Chain.sign1_code", "Thm_Chain.town_skey", "Thm_Chain.town1_akey", "Thm_Chain.c51_code", "Thm_Chain.c51_ops", "Thm_Chain.C53_refuted", "Thm_Crash.C56_generate_ends", "Thm_EndToEnd.g_key", "Thm_EndToEnd.s_code", "Thm_Pipe.c64_code", "Thm_Pipe.c64_akey"], "hard": [], "failed": ["C34_comment_refuted", "C34_private_round_trip_partial", "C42_stored_objects", "C43_pair_usable_partial", "C45_close_refuted", "C46_refuted", "C49_refuted", "C53_refuted", "C56_generate_ends", "C65_generate_encrypt_decrypt", "C66_generate_sign_verify"], "secs": 230, "m": {"id": "n050", "edits": [["KeyFiles.v", "let pass := sha512 C pw in", "let pass := pw in"]], "definition": "marshal_private", "desc": "password not hashed when writing", "breaks": ["C34"]}}
{"mid": "n051", "lemmas": ["Thm_KeyFiles.marshal_private_spec", "Thm_Cli.C45_close_refuted", "Thm_Commands.C46_refuted", "Thm_Commands.town_akey", "Thm_Commands.C49_refuted", "Thm_Chain.town_skeyS", "Thm_Chain.sign1_code", "Thm_Chain.town_skey", "Thm_Chain.town1_akey", "Thm_Chain.c51_code", "Thm_Chain.c51_ops", "Thm_Chain.C53_refuted", "Thm_EndToEnd.g_key", "Thm_EndToEnd.s_code", "Thm_Pipe.c64_code", "Thm_Pipe.c64_akey"], "hard": [], "failed": ["C34_comment_refuted", "C34_private_round_trip_partial", "C42_stored_objects", "C43_pair_usable_partial", "C45_close_refuted", "C46_refuted", "C49_refuted", "C53_refuted", "C65_generate_encrypt_decrypt", "C66_generate_sign_verify"], "secs": 215, "m": {"id": "n051", "edits": [["KeyFiles.v", "scrypt_N scrypt_r scrypt_p)), g)", "scrypt_N scrypt_p scrypt_r)), g)"]], "definition": "marshal_private", "desc": "r and p swapped in the file", "breaks": ["C34"]}}
{"mid": "n052", "lemmas": ["Thm_KeyFiles.looks_iff"], "hard": [], "failed": ["C34_comment_refuted", "C34_private_round_trip_partial", "C36_private_panics_exactly", "C42_stored_objects", "C43_pair_usable_partial", "C56_decrypt_ends", "C56_encrypt_ends", "C56_sign_ends", "C65_generate_encrypt_decrypt", "C66_generate_sign_verify", "C67_one_key", "C67_private_exact"], "secs": 121, "m": {"id": "n052", "edits": [["KeyFiles.v", "Some i => 0 <? i", "Some i => true"]], "definition": "looks_openssh", "desc": "marker at position 0 selects the OpenSSH parser", "breaks": ["C34"]}}
{"mid": "n053", "lemmas": ["Thm_KeyFiles.unmarshal_yaml", "Thm_KeyFiles.C35_private_partial", "Thm_KeyFiles.C35_stale_refuted", "CliProofs.read_private_loaded", "Thm_Accept.C67_private_exact"], "hard": [], "failed": ["C34_private_round_trip_partial", "C35_private_partial", "C35_stale_refuted", "C42_stored_objects", "C43_pair_usable_partial", "C52_sign_then_verify", "C56_encrypt_ends", "C56_sign_ends", "C65_generate_encrypt_decrypt", "C66_generate_sign_verify", "C67_one_key", "C67_private_exact"], "secs": 124, "m": {"id": "n053", "edits": [["KeyFiles.v", "| None => Fail (EMsg \"unmarshal priv key: wrong password\")", "| None => make_private_from_bytes C sk (zeros 64)"]], "definition": "unmarshal_private", "desc": "wrong password yields an all-zero key", "breaks": ["C34"]}}
{"mid": "n054", "lemmas": ["Thm_KeyFiles.unmarshal_yaml", "Thm_KeyFiles.C35_private_partial", "Thm_KeyFiles.C35_stale_refuted", "Thm_KeyFiles.C36_private_partial", "Thm_KeyFiles.C36_private_refuted", "CliProofs.read_private_loaded", "Thm_KeyCrash.C36_private_panics_exactly", "Thm_Accept.C67_private_exact"], "hard": [], "failed": ["C34_private_round_trip_partial", "C35_private_partial", "C35_stale_refuted", "C36_private_panics_exactly", "C36_private_partial", "C36_private_refuted", "C42_stored_objects", "C43_pair_usable_partial", "C52_sign_then_verify", "C56_decrypt_ends", "C56_encrypt_ends", "C56_sign_ends", "C65_generate_encrypt_decrypt", "C66_generate_sign_verify", "C67_one_key", "C67_private_exact"], "secs": 120, "m": {"id": "n054", "edits": [["KeyFiles.v", "if (len (sp_salt ssk) =? 0) || (len (sp_esk ssk) =? 0) then", "if (len (sp_esk ssk) =? 0) then"]], "definition": "unmarshal_private", "desc": "missing salt not detected", "breaks": ["C36"]}}
{"mid": "n055", "lemmas": ["Thm_KeyFiles.C36_private_refuted", "Thm_KeyCrash.C36_private_panics_exactly"], "hard": [], "failed": ["C36_private_panics_exactly", "C36_private_refuted", "C56_decrypt_ends", "C56_encrypt_ends", "C56_sign_ends"], "secs": 109, "m": {"id": "n055", "edits": [["KeyFiles.v", "if len full <? gcm_nonce_size then Panic \"slice bounds out of range\"\n              else", "if len full <? gcm_nonce_size then Fail (EMsg \"short salt\")\n              else"]], "definition": "unmarshal_private", "desc": "short salt is an error (a fix: C36_refuted must stop holding)", "breaks": ["C36"]}}
{"mid": "n056", "lemmas": ["Thm_KeyFiles.C33_public_round_trip", "Thm_Cli.town_pub", "Thm_Cli.C45_close_refuted", "Thm_Commands.C44_refuted", "Thm_Commands.C46_refuted", "Thm_Chain.keyS_file", "Thm_Chain.town_pks", "Thm_Chain.c51_spub", "Thm_Chain.c51_rcp", "Thm_Chain.c51_code", "Thm_Chain.c51_ops", "Thm_EndToEnd.g_code", "Thm_EndToEnd.g_pks", "Thm_EndToEnd.enc_ops3", "Thm_Pipe.c64_code", "Thm_Pipe.c64_spub"], "hard": [], "failed": ["C33_public_round_trip", "C42_stored_objects", "C43_pair_usable_partial", "C44_refuted", "C45_close_refuted", "C46_refuted", "C65_generate_encrypt_decrypt", "C66_generate_sign_verify"], "secs": 152, "m": {"id": "n056", "edits": [["KeyFiles.v", "(b64_encode (pk_Pk pk)) (b64_encode (pk_hash pk))", "(b64_encode (pk_hash pk)) (b64_encode (pk_Pk pk))"]], "definition": "marshal_public", "desc": "key and hash swapped", "breaks": ["C33"]}}
{"mid": "n057", "lemmas": ["Thm_KeyFiles.C33_yaml_exact", "Thm_KeyFiles.C35_public_partial", "Thm_KeyFiles.C35_stale_refuted", "CliProofs.make_public_loaded", "Thm_Accept.C67_public_exact"], "hard": [], "failed": ["C33_yaml_exact", "C35_public_partial", "C35_stale_refuted", "C43_pair_usable_partial", "C47_verify_exact", "C52_sign_then_verify", "C53_crash_exactly_partial", "C56_decrypt_ends", "C56_encrypt_ends", "C62_verify_report", "C65_generate_encrypt_decrypt", "C66_generate_sign_verify", "C67_public_exact", "C68_only_outputs"], "secs": 130, "m": {"id": "n057", "edits": [["KeyFiles.v", "| Fail _ =>\n      match y_pub E yml with\n      | None => (pk, Fail (EMsg \"can't parse YAML: %s\"))", "| Fail _ =>\n      match y_pub E yml with\n      | None => (pk, Ok tt)"]], "definition": "unmarshal_public", "desc": "unparsable public key accepted", "breaks": ["C33"]}}
{"mid": "n058", "lemmas": ["Thm_KeyFiles.C36_public_panics_exactly", "Thm_Commands.string_loaded", "Thm_Commands.string_no_panic", "Thm_Chain.key_named", "Thm_Chain.C54_string_exact"], "hard": [], "failed": ["C36_public_panics_exactly", "C47_verify_exact", "C52_sign_then_verify", "C53_crash_exactly_partial", "C54_refuted", "C54_round_trip_partial", "C54_string_exact", "C56_decrypt_ends", "C56_encrypt_ends", "C62_verify_report", "C66_generate_sign_verify", "C68_only_outputs"], "secs": 132, "m": {"id": "n058", "edits": [["KeyFiles.v", "pkb <- b64_decode s ;; pk <- make_public_from_bytes C zero_pub pkb ;; Ok (Some pk)", "pkb <- b64_decode s ;; Ok (Some (mkPub pkb [] None (pkhash C pkb)))"]], "definition": "make_public_from_string", "desc": "length of a key string not checked", "breaks": ["C54"]}}
{"mid": "n059", "lemmas": ["Thm_KeyFiles.C32_signature_round_trip"], "hard": [], "failed": ["C32_signature_round_trip", "C42_stored_objects", "C52_sign_then_verify", "C66_generate_sign_verify"], "secs": 119, "m": {"id": "n059", "edits": [["KeyFiles.v", "(b64_encode (sig_pkhash s)) (b64_encode (sig_Sig s))", "(b64_encode (sig_Sig s)) (b64_encode (sig_pkhash s))"]], "definition": "marshal_signature", "desc": "signature fields swapped", "breaks": ["C32"]}}
{"mid": "n060", "lemmas": ["Thm_KeyFiles.C32_signature_round_trip"], "hard": [], "failed": ["C32_signature_round_trip", "C42_stored_objects", "C52_sign_then_verify", "C66_generate_sign_verify"], "secs": 126, "m": {"id": "n060", "edits": [["KeyFiles.v", "mkSsig comment (b64_encode (sig_pkhash s))", "mkSsig comment []"]], "definition": "marshal_signature", "desc": "key hash not written", "breaks": ["C32", "C52"]}}
{"mid": "n061", "lemmas": ["Thm_KeyFiles.C32_signature_round_trip", "Thm_KeyFiles.C32_signature_reading_exact"], "hard": [], "failed": ["C32_signature_reading_exact", "C32_signature_round_trip", "C42_stored_objects", "C47_verify_exact", "C52_sign_then_verify", "C53_crash_exactly_partial", "C62_verify_report", "C66_generate_sign_verify", "C68_only_outputs"], "secs": 134, "m": {"id": "n061", "edits": [["KeyFiles.v", "| Ok p => (mkSig sg p, Ok tt)", "| Ok p => (mkSig sg (sig_pkhash s), Ok tt)"]], "definition": "unmarshal_signature", "desc": "key hash not loaded", "breaks": ["C32"]}}
{"mid": "n062", "lemmas": ["ToyExt.toyE_keeps", "Thm_KeyFiles.yaml_priv_marker", "Thm_KeyFiles.C34_comment_refuted"], "hard": [], "failed": ["C34_comment_refuted", "C34_private_round_trip_partial", "C42_stored_objects", "C43_pair_usable_partial", "C65_generate_encrypt_decrypt", "C66_generate_sign_verify"], "secs": 148, "m": {"id": "n062", "edits": [["KeyFiles.v", "y_opt E \"comment\" (sp_comment r) ++ y_field \"esk\"", "y_field \"esk\""]], "definition": "yaml_priv", "desc": "comment not written into the private key file", "breaks": []}}
{"mid": "n063", "lemmas": ["ToyExt.toyE_keeps", "Thm_KeyFiles.yaml_not_ssh"], "hard": [], "failed": ["C33_public_round_trip", "C42_stored_objects", "C43_pair_usable_partial", "C65_generate_encrypt_decrypt", "C66_generate_sign_verify"], "secs": 141, "m": {"id": "n063", "edits": [["KeyFiles.v", "y_opt E \"comment\" (su_comment r) ++ y_field \"pk\"", "y_field \"pk\""]], "definition": "yaml_pub", "desc": "comment not written into the public key file", "breaks": []}}
{"mid": "n064", "lemmas": ["Thm_KeyFiles.marker_base64"], "hard": [], "failed": ["C34_private_round_trip_partial", "C42_stored_objects", "C43_pair_usable_partial", "C65_generate_encrypt_decrypt", "C66_generate_sign_verify"], "secs": 238, "m": {"id": "n064", "edits": [["Base64.v", "456789+/\"", "456789-_\""]], "definition": "b64_alphabet", "desc": "URL alphabet", "breaks": ["C40"]}}
{"mid": "n066", "lemmas": ["Base64Proofs.b64_dec_unbroken", "Base64Proofs.dec_inv"], "hard": [], "failed": ["C32_signature_reading_exact", "C32_signature_round_trip", "C33_openssh_line", "C33_public_round_trip", "C33_yaml_exact", "C34_private_round_trip_partial", "C35_public_partial", "C36_private_panics_exactly", "C36_private_partial", "C36_private_refuted", "C36_public_panics_exactly", "C37_bad_blob_rejected", "C37_blob_exact", "C37_line_exact", "C37_line_partial", "C38_entries_partial", "C38_sound", "C40_decode_exact", "C40_refused", "C40_round_trip", "C42_stored_objects", "C43_pair_usable_partial", "C47_verify_exact", "C52_sign_then_verify", "C53_crash_exactly_partial", "C54_refuted", "C54_round_trip_partial", "C54_string_exact", "C56_decrypt_ends", "C56_encrypt_ends", "C56_sign_ends", "C62_verify_report", "C65_generate_encrypt_decrypt", "C66_generate_sign_verify", "C67_one_key", "C67_private_exact", "C67_public_exact", "C68_only_outputs"], "secs": 209, "m": {"id": "n066", "edits": [["Base64.v", "if is_crlf c then b64_dec s' q\n          else", ""]], "definition": "b64_dec", "desc": "CR/LF not skipped", "breaks": ["C40"]}}
{"mid": "n065", "lemmas": ["Base64Proofs.b64_encode_text", "Base64Proofs.len_b64_encode", "Thm_Ssh.C38_options_refuted", "Thm_Cli.town_pub", "Thm_Cli.C45_close_refuted", "Thm_Commands.C44_refuted", "Thm_Commands.C46_refuted", "Thm_Commands.town_akey", "Thm_Commands.C49_refuted", "Thm_Chain.town_skeyS", "Thm_Chain.keyS_file", "Thm_Chain.keyS_string", "Thm_Chain.sign1_code", "Thm_Chain.town_skey", "Thm_Chain.town_pks", "Thm_Chain.town1_akey", "Thm_Chain.c51_spub", "Thm_Chain.c51_rcp", "Thm_Chain.c51_code", "Thm_Chain.c51_ops", "Thm_Chain.C53_refuted", "Thm_EndToEnd.g_code", "Thm_EndToEnd.g_key", "Thm_EndToEnd.g_pks", "Thm_EndToEnd.enc_ops3", "Thm_EndToEnd.s_code", "Thm_Pipe.c64_code", "Thm_Pipe.c64_akey", "Thm_Pipe.c64_spub"], "hard": [], "failed": ["C32_signature_round_trip", "C33_public_round_trip", "C34_private_round_trip_partial", "C36_private_refuted", "C37_comment_refuted", "C37_line_partial", "C38_options_refuted", "C40_round_trip", "C42_stored_objects", "C43_pair_usable_partial", "C44_refuted", "C45_close_refuted", "C46_refuted", "C49_refuted", "C50_refuted", "C52_sign_then_verify", "C53_refuted", "C54_refuted", "C54_round_trip_partial", "C65_generate_encrypt_decrypt", "C66_generate_sign_verify"], "secs": 285, "m": {"id": "n065", "edits": [["Base64.v", "b64_char (v / 2^6 mod 64); x3d]", "b64_char (v / 2^6 mod 64)]"]], "definition": "b64_encode", "desc": "no padding", "breaks": ["C40"]}}
{"mid": "n067", "lemmas": ["Base64Proofs.dec_inv"], "hard": [], "failed": ["C32_signature_reading_exact", "C32_signature_round_trip", "C33_openssh_line", "C33_public_round_trip", "C33_yaml_exact", "C34_private_round_trip_partial", "C35_public_partial", "C36_private_panics_exactly", "C36_private_partial", "C36_private_refuted", "C36_public_panics_exactly", "C37_bad_blob_rejected", "C37_blob_exact", "C37_line_exact", "C37_line_partial", "C38_entries_partial", "C38_sound", "C40_decode_exact", "C40_refused", "C40_round_trip", "C42_stored_objects", "C43_pair_usable_partial", "C47_verify_exact", "C52_sign_then_verify", "C53_crash_exactly_partial", "C54_refuted", "C54_round_trip_partial", "C54_string_exact", "C56_decrypt_ends", "C56_encrypt_ends", "C56_sign_ends", "C62_verify_report", "C65_generate_encrypt_decrypt", "C66_generate_sign_verify", "C67_one_key", "C67_private_exact", "C67_public_exact", "C68_only_outputs"], "secs": 180, "m": {"id": "n067", "edits": [["Base64.v", "| [] => match q with [] => Some [] | _ => None end", "| [] => Some []"]], "definition": "b64_dec", "desc": "truncated quantum accepted", "breaks": ["C40"]}}
{"mid": "n068", "lemmas": ["Base64Proofs.b64_dec_unbroken", "Base64Proofs.dec_inv"], "hard": [], "failed": ["C32_signature_reading_exact", "C32_signature_round_trip", "C33_openssh_line", "C33_public_round_trip", "C33_yaml_exact", "C34_private_round_trip_partial", "C35_public_partial", "C36_private_panics_exactly", "C36_private_partial", "C36_private_refuted", "C36_public_panics_exactly", "C37_bad_blob_rejected", "C37_blob_exact", "C37_line_exact", "C37_line_partial", "C38_entries_partial", "C38_sound", "C40_decode_exact", "C40_refused", "C40_round_trip", "C42_stored_objects", "C43_pair_usable_partial", "C47_verify_exact", "C52_sign_then_verify", "C53_crash_exactly_partial", "C54_refuted", "C54_round_trip_partial", "C54_string_exact", "C56_decrypt_ends", "C56_encrypt_ends", "C56_sign_ends", "C62_verify_report", "C65_generate_encrypt_decrypt", "C66_generate_sign_verify", "C67_one_key", "C67_private_exact", "C67_public_exact", "C68_only_outputs"], "secs": 208, "m": {"id": "n068", "edits": [["Base64.v", "match skip_nl s' with\n                   | [] => let v := d0 * 2^18 + d1 * 2^12 + d2 * 2^6 in Some [z2b (v / 2^16); z2b (v / 2^8)]\n                   | _ => None\n                   end", "let v := d0 * 2^18 + d1 * 2^12 + d2 * 2^6 in Some [z2b (v / 2^16); z2b (v / 2^8)]"]], "definition": "b64_dec", "desc": "data after the padding ignored", "breaks": ["C40"]}}
{"mid": "n069", "lemmas": ["Base64Proofs.val_crlf", "Thm_Ssh.C40_refused"], "hard": [], "failed": ["C32_signature_reading_exact", "C32_signature_round_trip", "C33_openssh_line", "C33_public_round_trip", "C33_yaml_exact", "C34_private_round_trip_partial", "C35_public_partial", "C36_private_panics_exactly", "C36_private_partial", "C36_private_refuted", "C36_public_panics_exactly", "C37_bad_blob_rejected", "C37_blob_exact", "C37_line_exact", "C37_line_partial", "C38_entries_partial", "C38_sound", "C40_decode_exact", "C40_refused", "C40_round_trip", "C42_stored_objects", "C43_pair_usable_partial", "C47_verify_exact", "C52_sign_then_verify", "C53_crash_exactly_partial", "C54_refuted", "C54_round_trip_partial", "C54_string_exact", "C56_decrypt_ends", "C56_encrypt_ends", "C56_sign_ends", "C62_verify_report", "C65_generate_encrypt_decrypt", "C66_generate_sign_verify", "C67_one_key", "C67_private_exact", "C67_public_exact", "C68_only_outputs"], "secs": 235, "m": {"id": "n069", "edits": [["Base64.v", "Byte.eqb c x0a || Byte.eqb c x0d", "Byte.eqb c x0a || Byte.eqb c x0d || Byte.eqb c x20"]], "definition": "is_crlf", "desc": "blanks skipped too", "breaks": ["C40"]}}
{"mid": "m001", "lemmas": ["EncryptProofs.lor_eof", "DecryptProofs.land_eof", "DecryptProofs.land_low"], "hard": [], "failed": ["C01_encrypt_decrypt_round_trip", "C01_encrypt_succeeds", "C02_stream_round_trip", "C02_stream_writes_succeed", "C03_encrypted_file_streams", "C03_stream_file_decrypts", "C04_fragmentation_independent", "C04_stream_agrees_with_encrypt", "C04_stream_write_sizes_irrelevant", "C05_file_format", "C05_stream_format", "C06_chunks", "C06_stream_chunks", "C07_nonces_distinct_partial", "C07_refuted_counter_wraps", "C07_refuted_second_encrypt", "C07_stream_nonces_distinct_partial", "C08_tampered_header", "C08_tampered_stream_header", "C09_truncated_file", "C09_truncated_stream", "C10_complete_partial", "C10_refuted_truncation", "C10_stream_complete_partial", "C11_released_data_genuine", "C13_content_signed_partial", "C13_refuted_recipient_forges", "C13_stream_signed_partial", "C14_refuted", "C16_recipients_agree", "C20_no_panic_partial", "C20_refuted", "C21_encrypt_errors_partial", "C23_refuted", "C24_recipients_partial", "C24_refuted", "C27_writes", "C28_read_discipline", "C29_refuted", "C29_single_reader_partial", "C48_encrypt_succeeds", "C51_encrypt_then_decrypt", "C56_decrypt_ends", "C56_encrypt_ends", "C57_encrypt_size", "C57_stream_size", "C58_file_randomness", "C58_stream_randomness", "C59_encrypt_against_stream", "C63_output_genuine", "C64_pipeline", "C65_generate_encrypt_decrypt", "C69_stream_and_decrypt_agree", "C70_one_file_per_encryptor"], "secs": 306, "m": {"id": "m001", "edits": [["Encrypt.v", "Definition eof_bit : Z := 2^31.", "Definition eof_bit : Z := 2^30."]], "definition": "eof_bit", "desc": "EOF bit is bit 30", "breaks": ["C05", "C06"]}}
{"mid": "m002", "lemmas": ["EncryptProofs.block_size_range", "OpenProofs.new_decryptor_spec", "OpenProofs.ready_valid_header", "Support.made_inv", "Hostile.new_decryptor_any", "Thm_Encrypt.C06_chunks", "Thm_Size.block_size_chunk", "Thm_StreamFormat.C06_stream_chunks", "Thm_Limits.C23_chunk_size_partial", "Thm_Limits.C23_refuted"], "hard": [], "failed": ["C01_encrypt_decrypt_round_trip", "C01_encrypt_succeeds", "C02_stream_round_trip", "C02_stream_writes_succeed", "C03_encrypted_file_streams", "C03_stream_file_decrypts", "C04_fragmentation_independent", "C04_stream_agrees_with_encrypt", "C04_stream_write_sizes_irrelevant", "C05_file_format", "C05_stream_format", "C06_chunks", "C06_stream_chunks", "C07_nonces_distinct_partial", "C07_refuted_counter_wraps", "C07_refuted_second_encrypt", "C07_stream_nonces_distinct_partial", "C08_accepted_header", "C08_tampered_header", "C08_tampered_stream_header", "C09_truncated_file", "C09_truncated_stream", "C10_complete_partial", "C10_refuted_truncation", "C10_stream_complete_partial", "C11_released_data_genuine", "C12_authenticated_means_signed", "C13_content_signed_partial", "C13_refuted_recipient_forges", "C13_stream_signed_partial", "C14_refuted", "C14_signed_file_partial", "C15_not_a_recipient", "C16_recipients_agree", "C19_new_decryptor_total", "C20_no_panic_partial", "C20_refuted", "C21_encrypt_errors_partial", "C23_chunk_size_partial", "C23_refuted", "C24_recipients_partial", "C24_refuted", "C27_writes", "C28_read_discipline", "C29_refuted", "C29_single_reader_partial", "C46_sender_partial", "C48_encrypt_succeeds", "C51_encrypt_then_decrypt", "C56_decrypt_ends", "C56_encrypt_ends", "C57_encrypt_size", "C57_stream_size", "C58_file_randomness", "C58_stream_randomness", "C59_encrypt_against_stream", "C60_authenticated_exactly", "C60_last_call_decides_partial", "C63_output_genuine", "C64_pipeline", "C65_generate_encrypt_decrypt", "C69_stream_and_decrypt_agree", "C70_one_file_per_encryptor"], "secs": 308, "m": {"id": "m002", "edits": [["Encrypt.v", "Definition max_chunk : Z := 2^30.", "Definition max_chunk : Z := 2^31."]], "definition": "max_chunk", "desc": "chunk limit 2 GiB", "breaks": ["C19", "C23"]}}
{"mid": "m003", "lemmas": ["EncryptProofs.block_size_range", "Thm_Limits.C23_chunk_size_partial", "Thm_Limits.C23_refuted"], "hard": [], "failed": ["C01_encrypt_decrypt_round_trip", "C01_encrypt_succeeds", "C02_stream_round_trip", "C02_stream_writes_succeed", "C03_encrypted_file_streams", "C03_stream_file_decrypts", "C04_fragmentation_independent", "C04_stream_agrees_with_encrypt", "C04_stream_write_sizes_irrelevant", "C05_file_format", "C05_stream_format", "C06_chunks", "C06_stream_chunks", "C07_nonces_distinct_partial", "C07_refuted_counter_wraps", "C07_refuted_second_encrypt", "C07_stream_nonces_distinct_partial", "C08_tampered_header", "C08_tampered_stream_header", "C09_truncated_file", "C09_truncated_stream", "C10_complete_partial", "C10_refuted_truncation", "C10_stream_complete_partial", "C11_released_data_genuine", "C13_refuted_recipient_forges", "C14_refuted", "C16_recipients_agree", "C20_refuted", "C21_encrypt_errors_partial", "C23_chunk_size_partial", "C23_refuted", "C24_recipients_partial", "C24_refuted", "C27_writes", "C29_refuted", "C48_encrypt_succeeds", "C51_encrypt_then_decrypt", "C56_encrypt_ends", "C57_encrypt_size", "C57_stream_size", "C58_file_randomness", "C58_stream_randomness", "C59_encrypt_against_stream", "C63_output_genuine", "C64_pipeline", "C65_generate_encrypt_decrypt", "C70_one_file_per_encryptor"], "secs": 275, "m": {"id": "m003", "edits": [["Encrypt.v", "if max_chunk <? blksize then max_chunk\n  else u32 blksize", "u32 blksize"]], "definition": "block_size", "desc": "no upper limit on the block size", "breaks": ["C23"]}}
{"mid": "m004", "lemmas": ["EncryptProofs.block_size_range", "OpenProofs.ready_valid_header", "Support.made_inv", "Thm_Encrypt.C06_chunks", "Thm_Size.block_size_chunk", "Thm_StreamFormat.C06_stream_chunks", "Thm_Limits.C23_chunk_size_partial"], "hard": [], "failed": ["C01_encrypt_decrypt_round_trip", "C01_encrypt_succeeds", "C02_stream_round_trip", "C02_stream_writes_succeed", "C03_encrypted_file_streams", "C03_stream_file_decrypts", "C04_fragmentation_independent", "C04_stream_agrees_with_encrypt", "C04_stream_write_sizes_irrelevant", "C05_file_format", "C05_stream_format", "C06_chunks", "C06_stream_chunks", "C07_nonces_distinct_partial", "C07_refuted_counter_wraps", "C07_refuted_second_encrypt", "C07_stream_nonces_distinct_partial", "C08_tampered_header", "C08_tampered_stream_header", "C09_truncated_file", "C09_truncated_stream", "C10_complete_partial", "C10_refuted_truncation", "C10_stream_complete_partial", "C11_released_data_genuine", "C13_refuted_recipient_forges", "C14_refuted", "C16_recipients_agree", "C20_refuted", "C21_encrypt_errors_partial", "C23_chunk_size_partial", "C23_refuted", "C24_recipients_partial", "C24_refuted", "C27_writes", "C29_refuted", "C48_encrypt_succeeds", "C51_encrypt_then_decrypt", "C56_encrypt_ends", "C57_encrypt_size", "C57_stream_size", "C58_file_randomness", "C58_stream_randomness", "C59_encrypt_against_stream", "C63_output_genuine", "C64_pipeline", "C65_generate_encrypt_decrypt", "C70_one_file_per_encryptor"], "secs": 245, "m": {"id": "m004", "edits": [["Encrypt.v", "if blksize =? 0 then chunk_default\n  else ", ""]], "definition": "block_size", "desc": "no default for block size 0", "breaks": ["C23"]}}
{"mid": "m005", "lemmas": ["Thm_Encrypt.C06_chunks", "Thm_Size.block_size_chunk", "Thm_StreamFormat.C06_stream_chunks", "Thm_Limits.C23_chunk_size_partial"], "hard": [], "failed": ["C06_chunks", "C06_stream_chunks", "C23_chunk_size_partial", "C57_encrypt_size", "C57_stream_size", "C59_encrypt_against_stream"], "secs": 227, "m": {"id": "m005", "edits": [["Encrypt.v", "Definition chunk_default : Z := 4 * 1048576.", "Definition chunk_default : Z := 1048576."]], "definition": "chunk_default", "desc": "default chunk 1 MiB", "breaks": ["C23"]}}
{"mid": "m006", "lemmas": ["OpenProofs.verify_sender_spec", "OpenProofs.ready_verify_sender"], "hard": [], "failed": ["C01_encrypt_decrypt_round_trip", "C02_stream_round_trip", "C03_encrypted_file_streams", "C03_stream_file_decrypts", "C09_truncated_file", "C09_truncated_stream", "C10_complete_partial", "C10_refuted_truncation", "C10_stream_complete_partial", "C11_released_data_genuine", "C12_authenticated_means_signed", "C13_content_signed_partial", "C13_refuted_recipient_forges", "C13_stream_signed_partial", "C14_refuted", "C14_signed_file_partial", "C16_recipients_agree", "C20_no_panic_partial", "C20_refuted", "C28_read_discipline", "C29_refuted", "C29_single_reader_partial", "C46_sender_partial", "C51_encrypt_then_decrypt", "C56_decrypt_ends", "C60_authenticated_exactly", "C60_last_call_decides_partial", "C63_output_genuine", "C64_pipeline", "C65_generate_encrypt_decrypt", "C69_stream_and_decrypt_agree"], "secs": 237, "m": {"id": "m006", "edits": [["Encrypt.v", "pk ++ salt ++ key)", "salt ++ key)"]], "definition": "sender_cksum", "desc": "ephemeral key not covered by the sender signature", "breaks": ["C12"]}}
{"mid": "m007", "lemmas": ["OpenProofs.verify_sender_spec", "OpenProofs.ready_verify_sender"], "hard": [], "failed": ["C01_encrypt_decrypt_round_trip", "C02_stream_round_trip", "C03_encrypted_file_streams", "C03_stream_file_decrypts", "C09_truncated_file", "C09_truncated_stream", "C10_complete_partial", "C10_refuted_truncation", "C10_stream_complete_partial", "C11_released_data_genuine", "C12_authenticated_means_signed", "C13_content_signed_partial", "C13_refuted_recipient_forges", "C13_stream_signed_partial", "C14_refuted", "C14_signed_file_partial", "C16_recipients_agree", "C20_no_panic_partial", "C20_refuted", "C28_read_discipline", "C29_refuted", "C29_single_reader_partial", "C46_sender_partial", "C51_encrypt_then_decrypt", "C56_decrypt_ends", "C60_authenticated_exactly", "C60_last_call_decides_partial", "C63_output_genuine", "C64_pipeline", "C65_generate_encrypt_decrypt", "C69_stream_and_decrypt_agree"], "secs": 219, "m": {"id": "m007", "edits": [["Encrypt.v", "pk ++ salt ++ key)", "pk ++ salt)"]], "definition": "sender_cksum", "desc": "root key not covered by the sender signature", "breaks": ["C12"]}}
{"mid": "m008", "lemmas": ["EncryptProofs.add_sender_sig_spec", "Scene.file2_made", "Thm_Commands.C44_refuted", "Thm_Commands.C46_refuted", "Thm_EndToEnd.g_code", "Thm_EndToEnd.enc_ops3"], "hard": [], "failed": ["C01_encrypt_decrypt_round_trip", "C01_encrypt_succeeds", "C02_stream_round_trip", "C02_stream_writes_succeed", "C03_encrypted_file_streams", "C03_stream_file_decrypts", "C04_fragmentation_independent", "C04_stream_agrees_with_encrypt", "C04_stream_write_sizes_irrelevant", "C05_file_format", "C05_stream_format", "C06_chunks", "C06_stream_chunks", "C07_nonces_distinct_partial", "C07_refuted_counter_wraps", "C07_refuted_second_encrypt", "C07_stream_nonces_distinct_partial", "C08_tampered_header", "C08_tampered_stream_header", "C09_truncated_file", "C09_truncated_stream", "C10_complete_partial", "C10_refuted_truncation", "C10_stream_complete_partial", "C11_released_data_genuine", "C13_refuted_recipient_forges", "C14_refuted", "C16_own_entry_opens", "C16_recipients_agree", "C20_refuted", "C21_encrypt_errors_partial", "C23_chunk_size_partial", "C23_refuted", "C24_recipients_partial", "C24_refuted", "C27_writes", "C29_refuted", "C44_refuted", "C46_refuted", "C48_encrypt_succeeds", "C51_encrypt_then_decrypt", "C56_encrypt_ends", "C57_encrypt_size", "C57_stream_size", "C58_file_randomness", "C58_stream_randomness", "C59_encrypt_against_stream", "C61_rejected_exactly", "C63_output_genuine", "C64_pipeline", "C65_generate_encrypt_decrypt"], "secs": 233, "m": {"id": "m008", "edits": [["Encrypt.v", "| None => Ok (zeros sig_size, false)", "| None => Ok (zeros sig_size, true)"]], "definition": "add_sender_sig", "desc": "anonymous sender marked as authenticated: trailer dereferences nil", "breaks": ["C01", "C18"]}}
{"mid": "m009", "lemmas": ["EncryptProofs.add_sender_sig_spec", "Thm_Cli.C45_close_refuted"], "hard": [], "failed": ["C01_encrypt_decrypt_round_trip", "C01_encrypt_succeeds", "C02_stream_round_trip", "C02_stream_writes_succeed", "C03_encrypted_file_streams", "C03_stream_file_decrypts", "C04_fragmentation_independent", "C04_stream_agrees_with_encrypt", "C04_stream_write_sizes_irrelevant", "C05_file_format", "C05_stream_format", "C06_chunks", "C06_stream_chunks", "C07_nonces_distinct_partial", "C07_refuted_counter_wraps", "C07_refuted_second_encrypt", "C07_stream_nonces_distinct_partial", "C08_tampered_header", "C08_tampered_stream_header", "C09_truncated_file", "C09_truncated_stream", "C10_complete_partial", "C10_refuted_truncation", "C10_stream_complete_partial", "C11_released_data_genuine", "C13_refuted_recipient_forges", "C14_refuted", "C16_own_entry_opens", "C16_recipients_agree", "C20_refuted", "C21_encrypt_errors_partial", "C23_chunk_size_partial", "C23_refuted", "C24_recipients_partial", "C24_refuted", "C27_writes", "C29_refuted", "C45_close_refuted", "C48_encrypt_succeeds", "C51_encrypt_then_decrypt", "C56_encrypt_ends", "C57_encrypt_size", "C57_stream_size", "C58_file_randomness", "C58_stream_randomness", "C59_encrypt_against_stream", "C61_rejected_exactly", "C63_output_genuine", "C64_pipeline", "C65_generate_encrypt_decrypt"], "secs": 204, "m": {"id": "m009", "edits": [["Encrypt.v", "Ok (sig_Sig s, true)", "Ok (sig_Sig s, false)"]], "definition": "add_sender_sig", "desc": "signed file: random trailer", "breaks": ["C13", "C01"]}}
{"mid": "m010", "lemmas": ["EncryptProofs.add_sender_sig_spec", "Thm_Commands.C46_refuted"], "hard": [], "failed": ["C01_encrypt_decrypt_round_trip", "C01_encrypt_succeeds", "C02_stream_round_trip", "C02_stream_writes_succeed", "C03_encrypted_file_streams", "C03_stream_file_decrypts", "C04_fragmentation_independent", "C04_stream_agrees_with_encrypt", "C04_stream_write_sizes_irrelevant", "C05_file_format", "C05_stream_format", "C06_chunks", "C06_stream_chunks", "C07_nonces_distinct_partial", "C07_refuted_counter_wraps", "C07_refuted_second_encrypt", "C07_stream_nonces_distinct_partial", "C08_tampered_header", "C08_tampered_stream_header", "C09_truncated_file", "C09_truncated_stream", "C10_complete_partial", "C10_refuted_truncation", "C10_stream_complete_partial", "C11_released_data_genuine", "C13_refuted_recipient_forges", "C14_refuted", "C16_own_entry_opens", "C16_recipients_agree", "C20_refuted", "C21_encrypt_errors_partial", "C23_chunk_size_partial", "C23_refuted", "C24_recipients_partial", "C24_refuted", "C27_writes", "C29_refuted", "C46_refuted", "C48_encrypt_succeeds", "C51_encrypt_then_decrypt", "C56_encrypt_ends", "C57_encrypt_size", "C57_stream_size", "C58_file_randomness", "C58_stream_randomness", "C59_encrypt_against_stream", "C61_rejected_exactly", "C63_output_genuine", "C64_pipeline", "C65_generate_encrypt_decrypt"], "secs": 217, "m": {"id": "m010", "edits": [["Encrypt.v", "| None => Ok (zeros sig_size, false)", "| None => Ok (zeros 32, false)"]], "definition": "add_sender_sig", "desc": "anonymous marker of 32 zero bytes", "breaks": ["C01"]}}
{"mid": "m011", "lemmas": ["EncryptProofs.new_encryptor_spec", "Thm_Cli.C45_close_refuted", "Thm_Commands.C46_refuted", "Thm_Size.C58_session_randomness", "Thm_History.C60_refuted"], "hard": [], "failed": ["C01_encrypt_decrypt_round_trip", "C01_encrypt_succeeds", "C02_stream_round_trip", "C02_stream_writes_succeed", "C03_encrypted_file_streams", "C03_stream_file_decrypts", "C04_fragmentation_independent", "C04_stream_agrees_with_encrypt", "C04_stream_write_sizes_irrelevant", "C05_file_format", "C05_stream_format", "C06_chunks", "C06_stream_chunks", "C07_nonces_distinct_partial", "C07_refuted_counter_wraps", "C07_refuted_second_encrypt", "C07_stream_nonces_distinct_partial", "C08_tampered_header", "C08_tampered_stream_header", "C09_truncated_file", "C09_truncated_stream", "C10_complete_partial", "C10_refuted_truncation", "C10_stream_complete_partial", "C11_released_data_genuine", "C13_refuted_recipient_forges", "C14_refuted", "C16_own_entry_opens", "C16_recipients_agree", "C20_refuted", "C21_encrypt_errors_partial", "C23_chunk_size_partial", "C23_refuted", "C24_recipients_partial", "C24_refuted", "C27_writes", "C29_refuted", "C45_close_refuted", "C46_refuted", "C48_encrypt_succeeds", "C51_encrypt_then_decrypt", "C56_encrypt_ends", "C57_encrypt_size", "C57_stream_size", "C58_file_randomness", "C58_session_randomness", "C58_stream_randomness", "C59_encrypt_against_stream", "C60_refuted", "C61_rejected_exactly", "C63_output_genuine", "C64_pipeline", "C65_generate_encrypt_decrypt"], "secs": 221, "m": {"id": "m011", "edits": [["Encrypt.v", "mkHeader blksz salt epk snd_ [] []", "mkHeader blksz salt esk snd_ [] []"]], "definition": "new_encryptor", "desc": "ephemeral private key published instead of the public one", "breaks": ["C01"]}}
{"mid": "m012", "lemmas": ["EncryptProofs.wrap_key_spec", "Thm_Cli.C45_close_refuted", "Thm_Commands.C46_refuted", "Thm_History.C60_refuted"], "hard": [], "failed": ["C01_encrypt_decrypt_round_trip", "C01_encrypt_succeeds", "C02_stream_round_trip", "C02_stream_writes_succeed", "C03_encrypted_file_streams", "C03_stream_file_decrypts", "C04_fragmentation_independent", "C04_stream_agrees_with_encrypt", "C04_stream_write_sizes_irrelevant", "C05_file_format", "C05_stream_format", "C06_chunks", "C06_stream_chunks", "C07_nonces_distinct_partial", "C07_refuted_counter_wraps", "C07_refuted_second_encrypt", "C07_stream_nonces_distinct_partial", "C08_tampered_header", "C08_tampered_stream_header", "C09_truncated_file", "C09_truncated_stream", "C10_complete_partial", "C10_refuted_truncation", "C10_stream_complete_partial", "C11_released_data_genuine", "C13_refuted_recipient_forges", "C14_refuted", "C16_own_entry_opens", "C16_recipients_agree", "C20_refuted", "C21_encrypt_errors_partial", "C23_chunk_size_partial", "C23_refuted", "C24_recipients_partial", "C24_refuted", "C27_writes", "C29_refuted", "C45_close_refuted", "C46_refuted", "C48_encrypt_succeeds", "C51_encrypt_then_decrypt", "C56_encrypt_ends", "C57_encrypt_size", "C57_stream_size", "C58_file_randomness", "C58_stream_randomness", "C59_encrypt_against_stream", "C60_refuted", "C61_rejected_exactly", "C63_output_genuine", "C64_pipeline", "C65_generate_encrypt_decrypt"], "secs": 217, "m": {"id": "m012", "edits": [["Encrypt.v", "gcm_seal C ae nonce (e_key e) (pk_Pk pk)", "gcm_seal C ae nonce (e_key e) []"]], "definition": "wrap_key", "desc": "wrapped key not bound to the recipient", "breaks": ["C01", "C16"]}}
{"mid": "m013", "lemmas": ["EncryptProofs.wrap_key_spec", "Thm_Cli.C45_close_refuted", "Thm_Commands.C46_refuted", "Thm_History.C60_refuted"], "hard": [], "failed": ["C01_encrypt_decrypt_round_trip", "C01_encrypt_succeeds", "C02_stream_round_trip", "C02_stream_writes_succeed", "C03_encrypted_file_streams", "C03_stream_file_decrypts", "C04_fragmentation_independent", "C04_stream_agrees_with_encrypt", "C04_stream_write_sizes_irrelevant", "C05_file_format", "C05_stream_format", "C06_chunks", "C06_stream_chunks", "C07_nonces_distinct_partial", "C07_refuted_counter_wraps", "C07_refuted_second_encrypt", "C07_stream_nonces_distinct_partial", "C08_tampered_header", "C08_tampered_stream_header", "C09_truncated_file", "C09_truncated_stream", "C10_complete_partial", "C10_refuted_truncation", "C10_stream_complete_partial", "C11_released_data_genuine", "C13_refuted_recipient_forges", "C14_refuted", "C16_own_entry_opens", "C16_recipients_agree", "C20_refuted", "C21_encrypt_errors_partial", "C23_chunk_size_partial", "C23_refuted", "C24_recipients_partial", "C24_refuted", "C27_writes", "C29_refuted", "C45_close_refuted", "C46_refuted", "C48_encrypt_succeeds", "C51_encrypt_then_decrypt", "C56_encrypt_ends", "C57_encrypt_size", "C57_stream_size", "C58_file_randomness", "C58_stream_randomness", "C59_encrypt_against_stream", "C60_refuted", "C61_rejected_exactly", "C63_output_genuine", "C64_pipeline", "C65_generate_encrypt_decrypt"], "secs": 212, "m": {"id": "m013", "edits": [["Encrypt.v", "sha256 C (h_salt (e_hdr e) ++ rbuf)", "sha256 C rbuf"]], "definition": "wrap_key", "desc": "file salt not used when wrapping", "breaks": ["C01", "C16"]}}
{"mid": "m015", "lemmas": ["EncryptProofs.ready_add", "Thm_Size.add_recipients_rng", "Thm_History.C61_rejected_exactly"], "hard": [], "failed": ["C01_encrypt_decrypt_round_trip", "C01_encrypt_succeeds", "C02_stream_round_trip", "C02_stream_writes_succeed", "C03_encrypted_file_streams", "C03_stream_file_decrypts", "C04_fragmentation_independent", "C04_stream_agrees_with_encrypt", "C04_stream_write_sizes_irrelevant", "C05_file_format", "C05_stream_format", "C06_chunks", "C06_stream_chunks", "C07_nonces_distinct_partial", "C07_refuted_counter_wraps", "C07_refuted_second_encrypt", "C07_stream_nonces_distinct_partial", "C08_tampered_header", "C08_tampered_stream_header", "C09_truncated_file", "C09_truncated_stream", "C10_complete_partial", "C10_refuted_truncation", "C10_stream_complete_partial", "C11_released_data_genuine", "C13_refuted_recipient_forges", "C14_refuted", "C16_own_entry_opens", "C16_recipients_agree", "C20_refuted", "C21_encrypt_errors_partial", "C23_chunk_size_partial", "C23_refuted", "C24_recipients_partial", "C24_refuted", "C27_writes", "C29_refuted", "C48_encrypt_succeeds", "C51_encrypt_then_decrypt", "C56_encrypt_ends", "C57_encrypt_size", "C57_stream_size", "C58_file_randomness", "C58_session_randomness", "C58_stream_randomness", "C59_encrypt_against_stream", "C61_rejected_exactly", "C63_output_genuine", "C64_pipeline", "C65_generate_encrypt_decrypt", "C72_unverified_refuted", "C73_encrypt_words", "C76_origin_partial", "C76_stream_origin_partial"], "secs": 242, "m": {"id": "m015", "edits": [["Encrypt.v", "(h_keys h ++ [w])", "(w :: h_keys h)"]], "definition": "h_add_key", "desc": "recipients stored in reverse order", "breaks": ["C48"]}}
{"mid": "m014", "lemmas": ["EncryptProofs.ready_add", "Scene.X_opens_nothing", "Thm_Cli.C45_close_refuted", "Thm_Commands.C46_refuted", "Thm_Size.add_recipients_rng", "Thm_History.C61_rejected_exactly"], "hard": [], "failed": ["C01_encrypt_decrypt_round_trip", "C01_encrypt_succeeds", "C02_stream_round_trip", "C02_stream_writes_succeed", "C03_encrypted_file_streams", "C03_stream_file_decrypts", "C04_fragmentation_independent", "C04_stream_agrees_with_encrypt", "C04_stream_write_sizes_irrelevant", "C05_file_format", "C05_stream_format", "C06_chunks", "C06_stream_chunks", "C07_nonces_distinct_partial", "C07_refuted_counter_wraps", "C07_refuted_second_encrypt", "C07_stream_nonces_distinct_partial", "C08_tampered_header", "C08_tampered_stream_header", "C09_truncated_file", "C09_truncated_stream", "C10_complete_partial", "C10_refuted_truncation", "C10_stream_complete_partial", "C11_released_data_genuine", "C13_refuted_recipient_forges", "C14_refuted", "C16_own_entry_opens", "C16_recipients_agree", "C20_refuted", "C21_encrypt_errors_partial", "C23_chunk_size_partial", "C23_refuted", "C24_recipients_partial", "C24_refuted", "C27_writes", "C29_refuted", "C45_close_refuted", "C46_refuted", "C48_encrypt_succeeds", "C51_encrypt_then_decrypt", "C56_encrypt_ends", "C57_encrypt_size", "C57_stream_size", "C58_file_randomness", "C58_session_randomness", "C58_stream_randomness", "C59_encrypt_against_stream", "C61_rejected_exactly", "C63_output_genuine", "C64_pipeline", "C65_generate_encrypt_decrypt", "C72_unverified_refuted", "C73_encrypt_words", "C76_origin_partial", "C76_stream_origin_partial"], "secs": 255, "m": {"id": "m014", "edits": [["Encrypt.v", "(h_keys h ++ [w])", "([w])"]], "definition": "h_add_key", "desc": "only the last recipient is kept", "breaks": ["C16", "C48"]}}
{"mid": "m017", "lemmas": ["Thm_Session.C17_failed_add_changes_nothing", "Thm_History.C61_rejected_recipients_leave_no_trace"], "hard": [], "failed": ["C17_failed_add_changes_nothing", "C61_rejected_recipients_leave_no_trace"], "secs": 270, "m": {"id": "m017", "edits": [["Encrypt.v", "(e, match to_curve_pk pk with Ok (_, pk') => pk' | _ => pk end, g, Fail x)", "(e_with_hdr e (h_add_key (e_hdr e) (mkWkey [] [] [])), pk, g, Fail x)"]], "definition": "add_recipient", "desc": "failed AddRecipient appends an empty wrapped key", "breaks": ["C17"]}}
{"mid": "m016", "lemmas": ["EncryptProofs.add_recipients_spec", "Support.add_recipient_total", "Thm_Session.C17_no_recipient_after_start", "Thm_Session.C17_failed_add_changes_nothing", "Thm_Calls.estep_started", "Thm_Calls.C17_every_history", "Thm_Calls.estep_headless", "Thm_Calls.estep_chunk", "Thm_Size.add_recipients_rng", "Thm_Crash.add_any", "Thm_History.C61_rejected_recipients_leave_no_trace", "Thm_History.C61_rejected_exactly"], "hard": [], "failed": ["C01_encrypt_decrypt_round_trip", "C01_encrypt_succeeds", "C02_stream_round_trip", "C02_stream_writes_succeed", "C03_encrypted_file_streams", "C03_stream_file_decrypts", "C04_fragmentation_independent", "C04_stream_agrees_with_encrypt", "C04_stream_write_sizes_irrelevant", "C05_file_format", "C05_stream_format", "C06_chunks", "C06_stream_chunks", "C07_nonces_distinct_partial", "C07_refuted_counter_wraps", "C07_refuted_second_encrypt", "C07_stream_nonces_distinct_partial", "C08_tampered_header", "C08_tampered_stream_header", "C09_truncated_file", "C09_truncated_stream", "C10_complete_partial", "C10_refuted_truncation", "C10_stream_complete_partial", "C11_released_data_genuine", "C13_refuted_recipient_forges", "C14_refuted", "C16_own_entry_opens", "C16_recipients_agree", "C17_every_history", "C17_failed_add_changes_nothing", "C17_no_recipient_after_start", "C18_encrypt_every_history", "C20_refuted", "C21_encrypt_errors_partial", "C23_chunk_size_partial", "C23_refuted", "C24_recipients_partial", "C24_refuted", "C27_writes", "C29_refuted", "C48_encrypt_succeeds", "C51_encrypt_then_decrypt", "C56_encrypt_ends", "C57_encrypt_size", "C57_stream_size", "C58_file_randomness", "C58_session_randomness", "C58_stream_randomness", "C59_encrypt_against_stream", "C61_rejected_exactly", "C61_rejected_recipients_leave_no_trace", "C63_output_genuine", "C64_pipeline", "C65_generate_encrypt_decrypt", "C70_one_file_per_encryptor", "C72_unverified_refuted", "C73_encrypt_words", "C76_origin_partial", "C76_stream_origin_partial"], "secs": 300, "m": {"id": "m016", "edits": [["Encrypt.v", "if e_started e then (e, pk, g, Fail ErrEncStarted)\n  else", ""]], "definition": "add_recipient", "desc": "no started check", "breaks": ["C17"]}}
{"mid": "m018", "lemmas": ["EncryptProofs.enc_start_spec", "Thm_Cli.C45_close_refuted", "Thm_Commands.C46_refuted", "Thm_History.C60_refuted"], "hard": [], "failed": ["C01_encrypt_decrypt_round_trip", "C01_encrypt_succeeds", "C02_stream_round_trip", "C02_stream_writes_succeed", "C03_encrypted_file_streams", "C03_stream_file_decrypts", "C04_fragmentation_independent", "C04_stream_agrees_with_encrypt", "C04_stream_write_sizes_irrelevant", "C05_file_format", "C05_stream_format", "C06_chunks", "C06_stream_chunks", "C07_nonces_distinct_partial", "C07_refuted_counter_wraps", "C07_refuted_second_encrypt", "C07_stream_nonces_distinct_partial", "C08_tampered_header", "C08_tampered_stream_header", "C09_truncated_file", "C09_truncated_stream", "C10_complete_partial", "C10_refuted_truncation", "C10_stream_complete_partial", "C11_released_data_genuine", "C13_refuted_recipient_forges", "C14_refuted", "C16_recipients_agree", "C20_refuted", "C21_encrypt_errors_partial", "C23_refuted", "C24_recipients_partial", "C24_refuted", "C27_writes", "C29_refuted", "C45_close_refuted", "C46_refuted", "C48_encrypt_succeeds", "C51_encrypt_then_decrypt", "C56_encrypt_ends", "C57_encrypt_size", "C57_stream_size", "C58_file_randomness", "C58_stream_randomness", "C59_encrypt_against_stream", "C60_refuted", "C63_output_genuine", "C64_pipeline", "C65_generate_encrypt_decrypt", "C72_unverified_refuted", "C73_encrypt_words", "C76_origin_partial", "C76_stream_origin_partial"], "secs": 263, "m": {"id": "m018", "edits": [["Encrypt.v", "be32 (u32 varSize)", "be32 (u32 (varSize + sha256_size))"]], "definition": "fixed_header", "desc": "length field counts the checksum too", "breaks": ["C05", "C01"]}}
{"mid": "m019", "lemmas": ["EncryptProofs.enc_start_spec", "Thm_Cli.C45_close_refuted", "Thm_Commands.C46_refuted", "Thm_History.C60_refuted"], "hard": [], "failed": ["C01_encrypt_decrypt_round_trip", "C01_encrypt_succeeds", "C02_stream_round_trip", "C02_stream_writes_succeed", "C03_encrypted_file_streams", "C03_stream_file_decrypts", "C04_fragmentation_independent", "C04_stream_agrees_with_encrypt", "C04_stream_write_sizes_irrelevant", "C05_file_format", "C05_stream_format", "C06_chunks", "C06_stream_chunks", "C07_nonces_distinct_partial", "C07_refuted_counter_wraps", "C07_refuted_second_encrypt", "C07_stream_nonces_distinct_partial", "C08_tampered_header", "C08_tampered_stream_header", "C09_truncated_file", "C09_truncated_stream", "C10_complete_partial", "C10_refuted_truncation", "C10_stream_complete_partial", "C11_released_data_genuine", "C13_refuted_recipient_forges", "C14_refuted", "C16_recipients_agree", "C20_refuted", "C21_encrypt_errors_partial", "C23_refuted", "C24_recipients_partial", "C24_refuted", "C27_writes", "C29_refuted", "C45_close_refuted", "C46_refuted", "C48_encrypt_succeeds", "C51_encrypt_then_decrypt", "C56_encrypt_ends", "C57_encrypt_size", "C57_stream_size", "C58_file_randomness", "C58_stream_randomness", "C59_encrypt_against_stream", "C60_refuted", "C63_output_genuine", "C64_pipeline", "C65_generate_encrypt_decrypt", "C72_unverified_refuted", "C73_encrypt_words", "C76_origin_partial", "C76_stream_origin_partial"], "secs": 265, "m": {"id": "m019", "edits": [["Encrypt.v", "let cksum := sha256 C hdr in", "let cksum := sha256 C varHdr in"]], "definition": "enc_start", "desc": "checksum over the variable header only", "breaks": ["C05", "C01"]}}
{"mid": "m020", "lemmas": ["EncryptProofs.enc_start_spec", "Thm_Cli.C45_close_refuted", "Thm_Commands.C46_refuted"], "hard": [], "failed": ["C01_encrypt_decrypt_round_trip", "C01_encrypt_succeeds", "C02_stream_round_trip", "C02_stream_writes_succeed", "C03_encrypted_file_streams", "C03_stream_file_decrypts", "C04_fragmentation_independent", "C04_stream_agrees_with_encrypt", "C04_stream_write_sizes_irrelevant", "C05_file_format", "C05_stream_format", "C06_chunks", "C06_stream_chunks", "C07_nonces_distinct_partial", "C07_refuted_counter_wraps", "C07_refuted_second_encrypt", "C07_stream_nonces_distinct_partial", "C08_tampered_header", "C08_tampered_stream_header", "C09_truncated_file", "C09_truncated_stream", "C10_complete_partial", "C10_refuted_truncation", "C10_stream_complete_partial", "C11_released_data_genuine", "C13_refuted_recipient_forges", "C14_refuted", "C16_recipients_agree", "C20_refuted", "C21_encrypt_errors_partial", "C23_refuted", "C24_recipients_partial", "C24_refuted", "C27_writes", "C29_refuted", "C45_close_refuted", "C46_refuted", "C48_encrypt_succeeds", "C51_encrypt_then_decrypt", "C56_encrypt_ends", "C57_encrypt_size", "C57_stream_size", "C58_file_randomness", "C58_stream_randomness", "C59_encrypt_against_stream", "C63_output_genuine", "C64_pipeline", "C65_generate_encrypt_decrypt", "C72_unverified_refuted", "C73_encrypt_words", "C76_origin_partial", "C76_stream_origin_partial"], "secs": 267, "m": {"id": "m020", "edits": [["Encrypt.v", "let nonce := take aead_nonce_size buf in\n      let buf := drop aead_nonce_size buf in\n      let dkey := take aes_key_size buf in\n      let hmackey := drop aes_key_size buf in", "let dkey := take aes_key_size buf in\n      let buf := drop aes_key_size buf in\n      let nonce := take aead_nonce_size buf in\n      let hmackey := drop aead_nonce_size buf in"]], "definition": "enc_start", "desc": "data key and nonce cut from the expansion in another order", "breaks": ["C01"]}}
{"mid": "m021", "lemmas": ["EncryptProofs.enc_start_spec", "Thm_Session.enc_start_flags", "Thm_Calls.enc_start_hdr"], "hard": [], "failed": ["C01_encrypt_decrypt_round_trip", "C01_encrypt_succeeds", "C02_stream_round_trip", "C02_stream_writes_succeed", "C03_encrypted_file_streams", "C03_stream_file_decrypts", "C04_fragmentation_independent", "C04_stream_agrees_with_encrypt", "C04_stream_write_sizes_irrelevant", "C05_file_format", "C05_stream_format", "C06_chunks", "C06_stream_chunks", "C07_nonces_distinct_partial", "C07_refuted_counter_wraps", "C07_refuted_second_encrypt", "C07_stream_nonces_distinct_partial", "C08_tampered_header", "C08_tampered_stream_header", "C09_truncated_file", "C09_truncated_stream", "C10_complete_partial", "C10_refuted_truncation", "C10_stream_complete_partial", "C11_released_data_genuine", "C13_refuted_recipient_forges", "C14_refuted", "C16_recipients_agree", "C17_every_history", "C17_no_recipient_after_start", "C18_encrypt_after_stream_writer", "C18_encrypt_every_history", "C20_refuted", "C21_encrypt_errors_partial", "C23_refuted", "C24_recipients_partial", "C24_refuted", "C27_writes", "C29_refuted", "C48_encrypt_succeeds", "C51_encrypt_then_decrypt", "C56_encrypt_ends", "C57_encrypt_size", "C57_stream_size", "C58_file_randomness", "C58_stream_randomness", "C59_encrypt_against_stream", "C63_output_genuine", "C64_pipeline", "C65_generate_encrypt_decrypt", "C70_one_file_per_encryptor", "C72_unverified_refuted", "C73_encrypt_words", "C76_origin_partial", "C76_stream_origin_partial"], "secs": 280, "m": {"id": "m021", "edits": [["Encrypt.v", "(e_sender e) (e_auth e) true (e_stream e),\n               w', Ok tt)", "(e_sender e) (e_auth e) false (e_stream e),\n               w', Ok tt)"]], "definition": "enc_start", "desc": "started flag not set", "breaks": ["C17"]}}
{"mid": "m023", "lemmas": ["EncryptProofs.chunk_nonce_spec"], "hard": [], "failed": ["C01_encrypt_decrypt_round_trip", "C01_encrypt_succeeds", "C02_stream_round_trip", "C02_stream_writes_succeed", "C03_encrypted_file_streams", "C03_stream_file_decrypts", "C04_fragmentation_independent", "C04_stream_agrees_with_encrypt", "C04_stream_write_sizes_irrelevant", "C05_file_format", "C05_stream_format", "C06_chunks", "C06_stream_chunks", "C07_nonces_distinct_partial", "C07_refuted_counter_wraps", "C07_refuted_second_encrypt", "C07_stream_nonces_distinct_partial", "C08_tampered_header", "C08_tampered_stream_header", "C09_truncated_file", "C09_truncated_stream", "C10_complete_partial", "C10_refuted_truncation", "C10_stream_complete_partial", "C11_released_data_genuine", "C13_content_signed_partial", "C13_refuted_recipient_forges", "C13_stream_signed_partial", "C14_refuted", "C16_recipients_agree", "C20_refuted", "C21_encrypt_errors_partial", "C23_refuted", "C24_recipients_partial", "C24_refuted", "C27_writes", "C29_refuted", "C29_single_reader_partial", "C48_encrypt_succeeds", "C51_encrypt_then_decrypt", "C56_encrypt_ends", "C57_encrypt_size", "C57_stream_size", "C58_file_randomness", "C58_stream_randomness", "C59_encrypt_against_stream", "C63_output_genuine", "C64_pipeline", "C65_generate_encrypt_decrypt", "C69_stream_and_decrypt_agree", "C72_unverified_refuted", "C73_encrypt_words", "C76_origin_partial", "C76_stream_origin_partial"], "secs": 231, "m": {"id": "m023", "edits": [["Encrypt.v", "be32 i ++ drop 4 n", "be32 0 ++ drop 4 n"]], "definition": "chunk_nonce", "desc": "chunk counter not mixed into the nonce", "breaks": ["C07", "C09"]}}
{"mid": "m022", "lemmas": ["EncryptProofs.enc_start_spec", "Scene.file1_made", "Scene.file2_made", "Thm_Cli.C45_close_refuted", "Thm_Commands.C44_refuted", "Thm_Commands.C46_refuted", "Thm_Chain.c51_code", "Thm_Chain.c51_ops", "Thm_Stream.file3_made", "Thm_StreamFormat.stream_out1", "Thm_StreamFormat.stream_out2", "Thm_EndToEnd.g_code", "Thm_EndToEnd.enc_ops3", "Thm_Pipe.c64_code", "Thm_History.C60_refuted", "Thm_Limits.C21_refuted"], "hard": [], "failed": ["C01_encrypt_decrypt_round_trip", "C01_encrypt_succeeds", "C02_stream_round_trip", "C02_stream_writes_succeed", "C03_encrypted_file_streams", "C03_stream_file_decrypts", "C04_fragmentation_independent", "C04_stream_agrees_with_encrypt", "C04_stream_write_sizes_irrelevant", "C05_file_format", "C05_stream_format", "C06_chunks", "C06_stream_chunks", "C07_nonces_distinct_partial", "C07_refuted_counter_wraps", "C07_refuted_second_encrypt", "C07_stream_nonces_distinct_partial", "C08_tampered_header", "C08_tampered_stream_header", "C09_truncated_file", "C09_truncated_stream", "C10_complete_partial", "C10_refuted_truncation", "C10_stream_complete_partial", "C11_released_data_genuine", "C13_refuted_recipient_forges", "C14_refuted", "C16_recipients_agree", "C20_refuted", "C21_encrypt_errors_partial", "C21_refuted", "C23_refuted", "C24_recipients_partial", "C24_refuted", "C27_writes", "C29_refuted", "C44_refuted", "C45_close_refuted", "C46_refuted", "C48_encrypt_succeeds", "C51_encrypt_then_decrypt", "C56_encrypt_ends", "C57_encrypt_size", "C57_stream_size", "C58_file_randomness", "C58_stream_randomness", "C59_encrypt_against_stream", "C60_refuted", "C63_output_genuine", "C64_pipeline", "C65_generate_encrypt_decrypt", "C72_unverified_refuted", "C73_encrypt_words", "C76_origin_partial", "C76_stream_origin_partial"], "secs": 295, "m": {"id": "m022", "edits": [["Encrypt.v", "u32 (h_chunk (e_hdr e) + 4 + gcm_overhead)", "u32 (h_chunk (e_hdr e) + gcm_overhead)"]], "definition": "enc_start", "desc": "encryption buffer 4 bytes short", "breaks": ["C01", "C21"]}}
{"mid": "m024", "lemmas": ["EncryptProofs.chunk_nonce_spec"], "hard": [], "failed": ["C01_encrypt_decrypt_round_trip", "C01_encrypt_succeeds", "C02_stream_round_trip", "C02_stream_writes_succeed", "C03_encrypted_file_streams", "C03_stream_file_decrypts", "C04_fragmentation_independent", "C04_stream_agrees_with_encrypt", "C04_stream_write_sizes_irrelevant", "C05_file_format", "C05_stream_format", "C06_chunks", "C06_stream_chunks", "C07_nonces_distinct_partial", "C07_refuted_counter_wraps", "C07_refuted_second_encrypt", "C07_stream_nonces_distinct_partial", "C08_tampered_header", "C08_tampered_stream_header", "C09_truncated_file", "C09_truncated_stream", "C10_complete_partial", "C10_refuted_truncation", "C10_stream_complete_partial", "C11_released_data_genuine", "C13_content_signed_partial", "C13_refuted_recipient_forges", "C13_stream_signed_partial", "C14_refuted", "C16_recipients_agree", "C20_refuted", "C21_encrypt_errors_partial", "C23_refuted", "C24_recipients_partial", "C24_refuted", "C27_writes", "C29_refuted", "C29_single_reader_partial", "C48_encrypt_succeeds", "C51_encrypt_then_decrypt", "C56_encrypt_ends", "C57_encrypt_size", "C57_stream_size", "C58_file_randomness", "C58_stream_randomness", "C59_encrypt_against_stream", "C63_output_genuine", "C64_pipeline", "C65_generate_encrypt_decrypt", "C69_stream_and_decrypt_agree", "C72_unverified_refuted", "C73_encrypt_words", "C76_origin_partial", "C76_stream_origin_partial"], "secs": 212, "m": {"id": "m024", "edits": [["Encrypt.v", "be32 i ++ drop 4 n", "[z2b i] ++ drop 1 n"]], "definition": "chunk_nonce", "desc": "8-bit chunk counter", "breaks": ["C07"]}}
{"mid": "m025", "lemmas": ["EncryptProofs.write_trailer_spec", "Thm_Cli.C45_close_refuted"], "hard": [], "failed": ["C01_encrypt_decrypt_round_trip", "C01_encrypt_succeeds", "C02_stream_round_trip", "C02_stream_writes_succeed", "C03_encrypted_file_streams", "C03_stream_file_decrypts", "C04_fragmentation_independent", "C04_stream_agrees_with_encrypt", "C04_stream_write_sizes_irrelevant", "C05_file_format", "C05_stream_format", "C06_chunks", "C06_stream_chunks", "C07_nonces_distinct_partial", "C07_refuted_counter_wraps", "C07_refuted_second_encrypt", "C07_stream_nonces_distinct_partial", "C08_tampered_header", "C08_tampered_stream_header", "C09_truncated_file", "C09_truncated_stream", "C10_complete_partial", "C10_refuted_truncation", "C10_stream_complete_partial", "C11_released_data_genuine", "C13_refuted_recipient_forges", "C14_refuted", "C16_recipients_agree", "C20_refuted", "C21_encrypt_errors_partial", "C23_refuted", "C24_recipients_partial", "C24_refuted", "C27_writes", "C29_refuted", "C45_close_refuted", "C48_encrypt_succeeds", "C51_encrypt_then_decrypt", "C56_encrypt_ends", "C57_encrypt_size", "C57_stream_size", "C58_file_randomness", "C58_stream_randomness", "C59_encrypt_against_stream", "C63_output_genuine", "C64_pipeline", "C65_generate_encrypt_decrypt", "C72_unverified_refuted", "C73_encrypt_words", "C76_origin_partial", "C76_stream_origin_partial"], "secs": 209, "m": {"id": "m025", "edits": [["Encrypt.v", "sign_message C sk (hmac_sha256 C k d)", "sign_message C sk (hmac_sha256 C k [])"]], "definition": "write_trailer", "desc": "trailer signs an empty HMAC", "breaks": ["C13", "C01"]}}
{"mid": "m027", "lemmas": ["EncryptProofs.enc_block_spec", "Thm_Calls.enc_block_headless", "Thm_Cli.C45_close_refuted", "Thm_Commands.C46_refuted"], "hard": [], "failed": ["C01_encrypt_decrypt_round_trip", "C01_encrypt_succeeds", "C02_stream_round_trip", "C02_stream_writes_succeed", "C03_encrypted_file_streams", "C03_stream_file_decrypts", "C04_fragmentation_independent", "C04_stream_agrees_with_encrypt", "C04_stream_write_sizes_irrelevant", "C05_file_format", "C05_stream_format", "C06_chunks", "C06_stream_chunks", "C07_nonces_distinct_partial", "C07_refuted_counter_wraps", "C07_refuted_second_encrypt", "C07_stream_nonces_distinct_partial", "C08_tampered_header", "C08_tampered_stream_header", "C09_truncated_file", "C09_truncated_stream", "C10_complete_partial", "C10_refuted_truncation", "C10_stream_complete_partial", "C11_released_data_genuine", "C13_refuted_recipient_forges", "C14_refuted", "C16_recipients_agree", "C20_refuted", "C21_encrypt_errors_partial", "C23_refuted", "C24_recipients_partial", "C24_refuted", "C27_writes", "C29_refuted", "C45_close_refuted", "C46_refuted", "C48_encrypt_succeeds", "C51_encrypt_then_decrypt", "C56_encrypt_ends", "C57_encrypt_size", "C57_stream_size", "C58_file_randomness", "C58_stream_randomness", "C59_encrypt_against_stream", "C63_output_genuine", "C64_pipeline", "C65_generate_encrypt_decrypt", "C70_one_file_per_encryptor", "C72_unverified_refuted", "C73_encrypt_words", "C76_origin_partial", "C76_stream_origin_partial"], "secs": 243, "m": {"id": "m027", "edits": [["Encrypt.v", "let ct := gcm_seal C k (chunk_nonce (e_nonce e) i) pt b in", "let ct := gcm_seal C k (chunk_nonce (e_nonce e) i) pt [] in"]], "definition": "enc_block", "desc": "frame header not authenticated", "breaks": ["C09", "C10", "C01"]}}
{"mid": "m028", "lemmas": ["EncryptProofs.enc_block_spec", "Thm_Cli.C45_close_refuted"], "hard": [], "failed": ["C01_encrypt_decrypt_round_trip", "C01_encrypt_succeeds", "C02_stream_round_trip", "C02_stream_writes_succeed", "C03_encrypted_file_streams", "C03_stream_file_decrypts", "C04_fragmentation_independent", "C04_stream_agrees_with_encrypt", "C04_stream_write_sizes_irrelevant", "C05_file_format", "C05_stream_format", "C06_chunks", "C06_stream_chunks", "C07_nonces_distinct_partial", "C07_refuted_counter_wraps", "C07_refuted_second_encrypt", "C07_stream_nonces_distinct_partial", "C08_tampered_header", "C08_tampered_stream_header", "C09_truncated_file", "C09_truncated_stream", "C10_complete_partial", "C10_refuted_truncation", "C10_stream_complete_partial", "C11_released_data_genuine", "C13_refuted_recipient_forges", "C14_refuted", "C16_recipients_agree", "C20_refuted", "C21_encrypt_errors_partial", "C23_refuted", "C24_recipients_partial", "C24_refuted", "C27_writes", "C29_refuted", "C45_close_refuted", "C48_encrypt_succeeds", "C51_encrypt_then_decrypt", "C56_encrypt_ends", "C57_encrypt_size", "C57_stream_size", "C58_file_randomness", "C58_stream_randomness", "C59_encrypt_against_stream", "C63_output_genuine", "C64_pipeline", "C65_generate_encrypt_decrypt", "C72_unverified_refuted", "C73_encrypt_words", "C76_origin_partial", "C76_stream_origin_partial"], "secs": 243, "m": {"id": "m028", "edits": [["Encrypt.v", "(Some (hk, hd ++ b ++ pt))", "(Some (hk, hd ++ pt))"]], "definition": "enc_block", "desc": "HMAC skips frame headers", "breaks": ["C13", "C01"]}}
{"mid": "m029", "lemmas": ["EncryptProofs.enc_block_spec", "Thm_Cli.C45_close_refuted"], "hard": [], "failed": ["C01_encrypt_decrypt_round_trip", "C01_encrypt_succeeds", "C02_stream_round_trip", "C02_stream_writes_succeed", "C03_encrypted_file_streams", "C03_stream_file_decrypts", "C04_fragmentation_independent", "C04_stream_agrees_with_encrypt", "C04_stream_write_sizes_irrelevant", "C05_file_format", "C05_stream_format", "C06_chunks", "C06_stream_chunks", "C07_nonces_distinct_partial", "C07_refuted_counter_wraps", "C07_refuted_second_encrypt", "C07_stream_nonces_distinct_partial", "C08_tampered_header", "C08_tampered_stream_header", "C09_truncated_file", "C09_truncated_stream", "C10_complete_partial", "C10_refuted_truncation", "C10_stream_complete_partial", "C11_released_data_genuine", "C13_refuted_recipient_forges", "C14_refuted", "C16_recipients_agree", "C20_refuted", "C21_encrypt_errors_partial", "C23_refuted", "C24_recipients_partial", "C24_refuted", "C27_writes", "C29_refuted", "C45_close_refuted", "C48_encrypt_succeeds", "C51_encrypt_then_decrypt", "C56_encrypt_ends", "C57_encrypt_size", "C57_stream_size", "C58_file_randomness", "C58_stream_randomness", "C59_encrypt_against_stream", "C63_output_genuine", "C64_pipeline", "C65_generate_encrypt_decrypt", "C72_unverified_refuted", "C73_encrypt_words", "C76_origin_partial", "C76_stream_origin_partial"], "secs": 246, "m": {"id": "m029", "edits": [["Encrypt.v", "(Some (hk, hd ++ b ++ pt))", "(Some (hk, b ++ pt))"]], "definition": "enc_block", "desc": "HMAC covers the last frame only", "breaks": ["C13", "C01"]}}
{"mid": "m026", "lemmas": [], "hard": ["EncryptProofs(timeout/mem)", "DecryptProofs", "AcceptProofs", "Thm_KeyFiles", "OpenProofs", "RoundTrip", "StreamProofs", "Support", "FreeProofs", "FsProofs", "CliProofs", "CrashProofs", "StreamRead", "Hostile", "Thm_KeyCrash", "Thm_Accept", "Thm_Encrypt", "Thm_Session", "Thm_Calls", "Thm_Decrypt", "Thm_Cli", "Thm_Commands", "Thm_Chain", "Thm_Stream", "Thm_Size", "Thm_StreamFormat", "Thm_Consume", "Thm_Crash", "Thm_Files", "Thm_EndToEnd", "Thm_Pipe", "Thm_Touch", "Thm_Fail", "Thm_Flags", "Thm_History", "Thm_Limits", "Thm_Modes", "Thm_Origin", "Thm_Parallel", "Thm_Signed", "Thm_Texts", "Thm_Words"], "failed": ["C01_encrypt_decrypt_round_trip", "C01_encrypt_succeeds", "C02_stream_round_trip", "C02_stream_writes_succeed", "C03_encrypted_file_streams", "C03_stream_file_decrypts", "C04_fragmentation_independent", "C04_stream_agrees_with_encrypt", "C04_stream_write_sizes_irrelevant", "C05_file_format", "C05_stream_format", "C06_chunks", "C06_stream_chunks", "C07_nonces_distinct_partial", "C07_refuted_counter_wraps", "C07_refuted_second_encrypt", "C07_stream_nonces_distinct_partial", "C08_accepted_header", "C08_tampered_header", "C08_tampered_stream_header", "C09_truncated_file", "C09_truncated_stream", "C10_complete_partial", "C10_refuted_truncation", "C10_stream_complete_partial", "C11_released_data_genuine", "C12_authenticated_means_signed", "C13_content_signed_partial", "C13_refuted_recipient_forges", "C13_stream_signed_partial", "C14_refuted", "C14_signed_file_partial", "C15_not_a_recipient", "C16_own_entry_opens", "C16_recipients_agree", "C17_every_history", "C17_failed_add_changes_nothing", "C17_no_recipient_after_start", "C18_decrypt_after_stream_reader", "C18_decrypt_every_history", "C18_encrypt_after_stream_writer", "C18_encrypt_every_history", "C18_nothing_after_decrypt", "C18_nothing_after_decrypt_every_history", "C19_new_decryptor_total", "C20_no_panic_partial", "C20_refuted", "C21_decrypt_write_errors", "C21_encrypt_errors_partial", "C21_refuted", "C22_fullwrite_all_or_error", "C23_chunk_size_partial", "C23_refuted", "C24_recipients_partial", "C24_refuted", "C27_sticky_errors", "C27_writes", "C28_read_discipline", "C28_sticky_errors", "C29_refuted", "C29_single_reader_partial", "C32_signature_reading_exact", "C32_signature_round_trip", "C33_openssh_line", "C33_public_round_trip", "C33_yaml_exact", "C34_comment_refuted", "C34_failure_changes_nothing", "C34_private_round_trip_partial", "C35_private_partial", "C35_public_partial", "C35_stale_refuted", "C36_openssh_refuted", "C36_private_panics_exactly", "C36_private_partial", "C36_private_refuted", "C36_public_panics_exactly", "C42_stored_objects", "C42_write_atomic", "C42_write_outcome", "C43_generate", "C43_pair_usable_partial", "C44_no_overwrite_partial", "C44_old_or_new_partial", "C44_refuted", "C45_close_refuted", "C45_decrypt_succeeds", "C45_decrypt_to_file_partial", "C45_test_mode", "C46_refuted", "C46_sender_partial", "C47_verify_exact", "C48_encrypt_exact", "C48_encrypt_succeeds", "C48_unresolved", "C49_refuted", "C49_sign_partial", "C50_new_pair_partial", "C50_refuted", "C51_encrypt_then_decrypt", "C52_sign_then_verify", "C53_crash_exactly_partial", "C53_refuted", "C54_refuted", "C54_round_trip_partial", "C54_string_exact", "C56_decrypt_ends", "C56_encrypt_ends", "C56_generate_ends", "C56_sign_ends", "C57_encrypt_size", "C57_stream_size", "C58_file_randomness", "C58_session_randomness", "C58_stream_randomness", "C59_encrypt_against_stream", "C60_authenticated_exactly", "C60_last_call_decides_partial", "C60_refuted", "C61_rejected_exactly", "C61_rejected_recipients_leave_no_trace", "C62_verify_report", "C63_decrypt_to_stdout", "C63_output_genuine", "C64_encrypt_to_stdout", "C64_pipeline", "C65_generate_encrypt_decrypt", "C66_generate_sign_verify", "C67_one_key", "C67_private_exact", "C67_public_exact", "C68_only_outputs", "C69_stream_and_decrypt_agree", "C70_one_file_per_encryptor", "C71_command", "C71_options", "C72_gen_p_refuted", "C72_readme_partial", "C72_sign_stdout_refuted", "C72_unverified_refuted", "C73_encrypt_words", "C73_sign_words", "C74_failure_changes_nothing_partial", "C74_generate_refuted", "C75_generated_pair", "C75_permissions", "C76_origin_partial", "C76_stream_origin_partial", "C77_concurrent_runs", "C78_history_partial", "C78_refuted_race", "C79_verified_file", "C79_verify_command", "C80_generate", "C80_marshal", "C80_sign"], "secs": 934, "m": {"id": "m026", "edits": [["Encrypt.v", "rand_buf sig_size g in (Ok r, g)", "rand_buf 32 g in (Ok r, g)"]], "definition": "write_trailer", "desc": "32-byte trailer for anonymous files", "breaks": ["C05"]}}
{"mid": "m030", "lemmas": ["EncryptProofs.enc_block_spec", "Thm_Calls.enc_block_headless", "Thm_Cli.C45_close_refuted", "Thm_Commands.C46_refuted"], "hard": [], "failed": ["C01_encrypt_decrypt_round_trip", "C01_encrypt_succeeds", "C02_stream_round_trip", "C02_stream_writes_succeed", "C03_encrypted_file_streams", "C03_stream_file_decrypts", "C04_fragmentation_independent", "C04_stream_agrees_with_encrypt", "C04_stream_write_sizes_irrelevant", "C05_file_format", "C05_stream_format", "C06_chunks", "C06_stream_chunks", "C07_nonces_distinct_partial", "C07_refuted_counter_wraps", "C07_refuted_second_encrypt", "C07_stream_nonces_distinct_partial", "C08_tampered_header", "C08_tampered_stream_header", "C09_truncated_file", "C09_truncated_stream", "C10_complete_partial", "C10_refuted_truncation", "C10_stream_complete_partial", "C11_released_data_genuine", "C13_refuted_recipient_forges", "C14_refuted", "C16_recipients_agree", "C20_refuted", "C21_encrypt_errors_partial", "C23_refuted", "C24_recipients_partial", "C24_refuted", "C27_writes", "C29_refuted", "C45_close_refuted", "C46_refuted", "C48_encrypt_succeeds", "C51_encrypt_then_decrypt", "C56_encrypt_ends", "C57_encrypt_size", "C57_stream_size", "C58_file_randomness", "C58_stream_randomness", "C59_encrypt_against_stream", "C63_output_genuine", "C64_pipeline", "C65_generate_encrypt_decrypt", "C70_one_file_per_encryptor", "C72_unverified_refuted", "C73_encrypt_words", "C76_origin_partial", "C76_stream_origin_partial"], "secs": 244, "m": {"id": "m030", "edits": [["Encrypt.v", "let z := if eof then Z.lor z eof_bit else z in", ""]], "definition": "enc_block", "desc": "EOF bit never set", "breaks": ["C05", "C06"]}}
{"mid": "m031", "lemmas": ["EncryptProofs.enc_block_spec", "Support.enc_block_clean", "FreeProofs.enc_block_free", "Thm_Session.enc_block_flags", "Thm_Calls.enc_block_hdr", "Thm_Calls.enc_block_headless"], "hard": [], "failed": ["C01_encrypt_decrypt_round_trip", "C01_encrypt_succeeds", "C02_stream_round_trip", "C02_stream_writes_succeed", "C03_encrypted_file_streams", "C03_stream_file_decrypts", "C04_fragmentation_independent", "C04_stream_agrees_with_encrypt", "C04_stream_write_sizes_irrelevant", "C05_file_format", "C05_stream_format", "C06_chunks", "C06_stream_chunks", "C07_nonces_distinct_partial", "C07_refuted_counter_wraps", "C07_refuted_second_encrypt", "C07_stream_nonces_distinct_partial", "C08_tampered_header", "C08_tampered_stream_header", "C09_truncated_file", "C09_truncated_stream", "C10_complete_partial", "C10_refuted_truncation", "C10_stream_complete_partial", "C11_released_data_genuine", "C13_refuted_recipient_forges", "C14_refuted", "C16_recipients_agree", "C17_every_history", "C17_no_recipient_after_start", "C18_encrypt_after_stream_writer", "C18_encrypt_every_history", "C20_refuted", "C21_encrypt_errors_partial", "C23_refuted", "C24_recipients_partial", "C24_refuted", "C27_writes", "C29_refuted", "C44_old_or_new_partial", "C48_encrypt_exact", "C48_encrypt_succeeds", "C48_unresolved", "C51_encrypt_then_decrypt", "C56_encrypt_ends", "C57_encrypt_size", "C57_stream_size", "C58_file_randomness", "C58_stream_randomness", "C59_encrypt_against_stream", "C63_output_genuine", "C64_encrypt_to_stdout", "C64_pipeline", "C65_generate_encrypt_decrypt", "C70_one_file_per_encryptor", "C72_unverified_refuted", "C73_encrypt_words", "C74_failure_changes_nothing_partial", "C76_origin_partial", "C76_stream_origin_partial"], "secs": 259, "m": {"id": "m031", "edits": [["Encrypt.v", "| (Some x, w') => (e, w', g, Fail (EWrap \"encrypt\" x))\n        | (None, w') =>\n            let e'", "| (_, w') =>\n            let e'"]], "definition": "enc_block", "desc": "write error of a frame ignored", "breaks": ["C21"]}}
{"mid": "m032", "lemmas": ["EncryptProofs.enc_block_spec", "Support.enc_block_clean", "FreeProofs.enc_block_free", "Thm_Session.enc_block_flags", "Thm_Calls.enc_block_hdr", "Thm_Calls.enc_block_headless", "Thm_Cli.C45_close_refuted"], "hard": [], "failed": ["C01_encrypt_decrypt_round_trip", "C01_encrypt_succeeds", "C02_stream_round_trip", "C02_stream_writes_succeed", "C03_encrypted_file_streams", "C03_stream_file_decrypts", "C04_fragmentation_independent", "C04_stream_agrees_with_encrypt", "C04_stream_write_sizes_irrelevant", "C05_file_format", "C05_stream_format", "C06_chunks", "C06_stream_chunks", "C07_nonces_distinct_partial", "C07_refuted_counter_wraps", "C07_refuted_second_encrypt", "C07_stream_nonces_distinct_partial", "C08_tampered_header", "C08_tampered_stream_header", "C09_truncated_file", "C09_truncated_stream", "C10_complete_partial", "C10_refuted_truncation", "C10_stream_complete_partial", "C11_released_data_genuine", "C13_refuted_recipient_forges", "C14_refuted", "C16_recipients_agree", "C17_every_history", "C17_no_recipient_after_start", "C18_encrypt_after_stream_writer", "C18_encrypt_every_history", "C20_refuted", "C21_encrypt_errors_partial", "C23_refuted", "C24_recipients_partial", "C24_refuted", "C27_writes", "C29_refuted", "C44_old_or_new_partial", "C45_close_refuted", "C48_encrypt_exact", "C48_encrypt_succeeds", "C48_unresolved", "C51_encrypt_then_decrypt", "C56_encrypt_ends", "C57_encrypt_size", "C57_stream_size", "C58_file_randomness", "C58_stream_randomness", "C59_encrypt_against_stream", "C63_output_genuine", "C64_encrypt_to_stdout", "C64_pipeline", "C65_generate_encrypt_decrypt", "C70_one_file_per_encryptor", "C72_unverified_refuted", "C73_encrypt_words", "C74_failure_changes_nothing_partial", "C76_origin_partial", "C76_stream_origin_partial"], "secs": 258, "m": {"id": "m032", "edits": [["Encrypt.v", "if eof then\n              let '(w', g, r) := write_trailer C e' w' g in (e', w', g, r)\n            else (e', w', g, Ok tt)", "(e', w', g, Ok tt)"]], "definition": "enc_block", "desc": "no trailer", "breaks": ["C05", "C01"]}}
{"mid": "m033", "lemmas": ["EncryptProofs.enc_loop_S", "Thm_Crash.enc_loop_any"], "hard": [], "failed": ["C01_encrypt_decrypt_round_trip", "C01_encrypt_succeeds", "C02_stream_round_trip", "C03_encrypted_file_streams", "C03_stream_file_decrypts", "C04_fragmentation_independent", "C04_stream_agrees_with_encrypt", "C05_file_format", "C06_chunks", "C07_nonces_distinct_partial", "C07_refuted_counter_wraps", "C07_refuted_second_encrypt", "C08_tampered_header", "C09_truncated_file", "C09_truncated_stream", "C10_complete_partial", "C10_refuted_truncation", "C10_stream_complete_partial", "C11_released_data_genuine", "C13_refuted_recipient_forges", "C14_refuted", "C16_recipients_agree", "C17_every_history", "C17_no_recipient_after_start", "C18_encrypt_every_history", "C20_refuted", "C21_encrypt_errors_partial", "C23_refuted", "C24_recipients_partial", "C24_refuted", "C29_refuted", "C44_old_or_new_partial", "C48_encrypt_exact", "C48_encrypt_succeeds", "C48_unresolved", "C51_encrypt_then_decrypt", "C56_encrypt_ends", "C57_encrypt_size", "C58_file_randomness", "C59_encrypt_against_stream", "C63_output_genuine", "C64_encrypt_to_stdout", "C64_pipeline", "C65_generate_encrypt_decrypt", "C70_one_file_per_encryptor", "C72_unverified_refuted", "C73_encrypt_words", "C74_failure_changes_nothing_partial", "C76_origin_partial", "C76_stream_origin_partial"], "secs": 218, "m": {"id": "m033", "edits": [["Encrypt.v", "| Some IoEOF | Some ErrClosedPipe | Some ErrUnexpectedEOF => Ok true\n                 | Some x => Fail (EWrap \"encrypt: I/O read error\" x)", "| Some _ => Ok true"]], "definition": "enc_loop", "desc": "any read error is taken for the end of the input", "breaks": ["C21"]}}
{"mid": "m034", "lemmas": ["EncryptProofs.enc_loop_S", "Thm_Cli.C45_close_refuted", "Thm_Commands.C46_refuted"], "hard": [], "failed": ["C01_encrypt_decrypt_round_trip", "C01_encrypt_succeeds", "C02_stream_round_trip", "C03_encrypted_file_streams", "C03_stream_file_decrypts", "C04_fragmentation_independent", "C04_stream_agrees_with_encrypt", "C05_file_format", "C06_chunks", "C07_nonces_distinct_partial", "C07_refuted_counter_wraps", "C07_refuted_second_encrypt", "C08_tampered_header", "C09_truncated_file", "C09_truncated_stream", "C10_complete_partial", "C10_refuted_truncation", "C10_stream_complete_partial", "C11_released_data_genuine", "C13_refuted_recipient_forges", "C14_refuted", "C16_recipients_agree", "C17_every_history", "C17_no_recipient_after_start", "C18_encrypt_every_history", "C20_refuted", "C21_encrypt_errors_partial", "C23_refuted", "C24_recipients_partial", "C24_refuted", "C29_refuted", "C44_old_or_new_partial", "C45_close_refuted", "C46_refuted", "C48_encrypt_exact", "C48_encrypt_succeeds", "C48_unresolved", "C51_encrypt_then_decrypt", "C57_encrypt_size", "C58_file_randomness", "C59_encrypt_against_stream", "C63_output_genuine", "C64_encrypt_to_stdout", "C64_pipeline", "C65_generate_encrypt_decrypt", "C70_one_file_per_encryptor", "C72_unverified_refuted", "C73_encrypt_words", "C74_failure_changes_nothing_partial", "C76_origin_partial", "C76_stream_origin_partial"], "secs": 225, "m": {"id": "m034", "edits": [["Encrypt.v", "enc_loop C f e r w (u32 (i + 1)) g", "enc_loop C f e r w i g"]], "definition": "enc_loop", "desc": "block number not incremented", "breaks": ["C07"]}}
{"mid": "m035", "lemmas": ["EncryptProofs.enc_loop_S", "Thm_Cli.C45_close_refuted", "Thm_Commands.C46_refuted"], "hard": [], "failed": ["C01_encrypt_decrypt_round_trip", "C01_encrypt_succeeds", "C02_stream_round_trip", "C03_encrypted_file_streams", "C03_stream_file_decrypts", "C04_fragmentation_independent", "C04_stream_agrees_with_encrypt", "C05_file_format", "C06_chunks", "C07_nonces_distinct_partial", "C07_refuted_counter_wraps", "C07_refuted_second_encrypt", "C08_tampered_header", "C09_truncated_file", "C09_truncated_stream", "C10_complete_partial", "C10_refuted_truncation", "C10_stream_complete_partial", "C11_released_data_genuine", "C13_refuted_recipient_forges", "C14_refuted", "C16_recipients_agree", "C17_every_history", "C17_no_recipient_after_start", "C18_encrypt_every_history", "C20_refuted", "C21_encrypt_errors_partial", "C23_refuted", "C24_recipients_partial", "C24_refuted", "C29_refuted", "C44_old_or_new_partial", "C45_close_refuted", "C46_refuted", "C48_encrypt_exact", "C48_encrypt_succeeds", "C48_unresolved", "C51_encrypt_then_decrypt", "C57_encrypt_size", "C58_file_randomness", "C59_encrypt_against_stream", "C63_output_genuine", "C64_encrypt_to_stdout", "C64_pipeline", "C65_generate_encrypt_decrypt", "C70_one_file_per_encryptor", "C72_unverified_refuted", "C73_encrypt_words", "C74_failure_changes_nothing_partial", "C76_origin_partial", "C76_stream_origin_partial"], "secs": 272, "m": {"id": "m035", "edits": [["Encrypt.v", "enc_loop C f e r w (u32 (i + 1)) g", "enc_loop C f e r w (u32 (i + 2)) g"]], "definition": "enc_loop", "desc": "block number incremented by two", "breaks": ["C01", "C05"]}}
{"mid": "m036", "lemmas": ["EncryptProofs.enc_loop_S", "Thm_Crash.enc_loop_any"], "hard": [], "failed": ["C01_encrypt_decrypt_round_trip", "C01_encrypt_succeeds", "C02_stream_round_trip", "C03_encrypted_file_streams", "C03_stream_file_decrypts", "C04_fragmentation_independent", "C04_stream_agrees_with_encrypt", "C05_file_format", "C06_chunks", "C07_nonces_distinct_partial", "C07_refuted_counter_wraps", "C07_refuted_second_encrypt", "C08_tampered_header", "C09_truncated_file", "C09_truncated_stream", "C10_complete_partial", "C10_refuted_truncation", "C10_stream_complete_partial", "C11_released_data_genuine", "C13_refuted_recipient_forges", "C14_refuted", "C16_recipients_agree", "C17_every_history", "C17_no_recipient_after_start", "C18_encrypt_every_history", "C20_refuted", "C21_encrypt_errors_partial", "C23_refuted", "C24_recipients_partial", "C24_refuted", "C29_refuted", "C44_old_or_new_partial", "C48_encrypt_exact", "C48_encrypt_succeeds", "C48_unresolved", "C51_encrypt_then_decrypt", "C56_encrypt_ends", "C57_encrypt_size", "C58_file_randomness", "C59_encrypt_against_stream", "C63_output_genuine", "C64_encrypt_to_stdout", "C64_pipeline", "C65_generate_encrypt_decrypt", "C70_one_file_per_encryptor", "C72_unverified_refuted", "C73_encrypt_words", "C74_failure_changes_nothing_partial", "C76_origin_partial", "C76_stream_origin_partial"], "secs": 277, "m": {"id": "m036", "edits": [["Encrypt.v", "read_full r (h_chunk (e_hdr e))", "read_full r (h_chunk (e_hdr e) - 1)"]], "definition": "enc_loop", "desc": "chunks one byte short", "breaks": ["C06"]}}
{"mid": "m037", "lemmas": ["EncryptProofs.encrypt_spec", "Support.encrypt_clean", "Support.encrypt_again", "FreeProofs.encrypt_free", "Thm_Session.encrypt_flags", "Thm_Session.C18_encrypt_after_stream_writer", "Thm_Calls.estep_started", "Thm_Calls.C18_encrypt_every_history", "Thm_Calls.estep_chunk", "Thm_Calls.C70_one_file_per_encryptor", "Thm_Crash.encrypt_any", "Thm_Limits.C21_encrypt_errors_partial"], "hard": [], "failed": ["C01_encrypt_decrypt_round_trip", "C01_encrypt_succeeds", "C02_stream_round_trip", "C03_encrypted_file_streams", "C03_stream_file_decrypts", "C04_fragmentation_independent", "C04_stream_agrees_with_encrypt", "C05_file_format", "C06_chunks", "C07_nonces_distinct_partial", "C07_refuted_counter_wraps", "C07_refuted_second_encrypt", "C08_tampered_header", "C09_truncated_file", "C09_truncated_stream", "C10_complete_partial", "C10_refuted_truncation", "C10_stream_complete_partial", "C11_released_data_genuine", "C13_refuted_recipient_forges", "C14_refuted", "C16_recipients_agree", "C17_every_history", "C17_no_recipient_after_start", "C18_encrypt_after_stream_writer", "C18_encrypt_every_history", "C20_refuted", "C21_encrypt_errors_partial", "C23_refuted", "C24_recipients_partial", "C24_refuted", "C29_refuted", "C44_old_or_new_partial", "C48_encrypt_exact", "C48_encrypt_succeeds", "C48_unresolved", "C51_encrypt_then_decrypt", "C56_encrypt_ends", "C57_encrypt_size", "C58_file_randomness", "C59_encrypt_against_stream", "C63_output_genuine", "C64_encrypt_to_stdout", "C64_pipeline", "C65_generate_encrypt_decrypt", "C70_one_file_per_encryptor", "C72_unverified_refuted", "C73_encrypt_words", "C74_failure_changes_nothing_partial", "C76_origin_partial", "C76_stream_origin_partial"], "secs": 281, "m": {"id": "m037", "edits": [["Encrypt.v", "if e_stream e then (e, r, w, g, Fail ErrEncIsStream)\n  else", ""]], "definition": "encrypt", "desc": "no stream guard", "breaks": ["C18"]}}
{"mid": "m038", "lemmas": ["EncryptProofs.encrypt_spec", "Support.encrypt_clean", "Support.encrypt_again", "FreeProofs.encrypt_free", "Thm_Session.encrypt_flags", "Thm_Limits.C21_encrypt_errors_partial"], "hard": [], "failed": ["C01_encrypt_decrypt_round_trip", "C01_encrypt_succeeds", "C02_stream_round_trip", "C03_encrypted_file_streams", "C03_stream_file_decrypts", "C04_fragmentation_independent", "C04_stream_agrees_with_encrypt", "C05_file_format", "C06_chunks", "C07_nonces_distinct_partial", "C07_refuted_counter_wraps", "C07_refuted_second_encrypt", "C08_tampered_header", "C09_truncated_file", "C09_truncated_stream", "C10_complete_partial", "C10_refuted_truncation", "C10_stream_complete_partial", "C11_released_data_genuine", "C13_refuted_recipient_forges", "C14_refuted", "C16_recipients_agree", "C17_every_history", "C17_no_recipient_after_start", "C18_encrypt_every_history", "C20_refuted", "C21_encrypt_errors_partial", "C23_refuted", "C24_recipients_partial", "C24_refuted", "C29_refuted", "C44_old_or_new_partial", "C48_encrypt_exact", "C48_encrypt_succeeds", "C48_unresolved", "C51_encrypt_then_decrypt", "C57_encrypt_size", "C58_file_randomness", "C59_encrypt_against_stream", "C63_output_genuine", "C64_encrypt_to_stdout", "C64_pipeline", "C65_generate_encrypt_decrypt", "C70_one_file_per_encryptor", "C72_unverified_refuted", "C73_encrypt_words", "C74_failure_changes_nothing_partial", "C76_origin_partial", "C76_stream_origin_partial"], "secs": 242, "m": {"id": "m038", "edits": [["Encrypt.v", "| (Some x, w) => (e, r, w, g, Fail x)\n                  end", "| (Some x, w) => (e, r, w, g, Ok tt)\n                  end"]], "definition": "encrypt", "desc": "Close error ignored", "breaks": ["C21"]}}
