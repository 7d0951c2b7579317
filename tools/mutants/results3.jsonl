{"mid": "s002", "lemmas": ["FlagsProofs.parse_bool_cases"], "hard": [], "failed": ["C71_command", "C71_options", "C72_unverified_refuted", "C73_encrypt_words", "C73_sign_words"], "secs": 16, "m": {"id": "s002", "edits": [["Flags.v", "str \"0\"; str \"f\";", "str \"0\"; str \"no\"; str \"f\";"]], "definition": "parse_bool", "desc": "--opt=no accepted", "breaks": ["C71"]}}
{"mid": "s001", "lemmas": ["FlagsProofs.parse_bool_cases"], "hard": [], "failed": ["C71_command", "C71_options", "C72_unverified_refuted", "C73_encrypt_words", "C73_sign_words"], "secs": 16, "m": {"id": "s001", "edits": [["Flags.v", "str \"1\"; str \"t\";", "str \"t\";"]], "definition": "parse_bool", "desc": "--opt=1 refused", "breaks": ["C71"]}}
{"mid": "s003", "lemmas": ["FlagsProofs.set_value_says"], "hard": [], "failed": ["C71_command", "C71_options", "C72_unverified_refuted", "C73_encrypt_words", "C73_sign_words"], "secs": 17, "m": {"id": "s003", "edits": [["Flags.v", "Some b => Some (VBool b)", "Some b => Some (VBool true)"]], "definition": "set_value", "desc": "--opt=false means true", "breaks": ["C71"]}}
{"mid": "s004", "lemmas": ["FlagsProofs.by_short_in", "FlagsProofs.by_short_ok"], "hard": [], "failed": ["C71_command", "C71_options", "C72_unverified_refuted", "C73_encrypt_words", "C73_sign_words"], "secs": 19, "m": {"id": "s004", "edits": [["Flags.v", "Byte.eqb d c", "Byte.eqb d c || Byte.eqb d (z2b (b2z c + 32))"]], "definition": "by_short", "desc": "shorthands ignore case one way", "breaks": ["C71"]}}
{"mid": "s006", "lemmas": ["FlagsProofs.letters_parse", "FlagsProofs.parse_letters"], "hard": [], "failed": ["C71_command", "C71_options", "C72_unverified_refuted", "C73_encrypt_words", "C73_sign_words"], "secs": 19, "m": {"id": "s006", "edits": [["Flags.v", "if Byte.eqb e x3d && (0 <? len t) then whole t", "if Byte.eqb e x3d then whole t"]], "definition": "parse_short", "desc": "-o= is an empty value", "breaks": ["C71"]}}
{"mid": "s005", "lemmas": ["FlagsProofs.split_eq_spec", "FlagsProofs.split_eq_none", "FlagsProofs.split_eq_some", "Thm_Words.w_enc"], "hard": [], "failed": ["C71_command", "C71_options", "C72_unverified_refuted", "C73_encrypt_words", "C73_sign_words"], "secs": 21, "m": {"id": "s005", "edits": [["Flags.v", "if Byte.eqb c x3d then ([], Some s')", "if Byte.eqb c x3a then ([], Some s')"]], "definition": "split_eq", "desc": "--opt:value instead of --opt=value", "breaks": ["C71"]}}
{"mid": "s007", "lemmas": ["FlagsProofs.letters_parse", "FlagsProofs.parse_letters"], "hard": [], "failed": ["C71_command", "C71_options", "C72_unverified_refuted", "C73_encrypt_words", "C73_sign_words"], "secs": 19, "m": {"id": "s007", "edits": [["Flags.v", "else if fg_bool f then s_set (fg_name f) (VBool true) (parse_short fs s') else whole s'", "else if fg_bool f then SGood [(fg_name f, VBool true)] None else whole s'"]], "definition": "parse_short", "desc": "letters after a boolean letter are dropped", "breaks": ["C71"]}}
{"mid": "s009", "lemmas": ["FlagsProofs.command_line_parse", "FlagsProofs.parse_command_line"], "hard": [], "failed": ["C71_command", "C71_options", "C72_unverified_refuted", "C73_encrypt_words", "C73_sign_words"], "secs": 19, "m": {"id": "s009", "edits": [["Flags.v", "| [] => PGood [] rest\n            | n0", "| [] => parse_args fs interspersed rest\n            | n0"]], "definition": "parse_args", "desc": "-- does not end the options", "breaks": ["C71"]}}
{"mid": "s008", "lemmas": ["FlagsProofs.letters_parse", "FlagsProofs.parse_letters", "Thm_Flags.opt_o_enc", "Thm_Flags.opt_s_enc", "Thm_Flags.opt_o_dec", "Thm_Flags.opt_v_dec", "Thm_Flags.opt_o_sign", "Thm_Words.w_gen", "Thm_Words.w_enc"], "hard": [], "failed": ["C71_command", "C71_options", "C72_readme_partial", "C72_unverified_refuted", "C73_encrypt_words", "C73_sign_words"], "secs": 49, "m": {"id": "s008", "edits": [["Flags.v", "| [] => if fg_bool f then SGood [(fg_name f, VBool true)] None else SGood [] (Some f)", "| [] => if fg_bool f then SGood [(fg_name f, VBool true)] None else whole []"]], "definition": "parse_short", "desc": "-o NAME takes no separate word", "breaks": ["C71"]}}
{"mid": "s010", "lemmas": ["FlagsProofs.command_line_parse", "FlagsProofs.parse_command_line"], "hard": [], "failed": ["C71_command", "C71_options", "C72_unverified_refuted", "C73_encrypt_words", "C73_sign_words"], "secs": 19, "m": {"id": "s010", "edits": [["Flags.v", "| [] => PGood [] rest\n            | n0", "| [] => PGood [] args\n            | n0"]], "definition": "parse_args", "desc": "-- is kept as an argument", "breaks": ["C71"]}}
{"mid": "s011", "lemmas": ["FlagsProofs.command_line_parse", "FlagsProofs.parse_command_line", "Thm_Flags.plain_word", "Thm_Words.w_enc"], "hard": [], "failed": ["C71_command", "C71_options", "C72_readme_partial", "C72_sign_stdout_refuted", "C72_unverified_refuted", "C73_encrypt_words", "C73_sign_words"], "secs": 26, "m": {"id": "s011", "edits": [["Flags.v", "if negb (Byte.eqb c x2d) then (if interspersed then p_arg s (parse_args fs interspersed rest) else PGood [] args)", "if negb (Byte.eqb c x2d) then PGood [] args"]], "definition": "parse_args", "desc": "options after the first argument are not read", "breaks": ["C71"]}}
{"mid": "s012", "lemmas": ["FlagsProofs.parse_command_line"], "hard": [], "failed": ["C71_command", "C71_options", "C72_unverified_refuted", "C73_encrypt_words", "C73_sign_words"], "secs": 18, "m": {"id": "s012", "edits": [["Flags.v", "| [] => PBad\n                               end", "| [] => p_set (fg_name f) (VText []) (PGood [] [])\n                               end"]], "definition": "parse_args", "desc": "--output at the end of the line is an empty name", "breaks": ["C71"]}}
{"mid": "s014", "lemmas": ["FlagsProofs.parse_command_line"], "hard": [], "failed": ["C71_command", "C71_options", "C72_unverified_refuted", "C73_encrypt_words", "C73_sign_words"], "secs": 17, "m": {"id": "s014", "edits": [["Flags.v", "| None => if beq n (str \"help\") then PHelp else PBad", "| None => if beq n (str \"help\") then PHelp else parse_args fs interspersed rest"]], "definition": "parse_args", "desc": "unknown long options are ignored", "breaks": ["C71"]}}
{"mid": "s013", "lemmas": ["FlagsProofs.parse_command_line", "Thm_Flags.C72_gen_p_refuted"], "hard": [], "failed": ["C71_command", "C71_options", "C72_gen_p_refuted", "C72_unverified_refuted", "C73_encrypt_words", "C73_sign_words"], "secs": 26, "m": {"id": "s013", "edits": [["Flags.v", "| SBad => PBad\n", "| SBad => parse_args fs interspersed rest\n"]], "definition": "parse_args", "desc": "unknown letters are ignored", "breaks": ["C71"]}}
{"mid": "s015", "lemmas": ["FlagsProofs.get_bool_chosen"], "hard": [], "failed": ["C71_command", "C71_options", "C72_unverified_refuted", "C73_encrypt_words", "C73_sign_words"], "secs": 19, "m": {"id": "s015", "edits": [["Flags.v", "| (m, VBool b) :: s => get_bool s n (if beq m n then b else default)", "| (m, VBool b) :: s => if beq m n then b else get_bool s n default"]], "definition": "get_bool", "desc": "the first of repeated options counts", "breaks": ["C71"]}}
{"mid": "s016", "lemmas": ["FlagsProofs.get_text_chosen", "Thm_Words.w_enc"], "hard": [], "failed": ["C71_command", "C71_options", "C72_unverified_refuted", "C73_encrypt_words", "C73_sign_words"], "secs": 20, "m": {"id": "s016", "edits": [["Flags.v", "| (m, VText b) :: s => get_text s n (if beq m n then b else default)", "| (m, VText b) :: s => get_text s n (if beq m n then default ++ b else default)"]], "definition": "get_text", "desc": "repeated options are concatenated", "breaks": ["C71"]}}
{"mid": "s017", "lemmas": ["Thm_Flags.gen_same", "Thm_Words.w_gen"], "hard": [], "failed": ["C71_command", "C71_options", "C72_unverified_refuted", "C73_encrypt_words", "C73_sign_words"], "secs": 19, "m": {"id": "s017", "edits": [["Flags.v", "fl \"env-password\" (Some x45) false; fl \"overwrite\" None true].\n(** sign.go", "fl \"env-password\" (Some x65) false; fl \"overwrite\" None true].\n(** sign.go"]], "definition": "gen_flags", "desc": "generate: -e instead of -E", "breaks": ["C71", "C72"]}}
{"mid": "s018", "lemmas": ["Thm_Flags.sign_same", "Thm_Flags.C71_options", "Thm_Flags.opt_o_sign"], "hard": [], "failed": ["C71_command", "C71_options", "C72_readme_partial", "C72_unverified_refuted", "C73_encrypt_words", "C73_sign_words"], "secs": 22, "m": {"id": "s018", "edits": [["Flags.v", "fl \"output\" (Some x6f) false; fl \"overwrite\" None true]", "fl \"output\" (Some x6f) true; fl \"overwrite\" None true]"]], "definition": "sign_flags", "desc": "sign -o takes no name", "breaks": ["C71", "C72"]}}
{"mid": "s019", "lemmas": ["Thm_Flags.verify_same"], "hard": [], "failed": ["C71_command", "C71_options", "C72_unverified_refuted", "C73_encrypt_words", "C73_sign_words"], "secs": 18, "m": {"id": "s019", "edits": [["Flags.v", "fl \"quiet\" (Some x71) true", "fl \"quiet\" (Some x51) true"]], "definition": "verify_flags", "desc": "verify: -Q instead of -q", "breaks": ["C71", "C72"]}}
{"mid": "s020", "lemmas": ["Thm_Flags.enc_same", "Thm_Flags.opt_s_enc"], "hard": [], "failed": ["C71_command", "C71_options", "C72_readme_partial", "C72_unverified_refuted", "C73_encrypt_words", "C73_sign_words"], "secs": 26, "m": {"id": "s020", "edits": [["Flags.v", "fl \"sign\" (Some x73) false;", "fl \"sign\" None false;"]], "definition": "enc_flags", "desc": "encrypt -s missing", "breaks": ["C71", "C72"]}}
{"mid": "s021", "lemmas": ["Thm_Flags.enc_same", "Thm_Words.w_enc"], "hard": [], "failed": ["C71_command", "C71_options", "C72_unverified_refuted", "C73_encrypt_words", "C73_sign_words"], "secs": 20, "m": {"id": "s021", "edits": [["Flags.v", "fl \"block-size\" (Some x42) false", "fl \"block-size\" (Some x62) false"]], "definition": "enc_flags", "desc": "encrypt -b instead of -B", "breaks": ["C71", "C72"]}}
{"mid": "s023", "lemmas": ["Thm_Flags.dec_same", "Thm_Flags.C71_options"], "hard": [], "failed": ["C71_command", "C71_options", "C72_unverified_refuted", "C73_encrypt_words", "C73_sign_words"], "secs": 21, "m": {"id": "s023", "edits": [["Flags.v", "fl \"test\" (Some x74) true; ", ""]], "definition": "dec_flags", "desc": "decrypt --test missing", "breaks": ["C71", "C72"]}}
{"mid": "s022", "lemmas": ["Thm_Flags.dec_same", "Thm_Flags.opt_v_dec"], "hard": [], "failed": ["C71_command", "C71_options", "C72_readme_partial", "C72_unverified_refuted", "C73_encrypt_words", "C73_sign_words"], "secs": 26, "m": {"id": "s022", "edits": [["Flags.v", "fl \"verify-sender\" (Some x76) false", "fl \"verify-sender\" (Some x56) false"]], "definition": "dec_flags", "desc": "decrypt -V instead of -v", "breaks": ["C71", "C72"]}}
{"mid": "s024", "lemmas": ["Thm_Flags.C71_options", "Thm_Flags.C72_readme_partial"], "hard": [], "failed": ["C71_command", "C71_options", "C72_readme_partial", "C72_unverified_refuted", "C73_encrypt_words", "C73_sign_words"], "secs": 21, "m": {"id": "s024", "edits": [["Flags.v", "(get_text s (str \"block-size\") (str \"128k\"))", "(get_text s (str \"block-size\") (str \"4M\"))"]], "definition": "declared", "desc": "default block size 4M", "breaks": ["C71", "C72"]}}
{"mid": "s025", "lemmas": ["Thm_Flags.C71_options", "Thm_Flags.C72_readme_partial", "Thm_Words.w_enc"], "hard": [], "failed": ["C71_command", "C71_options", "C72_readme_partial", "C72_unverified_refuted", "C73_encrypt_words", "C73_sign_words"], "secs": 23, "m": {"id": "s025", "edits": [["Flags.v", "mkEo (get_text s (str \"outfile\") []) (get_text s (str \"sign\") [])", "mkEo (get_text s (str \"sign\") []) (get_text s (str \"outfile\") [])"]], "definition": "declared", "desc": "encrypt: --sign and --outfile swapped", "breaks": ["C71", "C72"]}}
{"mid": "s026", "lemmas": ["Thm_Flags.C71_options"], "hard": [], "failed": ["C71_command", "C71_options", "C72_unverified_refuted", "C73_encrypt_words", "C73_sign_words"], "secs": 21, "m": {"id": "s026", "edits": [["Flags.v", "(get_bool s (str \"no-password\") false) (get_bool s (str \"test\") false) (get_bool s (str \"overwrite\") false)", "(get_bool s (str \"no-password\") false) (get_bool s (str \"overwrite\") false) (get_bool s (str \"test\") false)"]], "definition": "declared", "desc": "decrypt: --test and --overwrite swapped", "breaks": ["C71", "C72"]}}
{"mid": "s027", "lemmas": ["Thm_Flags.C71_options", "Thm_Flags.C72_readme_partial"], "hard": [], "failed": ["C71_command", "C71_options", "C72_readme_partial", "C72_unverified_refuted", "C73_encrypt_words", "C73_sign_words"], "secs": 24, "m": {"id": "s027", "edits": [["Flags.v", "(get_text s (str \"verify-sender\") []) (get_text s (str \"env-password\") [])", "[] (get_text s (str \"env-password\") [])"]], "definition": "declared", "desc": "decrypt: --verify-sender ignored", "breaks": ["C71", "C72"]}}
{"mid": "s028", "lemmas": ["Thm_Flags.C71_options", "Thm_Flags.C71_command"], "hard": [], "failed": ["C71_command", "C71_options", "C72_unverified_refuted", "C73_encrypt_words", "C73_sign_words"], "secs": 21, "m": {"id": "s028", "edits": [["Flags.v", "if get_bool s (str \"help\") false then Quit 0 else Options (get_bool s (str \"quiet\") false, a)", "Options (get_bool s (str \"quiet\") false, a)"]], "definition": "declared", "desc": "verify --help ignored", "breaks": ["C71", "C72"]}}
{"mid": "s029", "lemmas": ["Thm_Flags.C71_options", "Thm_Flags.C72_readme_partial"], "hard": [], "failed": ["C71_command", "C71_options", "C72_readme_partial", "C72_unverified_refuted", "C73_encrypt_words", "C73_sign_words"], "secs": 21, "m": {"id": "s029", "edits": [["Flags.v", "mkSo (get_text s (str \"output\") []) (get_text s (str \"env-password\") []) (get_bool s (str \"no-password\") false)", "mkSo (get_text s (str \"output\") []) (get_text s (str \"env-password\") []) (get_bool s (str \"overwrite\") false)"]], "definition": "declared", "desc": "sign: --no-password reads --overwrite", "breaks": ["C71", "C72"]}}
{"mid": "s030", "lemmas": ["Thm_Flags.C71_options", "Thm_Flags.main_gen", "Thm_Flags.main_sign", "Thm_Flags.main_verify", "Thm_Flags.main_encrypt", "Thm_Flags.main_decrypt", "Thm_Words.w_gen", "Thm_Words.w_enc", "Thm_Words.w_dec"], "hard": [], "failed": ["C71_command", "C71_options", "C72_readme_partial", "C72_sign_stdout_refuted", "C72_unverified_refuted", "C73_encrypt_words", "C73_sign_words"], "secs": 38, "m": {"id": "s030", "edits": [["Flags.v", "(parse_args main_flags false argv)", "(parse_args main_flags true argv)"]], "definition": "declared", "desc": "the main parser takes options after the command", "breaks": ["C71", "C72"]}}
{"mid": "s031", "lemmas": ["Thm_Flags.C71_command", "Thm_Flags.C72_gen_p_refuted"], "hard": [], "failed": ["C71_command", "C72_gen_p_refuted", "C72_unverified_refuted", "C73_encrypt_words", "C73_sign_words"], "secs": 31, "m": {"id": "s031", "edits": [["Flags.v", "PBad => Quit 2", "PBad => Quit 0"]], "definition": "ended", "desc": "wrong options exit with 0", "breaks": ["C71"]}}
{"mid": "s033", "lemmas": ["Thm_Files.C43_generate", "Thm_EndToEnd.gen_ops", "Thm_Modes.run_creates", "Thm_Modes.C75_generated_pair"], "hard": [], "failed": ["C43_generate", "C50_new_pair_partial", "C65_generate_encrypt_decrypt", "C66_generate_sign_verify", "C73_encrypt_words", "C73_sign_words", "C75_generated_pair", "C75_permissions"], "secs": 120, "m": {"id": "s033", "edits": [["Store.v", "write_file v (oct 6 4 4) f dst (marshal_public", "write_file v (oct 6 0 0) f dst (marshal_public"]], "definition": "serialize_public", "desc": "public key readable by the owner only", "breaks": ["C75"]}}
{"mid": "s032", "lemmas": ["Thm_Files.C42_stored_objects", "Thm_Files.C43_generate", "Thm_EndToEnd.gen_ops", "Thm_Touch.generate_ops", "Thm_Modes.run_creates", "Thm_Modes.C75_generated_pair", "Thm_Texts.generate_success"], "hard": [], "failed": ["C42_stored_objects", "C43_generate", "C50_new_pair_partial", "C65_generate_encrypt_decrypt", "C66_generate_sign_verify", "C68_only_outputs", "C73_encrypt_words", "C73_sign_words", "C75_generated_pair", "C75_permissions", "C77_concurrent_runs", "C78_history_partial", "C80_generate"], "secs": 125, "m": {"id": "s032", "edits": [["Store.v", "write_file v (oct 6 0 0)", "write_file v (oct 6 4 4)"]], "definition": "serialize_private", "desc": "private key readable by all", "breaks": ["C75"]}}
{"mid": "s034", "lemmas": ["CliProofs.slurp_ok", "Thm_Cli.C48_encrypt_succeeds", "Thm_Chain.C53_crash_exactly_partial"], "hard": [], "failed": ["C44_no_overwrite_partial", "C44_old_or_new_partial", "C45_decrypt_succeeds", "C45_decrypt_to_file_partial", "C45_test_mode", "C46_refuted", "C46_sender_partial", "C47_verify_exact", "C48_encrypt_exact", "C48_encrypt_succeeds", "C48_unresolved", "C49_sign_partial", "C51_encrypt_then_decrypt", "C52_sign_then_verify", "C53_crash_exactly_partial", "C56_decrypt_ends", "C56_encrypt_ends", "C56_sign_ends", "C62_verify_report", "C63_decrypt_to_stdout", "C63_output_genuine", "C64_encrypt_to_stdout", "C64_pipeline", "C65_generate_encrypt_decrypt", "C66_generate_sign_verify", "C68_only_outputs", "C72_unverified_refuted", "C73_encrypt_words", "C73_sign_words", "C74_failure_changes_nothing_partial", "C75_permissions", "C77_concurrent_runs", "C78_history_partial", "C79_verify_command", "C80_sign"], "secs": 113, "m": {"id": "s034", "edits": [["Store.v", "| None => Fail enoent", "| None => Ok []"]], "definition": "read_file", "desc": "a missing file reads as empty", "breaks": []}}
{"mid": "s035", "lemmas": ["Thm_Modes.C75_permissions", "Thm_Modes.C75_generated_pair"], "hard": [], "failed": ["C75_generated_pair", "C75_permissions"], "secs": 114, "m": {"id": "s035", "edits": [["Fs.v", "Z.ldiff m (se_umask v)", "m"]], "definition": "granted", "desc": "umask ignored", "breaks": ["C75"]}}
{"mid": "s037", "lemmas": ["FsProofs.sf_ops_trace", "Thm_Modes.sf_ops_creates"], "hard": [], "failed": ["C42_stored_objects", "C42_write_atomic", "C42_write_outcome", "C43_generate", "C44_old_or_new_partial", "C45_decrypt_to_file_partial", "C48_encrypt_exact", "C48_unresolved", "C49_sign_partial", "C50_new_pair_partial", "C51_encrypt_then_decrypt", "C52_sign_then_verify", "C65_generate_encrypt_decrypt", "C66_generate_sign_verify", "C68_only_outputs", "C73_encrypt_words", "C73_sign_words", "C74_failure_changes_nothing_partial", "C75_generated_pair", "C75_permissions", "C77_concurrent_runs", "C78_history_partial", "C80_generate", "C80_sign"], "secs": 141, "m": {"id": "s037", "edits": [["Fs.v", "   else [ORemove (se_tmp v)]).", "   else [])."]], "definition": "sf_ops", "desc": "temporary file stays after a failed run", "breaks": ["C68", "C42"]}}
{"mid": "s036", "lemmas": ["FsProofs.sf_ops_trace", "Thm_Chain.c51_ops", "Thm_EndToEnd.gen_ops", "Thm_EndToEnd.enc_ops3", "Thm_Modes.sf_ops_creates", "Thm_Parallel.C78_refuted_race"], "hard": [], "failed": ["C42_stored_objects", "C42_write_atomic", "C42_write_outcome", "C43_generate", "C44_old_or_new_partial", "C45_decrypt_to_file_partial", "C48_encrypt_exact", "C48_unresolved", "C49_sign_partial", "C50_new_pair_partial", "C51_encrypt_then_decrypt", "C52_sign_then_verify", "C65_generate_encrypt_decrypt", "C66_generate_sign_verify", "C68_only_outputs", "C73_encrypt_words", "C73_sign_words", "C74_failure_changes_nothing_partial", "C75_generated_pair", "C75_permissions", "C77_concurrent_runs", "C78_history_partial", "C78_refuted_race", "C80_generate", "C80_sign"], "secs": 169, "m": {"id": "s036", "edits": [["Fs.v", "| None => OSync (se_ino v) ::\n         match", "| None =>\n         match"]], "definition": "sf_ops", "desc": "no fsync before rename", "breaks": ["C42"]}}
{"mid": "s038", "lemmas": ["Thm_Chain.c51_ops", "Thm_EndToEnd.gen_ops", "Thm_EndToEnd.enc_ops3", "Thm_Modes.sf_ops_creates"], "hard": [], "failed": ["C75_generated_pair", "C75_permissions"], "secs": 137, "m": {"id": "s038", "edits": [["Fs.v", "(granted v m) :: OAppend (se_ino v) (w_out w) ::", "(granted v (oct 6 6 6)) :: OAppend (se_ino v) (w_out w) ::"]], "definition": "sf_ops", "desc": "temporary file created with mode 666", "breaks": ["C75"]}}
{"mid": "s039", "lemmas": ["FsProofs.write_file_spec", "CliProofs.with_output_file", "Thm_Commands.C44_refuted", "Thm_Files.C42_write_atomic", "Thm_Files.C50_refuted", "Thm_Touch.C42_write_outcome", "Thm_Parallel.with_output_refuses"], "hard": [], "failed": ["C42_stored_objects", "C42_write_atomic", "C42_write_outcome", "C43_generate", "C44_no_overwrite_partial", "C44_old_or_new_partial", "C44_refuted", "C45_decrypt_succeeds", "C45_decrypt_to_file_partial", "C48_encrypt_exact", "C48_encrypt_succeeds", "C48_unresolved", "C49_sign_partial", "C50_new_pair_partial", "C50_refuted", "C51_encrypt_then_decrypt", "C52_sign_then_verify", "C65_generate_encrypt_decrypt", "C66_generate_sign_verify", "C68_only_outputs", "C73_encrypt_words", "C73_sign_words", "C74_failure_changes_nothing_partial", "C75_generated_pair", "C75_permissions", "C77_concurrent_runs", "C78_history_partial", "C80_generate", "C80_sign"], "secs": 127, "m": {"id": "s039", "edits": [["Fs.v", "| Some _ => if overwrite then", "| Some _ => if negb overwrite then"]], "definition": "safe_open", "desc": "--overwrite inverted", "breaks": ["C42", "C44", "C78"]}}
{"mid": "s040", "lemmas": ["Thm_Commands.C49_sign_partial", "Thm_Dest.C90_one_destination", "Thm_Touch.main_ops", "Thm_Modes.run_creates"], "hard": [], "failed": ["C49_sign_partial", "C52_sign_then_verify", "C66_generate_sign_verify", "C68_only_outputs", "C73_sign_words", "C74_failure_changes_nothing_partial", "C75_permissions", "C77_concurrent_runs", "C78_history_partial", "C80_sign", "C90_one_destination"], "secs": 101, "m": {"id": "s040", "edits": [["Cli.v", "with_output W v (oct 6 4 4) outf", "with_output W v (oct 6 0 0) outf"]], "definition": "cli_sign", "desc": "signature file private", "breaks": ["C75"]}}
{"mid": "s041", "lemmas": ["Thm_Commands.sign_body_spec"], "hard": [], "failed": ["C49_sign_partial", "C52_sign_then_verify", "C66_generate_sign_verify", "C73_sign_words", "C74_failure_changes_nothing_partial", "C80_sign"], "secs": 99, "m": {"id": "s041", "edits": [["Cli.v", "(str \"input=\" ++ fn)", "(str \"input=\" ++ kn)"]], "definition": "sign_body", "desc": "comment names the key", "breaks": ["C80"]}}
{"mid": "s042", "lemmas": ["Thm_Commands.sign_body_spec", "Thm_Chain.C53_refuted"], "hard": [], "failed": ["C49_sign_partial", "C52_sign_then_verify", "C53_refuted", "C66_generate_sign_verify", "C73_sign_words", "C74_failure_changes_nothing_partial", "C80_sign"], "secs": 115, "m": {"id": "s042", "edits": [["Cli.v", "in (0, snd (w_close w))", "in (0, w)"]], "definition": "sign_body", "desc": "output of sign never closed", "breaks": ["C52", "C49"]}}
{"mid": "s043", "lemmas": ["Thm_Files.C43_generate", "Thm_Texts.generate_success"], "hard": [], "failed": ["C43_generate", "C50_new_pair_partial", "C65_generate_encrypt_decrypt", "C66_generate_sign_verify", "C73_encrypt_words", "C73_sign_words", "C80_generate"], "secs": 116, "m": {"id": "s043", "edits": [["Cli.v", "serialize_public E v2 (run_ops (wo_fs W) ops1) (wo_place W pkn) (sk_pk sk) (ge_comment o)", "serialize_public E v2 (run_ops (wo_fs W) ops1) (wo_place W pkn) (sk_pk sk) pw"]], "definition": "cli_generate", "desc": "the password becomes the public key comment", "breaks": ["C80", "C88"]}}
{"mid": "s045", "lemmas": ["CliProofs.get_pass_ok", "CliProofs.get_pass_is", "Thm_Cli.C45_close_refuted", "Thm_Commands.C46_refuted", "Thm_Commands.town_akey", "Thm_Chain.town1_akey", "Thm_Pipe.c64_akey"], "hard": [], "failed": ["C43_generate", "C44_no_overwrite_partial", "C44_old_or_new_partial", "C45_close_refuted", "C45_decrypt_succeeds", "C45_decrypt_to_file_partial", "C45_test_mode", "C46_refuted", "C46_sender_partial", "C48_encrypt_exact", "C48_encrypt_succeeds", "C48_unresolved", "C49_sign_partial", "C50_new_pair_partial", "C51_encrypt_then_decrypt", "C52_sign_then_verify", "C56_decrypt_ends", "C56_encrypt_ends", "C56_sign_ends", "C63_decrypt_to_stdout", "C63_output_genuine", "C64_encrypt_to_stdout", "C64_pipeline", "C65_generate_encrypt_decrypt", "C66_generate_sign_verify", "C68_only_outputs", "C72_unverified_refuted", "C73_encrypt_words", "C73_sign_words", "C74_failure_changes_nothing_partial", "C75_permissions", "C77_concurrent_runs", "C78_history_partial", "C80_generate", "C80_sign"], "secs": 142, "m": {"id": "s045", "edits": [["Cli.v", "if nopw then Ok []", "if nopw then Ok (str \"x\")"]], "definition": "get_pass", "desc": "--no-password uses a fixed password", "breaks": ["C43", "C65"]}}
{"mid": "s044", "lemmas": ["Thm_Crash.C56_generate_ends", "Thm_Files.C43_generate", "Thm_EndToEnd.g_key", "Thm_EndToEnd.s_code", "Thm_Touch.generate_ops", "Thm_Modes.run_creates", "Thm_Modes.C75_generated_pair", "Thm_Parallel.C78_refuted_race", "Thm_Texts.generate_success"], "hard": [], "failed": ["C43_generate", "C50_new_pair_partial", "C56_generate_ends", "C65_generate_encrypt_decrypt", "C66_generate_sign_verify", "C68_only_outputs", "C73_encrypt_words", "C73_sign_words", "C75_generated_pair", "C75_permissions", "C77_concurrent_runs", "C78_history_partial", "C78_refuted_race", "C80_generate"], "secs": 178, "m": {"id": "s044", "edits": [["Cli.v", "(wo_place W skn) sk (ge_comment o) (ge_force o) pw g", "(wo_place W skn) sk (ge_comment o) (ge_force o) [] g"]], "definition": "cli_generate", "desc": "generate ignores the password", "breaks": ["C43", "C65"]}}
{"mid": "s046", "lemmas": ["Thm_KeyFiles.marshal_private_spec", "Thm_Crash.C56_generate_ends", "Thm_KeySecret.C89_key_file_hides"], "hard": [], "failed": ["C34_comment_refuted", "C34_private_round_trip_partial", "C42_stored_objects", "C43_pair_usable_partial", "C56_generate_ends", "C65_generate_encrypt_decrypt", "C66_generate_sign_verify", "C73_encrypt_words", "C73_sign_words", "C80_generate", "C80_marshal", "C80_sign", "C89_key_file_hides"], "secs": 178, "m": {"id": "s046", "edits": [["KeyFiles.v", "let '(salt, g) := rand_buf 32 g in", "let '(salt, g) := (take 32 (sk_Sk sk), g) in"]], "definition": "marshal_private", "desc": "the salt is the seed of the key", "breaks": ["C89", "C58"]}}
{"mid": "s047", "lemmas": ["Thm_KeyFiles.marshal_private_spec", "Thm_KeySecret.C89_key_file_hides"], "hard": [], "failed": ["C34_comment_refuted", "C34_private_round_trip_partial", "C42_stored_objects", "C43_pair_usable_partial", "C65_generate_encrypt_decrypt", "C66_generate_sign_verify", "C73_encrypt_words", "C73_sign_words", "C80_generate", "C80_marshal", "C80_sign", "C89_key_file_hides"], "secs": 176, "m": {"id": "s047", "edits": [["KeyFiles.v", "mkSpriv comment (b64_encode esk)", "mkSpriv (comment ++ take 4 pass) (b64_encode esk)"]], "definition": "marshal_private", "desc": "part of the password hash in the comment", "breaks": ["C89", "C80"]}}
{"mid": "s049", "lemmas": ["Thm_KeyFiles.yaml_priv_marker", "Thm_KeyFiles.marshal_private_spec", "Thm_KeyFiles.C34_private_round_trip_partial", "Thm_KeySecret.C89_key_file_hides"], "hard": [], "failed": ["C34_comment_refuted", "C34_private_round_trip_partial", "C42_stored_objects", "C43_pair_usable_partial", "C65_generate_encrypt_decrypt", "C66_generate_sign_verify", "C73_encrypt_words", "C73_sign_words", "C80_generate", "C80_marshal", "C80_sign", "C89_key_file_hides"], "secs": 177, "m": {"id": "s049", "edits": [["KeyFiles.v", "8.", "1."]], "definition": "scrypt_r", "desc": "scrypt r reduced", "breaks": ["C80"]}}
{"mid": "s048", "lemmas": ["Thm_KeyFiles.yaml_priv_marker", "Thm_KeyFiles.marshal_private_spec", "Thm_KeyFiles.C34_private_round_trip_partial", "Thm_Cli.C45_close_refuted", "Thm_Commands.C46_refuted", "Thm_Commands.town_akey", "Thm_Commands.C49_refuted", "Thm_Chain.town_skeyS", "Thm_Chain.sign1_code", "Thm_Chain.town_skey", "Thm_Chain.town1_akey", "Thm_Chain.c51_code", "Thm_Chain.c51_ops", "Thm_Chain.C53_refuted", "Thm_EndToEnd.g_key", "Thm_EndToEnd.s_code", "Thm_Pipe.c64_code", "Thm_Pipe.c64_akey", "Thm_KeySecret.C89_key_file_hides", "Thm_Parallel.C78_refuted_race"], "hard": [], "failed": ["C34_comment_refuted", "C34_private_round_trip_partial", "C42_stored_objects", "C43_pair_usable_partial", "C45_close_refuted", "C46_refuted", "C49_refuted", "C53_refuted", "C65_generate_encrypt_decrypt", "C66_generate_sign_verify", "C73_encrypt_words", "C73_sign_words", "C78_refuted_race", "C80_generate", "C80_marshal", "C80_sign", "C89_key_file_hides"], "secs": 238, "m": {"id": "s048", "edits": [["KeyFiles.v", "2^19", "2^15"]], "definition": "scrypt_N", "desc": "scrypt N reduced", "breaks": ["C80"]}}
{"mid": "s051", "lemmas": ["Thm_KeyFiles.C33_openssh_line", "Thm_KeyFiles.C35_public_partial", "CliProofs.make_public_loaded", "Thm_Accept.C67_public_exact"], "hard": [], "failed": ["C33_openssh_line", "C35_public_partial", "C43_pair_usable_partial", "C47_verify_exact", "C52_sign_then_verify", "C53_crash_exactly_partial", "C56_decrypt_ends", "C56_encrypt_ends", "C62_verify_report", "C65_generate_encrypt_decrypt", "C66_generate_sign_verify", "C67_public_exact", "C68_only_outputs", "C73_encrypt_words", "C73_sign_words", "C74_failure_changes_nothing_partial", "C75_permissions", "C77_concurrent_runs", "C78_history_partial", "C79_verify_command", "C88_any_form"], "secs": 169, "m": {"id": "s051", "edits": [["KeyFiles.v", "| Ok (Some xk) => (xk, Ok tt)", "| Ok (Some xk) => (pk, Ok tt)"]], "definition": "unmarshal_public", "desc": "the parsed OpenSSH key is not stored", "breaks": ["C33", "C67"]}}
{"mid": "s050", "lemmas": ["Thm_KeyFiles.marshal_private_spec", "Thm_Cli.C45_close_refuted", "Thm_Commands.C46_refuted", "Thm_Commands.town_akey", "Thm_Commands.C49_refuted", "Thm_Chain.town_skeyS", "Thm_Chain.sign1_code", "Thm_Chain.town_skey", "Thm_Chain.town1_akey", "Thm_Chain.c51_code", "Thm_Chain.c51_ops", "Thm_Chain.C53_refuted", "Thm_EndToEnd.g_key", "Thm_EndToEnd.s_code", "Thm_Pipe.c64_code", "Thm_Pipe.c64_akey", "Thm_KeySecret.C89_key_file_hides", "Thm_Parallel.C78_refuted_race"], "hard": [], "failed": ["C34_comment_refuted", "C34_private_round_trip_partial", "C42_stored_objects", "C43_pair_usable_partial", "C45_close_refuted", "C46_refuted", "C49_refuted", "C53_refuted", "C65_generate_encrypt_decrypt", "C66_generate_sign_verify", "C73_encrypt_words", "C73_sign_words", "C78_refuted_race", "C80_generate", "C80_marshal", "C80_sign", "C89_key_file_hides"], "secs": 214, "m": {"id": "s050", "edits": [["KeyFiles.v", "(take gcm_nonce_size salt)", "(zeros 12)"]], "definition": "marshal_private", "desc": "GCM nonce of the key file is zero", "breaks": ["C34", "C80"]}}
{"mid": "s052", "lemmas": ["EncryptProofs.wrap_key_spec", "Thm_Cli.C45_close_refuted", "Thm_Commands.C46_refuted", "Thm_Size.wrap_key_rng", "Thm_History.C60_refuted", "Thm_Secret.C82_recipients_hidden"], "hard": [], "failed": ["C01_encrypt_decrypt_round_trip", "C01_encrypt_succeeds", "C02_stream_round_trip", "C02_stream_writes_succeed", "C03_encrypted_file_streams", "C03_stream_file_decrypts", "C04_fragmentation_independent", "C04_stream_agrees_with_encrypt", "C04_stream_write_sizes_irrelevant", "C05_file_format", "C05_stream_format", "C06_chunks", "C06_stream_chunks", "C07_nonces_distinct_partial", "C07_refuted_counter_wraps", "C07_refuted_second_encrypt", "C07_stream_nonces_distinct_partial", "C08_tampered_header", "C08_tampered_stream_header", "C09_truncated_file", "C09_truncated_stream", "C10_complete_partial", "C10_refuted_truncation", "C10_stream_complete_partial", "C11_released_data_genuine", "C13_refuted_recipient_forges", "C14_refuted", "C16_own_entry_opens", "C16_recipients_agree", "C20_refuted", "C21_encrypt_errors_partial", "C23_chunk_size_partial", "C23_refuted", "C24_recipients_partial", "C24_refuted", "C27_writes", "C29_refuted", "C45_close_refuted", "C46_refuted", "C48_encrypt_succeeds", "C51_encrypt_then_decrypt", "C56_encrypt_ends", "C57_encrypt_size", "C57_stream_size", "C58_file_randomness", "C58_session_randomness", "C58_stream_randomness", "C59_encrypt_against_stream", "C60_refuted", "C61_rejected_exactly", "C63_output_genuine", "C64_pipeline", "C65_generate_encrypt_decrypt", "C72_unverified_refuted", "C73_encrypt_words", "C76_origin_partial", "C76_stream_origin_partial", "C81_content_hidden", "C81_stream_content_hidden", "C82_recipients_hidden", "C83_anonymous", "C83_sender_hidden", "C84_many_files_partial", "C84_next_file_untouched_partial", "C84_refuted", "C85_encryptor_never_panics", "C87_follow_along", "C88_any_form"], "secs": 276, "m": {"id": "s052", "edits": [["Encrypt.v", "(gcm_seal C ae nonce (e_key e) (pk_Pk pk)) rbuf []", "(gcm_seal C ae nonce (e_key e) (pk_Pk pk)) (take 12 (pk_Pk pk)) []"]], "definition": "wrap_key", "desc": "the recipient is named by the nonce", "breaks": ["C82", "C58"]}}
{"mid": "s053", "lemmas": ["EncryptProofs.add_sender_sig_spec", "Scene.file2_made", "Thm_Commands.C44_refuted", "Thm_Commands.C46_refuted", "Thm_EndToEnd.g_code", "Thm_EndToEnd.enc_ops3"], "hard": [], "failed": ["C01_encrypt_decrypt_round_trip", "C01_encrypt_succeeds", "C02_stream_round_trip", "C02_stream_writes_succeed", "C03_encrypted_file_streams", "C03_stream_file_decrypts", "C04_fragmentation_independent", "C04_stream_agrees_with_encrypt", "C04_stream_write_sizes_irrelevant", "C05_file_format", "C05_stream_format", "C06_chunks", "C06_stream_chunks", "C07_nonces_distinct_partial", "C07_refuted_counter_wraps", "C07_refuted_second_encrypt", "C07_stream_nonces_distinct_partial", "C08_tampered_header", "C08_tampered_stream_header", "C09_truncated_file", "C09_truncated_stream", "C10_complete_partial", "C10_refuted_truncation", "C10_stream_complete_partial", "C11_released_data_genuine", "C13_refuted_recipient_forges", "C14_refuted", "C16_own_entry_opens", "C16_recipients_agree", "C20_refuted", "C21_encrypt_errors_partial", "C23_chunk_size_partial", "C23_refuted", "C24_recipients_partial", "C24_refuted", "C27_writes", "C29_refuted", "C44_refuted", "C46_refuted", "C48_encrypt_succeeds", "C51_encrypt_then_decrypt", "C56_encrypt_ends", "C57_encrypt_size", "C57_stream_size", "C58_file_randomness", "C58_stream_randomness", "C59_encrypt_against_stream", "C61_rejected_exactly", "C63_output_genuine", "C64_pipeline", "C65_generate_encrypt_decrypt", "C72_unverified_refuted", "C73_encrypt_words", "C76_origin_partial", "C76_stream_origin_partial", "C81_content_hidden", "C81_stream_content_hidden", "C82_recipients_hidden", "C83_anonymous", "C83_sender_hidden", "C84_many_files_partial", "C84_next_file_untouched_partial", "C84_refuted", "C85_encryptor_never_panics", "C87_follow_along", "C88_any_form"], "secs": 296, "m": {"id": "s053", "edits": [["Encrypt.v", "| None => Ok (zeros sig_size, false)", "| None => Ok (zeros sig_size, true)"]], "definition": "add_sender_sig", "desc": "an unsigned file claims a signature", "breaks": ["C01", "C85"]}}
{"mid": "s054", "lemmas": ["EncryptProofs.write_trailer_spec"], "hard": [], "failed": ["C01_encrypt_decrypt_round_trip", "C01_encrypt_succeeds", "C02_stream_round_trip", "C02_stream_writes_succeed", "C03_encrypted_file_streams", "C03_stream_file_decrypts", "C04_fragmentation_independent", "C04_stream_agrees_with_encrypt", "C04_stream_write_sizes_irrelevant", "C05_file_format", "C05_stream_format", "C06_chunks", "C06_stream_chunks", "C07_nonces_distinct_partial", "C07_refuted_counter_wraps", "C07_refuted_second_encrypt", "C07_stream_nonces_distinct_partial", "C08_tampered_header", "C08_tampered_stream_header", "C09_truncated_file", "C09_truncated_stream", "C10_complete_partial", "C10_refuted_truncation", "C10_stream_complete_partial", "C11_released_data_genuine", "C13_refuted_recipient_forges", "C14_refuted", "C16_recipients_agree", "C20_refuted", "C21_encrypt_errors_partial", "C23_refuted", "C24_recipients_partial", "C24_refuted", "C27_writes", "C29_refuted", "C48_encrypt_succeeds", "C51_encrypt_then_decrypt", "C56_encrypt_ends", "C57_encrypt_size", "C57_stream_size", "C58_file_randomness", "C58_stream_randomness", "C59_encrypt_against_stream", "C63_output_genuine", "C64_pipeline", "C65_generate_encrypt_decrypt", "C72_unverified_refuted", "C73_encrypt_words", "C76_origin_partial", "C76_stream_origin_partial", "C81_content_hidden", "C81_stream_content_hidden", "C83_anonymous", "C83_sender_hidden", "C84_many_files_partial", "C84_next_file_untouched_partial", "C84_refuted", "C85_encryptor_never_panics", "C87_follow_along", "C88_any_form"], "secs": 264, "m": {"id": "s054", "edits": [["Encrypt.v", "let '(r, g) := rand_buf sig_size g in (Ok r, g)", "(Ok (match e_hmac e with Some (k, d) => sha512 C d | None => [] end), g)"]], "definition": "write_trailer", "desc": "hash of the plaintext as trailer of unsigned files", "breaks": ["C81", "C58"]}}
{"mid": "s055", "lemmas": ["EncryptProofs.write_trailer_spec", "Thm_Cli.C45_close_refuted", "Thm_Secret.write_trailer_same"], "hard": [], "failed": ["C01_encrypt_decrypt_round_trip", "C01_encrypt_succeeds", "C02_stream_round_trip", "C02_stream_writes_succeed", "C03_encrypted_file_streams", "C03_stream_file_decrypts", "C04_fragmentation_independent", "C04_stream_agrees_with_encrypt", "C04_stream_write_sizes_irrelevant", "C05_file_format", "C05_stream_format", "C06_chunks", "C06_stream_chunks", "C07_nonces_distinct_partial", "C07_refuted_counter_wraps", "C07_refuted_second_encrypt", "C07_stream_nonces_distinct_partial", "C08_tampered_header", "C08_tampered_stream_header", "C09_truncated_file", "C09_truncated_stream", "C10_complete_partial", "C10_refuted_truncation", "C10_stream_complete_partial", "C11_released_data_genuine", "C13_refuted_recipient_forges", "C14_refuted", "C16_recipients_agree", "C20_refuted", "C21_encrypt_errors_partial", "C23_refuted", "C24_recipients_partial", "C24_refuted", "C27_writes", "C29_refuted", "C45_close_refuted", "C48_encrypt_succeeds", "C51_encrypt_then_decrypt", "C56_encrypt_ends", "C57_encrypt_size", "C57_stream_size", "C58_file_randomness", "C58_stream_randomness", "C59_encrypt_against_stream", "C63_output_genuine", "C64_pipeline", "C65_generate_encrypt_decrypt", "C72_unverified_refuted", "C73_encrypt_words", "C76_origin_partial", "C76_stream_origin_partial", "C81_content_hidden", "C81_stream_content_hidden", "C82_recipients_hidden", "C83_anonymous", "C83_sender_hidden", "C84_many_files_partial", "C84_next_file_untouched_partial", "C84_refuted", "C85_encryptor_never_panics", "C87_follow_along", "C88_any_form"], "secs": 266, "m": {"id": "s055", "edits": [["Encrypt.v", "sign_message C sk (hmac_sha256 C k d)", "sign_message C sk (sha256 C d)"]], "definition": "write_trailer", "desc": "the trailer signs the plaintext without a key", "breaks": ["C01", "C13"]}}
{"mid": "s056", "lemmas": ["EncryptProofs.new_encryptor_spec", "Thm_Cli.C45_close_refuted", "Thm_History.C60_refuted", "Thm_Sender.session_from"], "hard": [], "failed": ["C01_encrypt_decrypt_round_trip", "C01_encrypt_succeeds", "C02_stream_round_trip", "C02_stream_writes_succeed", "C03_encrypted_file_streams", "C03_stream_file_decrypts", "C04_fragmentation_independent", "C04_stream_agrees_with_encrypt", "C04_stream_write_sizes_irrelevant", "C05_file_format", "C05_stream_format", "C06_chunks", "C06_stream_chunks", "C07_nonces_distinct_partial", "C07_refuted_counter_wraps", "C07_refuted_second_encrypt", "C07_stream_nonces_distinct_partial", "C08_tampered_header", "C08_tampered_stream_header", "C09_truncated_file", "C09_truncated_stream", "C10_complete_partial", "C10_refuted_truncation", "C10_stream_complete_partial", "C11_released_data_genuine", "C13_refuted_recipient_forges", "C14_refuted", "C16_own_entry_opens", "C16_recipients_agree", "C20_refuted", "C21_encrypt_errors_partial", "C23_chunk_size_partial", "C23_refuted", "C24_recipients_partial", "C24_refuted", "C27_writes", "C29_refuted", "C45_close_refuted", "C48_encrypt_succeeds", "C51_encrypt_then_decrypt", "C56_encrypt_ends", "C57_encrypt_size", "C57_stream_size", "C58_file_randomness", "C58_stream_randomness", "C59_encrypt_against_stream", "C60_refuted", "C61_rejected_exactly", "C63_output_genuine", "C64_pipeline", "C65_generate_encrypt_decrypt", "C72_unverified_refuted", "C73_encrypt_words", "C76_origin_partial", "C76_stream_origin_partial", "C81_content_hidden", "C81_stream_content_hidden", "C82_recipients_hidden", "C83_anonymous", "C83_sender_hidden", "C84_many_files_partial", "C84_next_file_untouched_partial", "C84_refuted", "C85_encryptor_never_panics", "C87_follow_along", "C88_any_form"], "secs": 264, "m": {"id": "s056", "edits": [["Encrypt.v", "mkHeader blksz salt epk snd_ [] []", "mkHeader blksz salt epk (match sk with Some k => snd_ ++ pk_Pk (sk_pk k) | None => snd_ end) [] []"]], "definition": "new_encryptor", "desc": "sender in clear in the header", "breaks": ["C83", "C05"]}}
{"mid": "s057", "lemmas": ["EncryptProofs.enc_start_spec", "Thm_Cli.C45_close_refuted", "Thm_Commands.C46_refuted", "Thm_History.C60_refuted"], "hard": [], "failed": ["C01_encrypt_decrypt_round_trip", "C01_encrypt_succeeds", "C02_stream_round_trip", "C02_stream_writes_succeed", "C03_encrypted_file_streams", "C03_stream_file_decrypts", "C04_fragmentation_independent", "C04_stream_agrees_with_encrypt", "C04_stream_write_sizes_irrelevant", "C05_file_format", "C05_stream_format", "C06_chunks", "C06_stream_chunks", "C07_nonces_distinct_partial", "C07_refuted_counter_wraps", "C07_refuted_second_encrypt", "C07_stream_nonces_distinct_partial", "C08_tampered_header", "C08_tampered_stream_header", "C09_truncated_file", "C09_truncated_stream", "C10_complete_partial", "C10_refuted_truncation", "C10_stream_complete_partial", "C11_released_data_genuine", "C13_refuted_recipient_forges", "C14_refuted", "C16_recipients_agree", "C20_refuted", "C21_encrypt_errors_partial", "C23_refuted", "C24_recipients_partial", "C24_refuted", "C27_writes", "C29_refuted", "C45_close_refuted", "C46_refuted", "C48_encrypt_succeeds", "C51_encrypt_then_decrypt", "C56_encrypt_ends", "C57_encrypt_size", "C57_stream_size", "C58_file_randomness", "C58_stream_randomness", "C59_encrypt_against_stream", "C60_refuted", "C63_output_genuine", "C64_pipeline", "C65_generate_encrypt_decrypt", "C72_unverified_refuted", "C73_encrypt_words", "C76_origin_partial", "C76_stream_origin_partial", "C81_content_hidden", "C81_stream_content_hidden", "C83_anonymous", "C83_sender_hidden", "C84_many_files_partial", "C84_next_file_untouched_partial", "C84_refuted", "C85_encryptor_never_panics", "C87_follow_along", "C88_any_form"], "secs": 261, "m": {"id": "s057", "edits": [["Encrypt.v", "let cksum := sha256 C hdr in", "let cksum := sha256 C (hdr ++ e_key e) in"]], "definition": "enc_start", "desc": "header checksum covers the file key", "breaks": ["C01", "C05"]}}
{"mid": "s059", "lemmas": ["EncryptProofs.enc_loop_S", "Thm_Crash.enc_loop_any"], "hard": [], "failed": ["C01_encrypt_decrypt_round_trip", "C01_encrypt_succeeds", "C02_stream_round_trip", "C03_encrypted_file_streams", "C03_stream_file_decrypts", "C04_fragmentation_independent", "C04_stream_agrees_with_encrypt", "C05_file_format", "C06_chunks", "C07_nonces_distinct_partial", "C07_refuted_counter_wraps", "C07_refuted_second_encrypt", "C08_tampered_header", "C09_truncated_file", "C09_truncated_stream", "C10_complete_partial", "C10_refuted_truncation", "C10_stream_complete_partial", "C11_released_data_genuine", "C13_refuted_recipient_forges", "C14_refuted", "C16_recipients_agree", "C17_every_history", "C17_no_recipient_after_start", "C18_encrypt_every_history", "C20_refuted", "C21_encrypt_errors_partial", "C23_refuted", "C24_recipients_partial", "C24_refuted", "C29_refuted", "C44_old_or_new_partial", "C48_encrypt_exact", "C48_encrypt_succeeds", "C48_unresolved", "C51_encrypt_then_decrypt", "C56_encrypt_ends", "C57_encrypt_size", "C58_file_randomness", "C59_encrypt_against_stream", "C63_output_genuine", "C64_encrypt_to_stdout", "C64_pipeline", "C65_generate_encrypt_decrypt", "C70_one_file_per_encryptor", "C72_unverified_refuted", "C73_encrypt_words", "C74_failure_changes_nothing_partial", "C76_origin_partial", "C76_stream_origin_partial", "C81_content_hidden", "C83_anonymous", "C83_sender_hidden", "C84_many_files_partial", "C84_next_file_untouched_partial", "C84_refuted", "C85_encryptor_never_panics", "C88_any_form"], "secs": 355, "m": {"id": "s059", "edits": [["Encrypt.v", "| Some IoEOF | Some ErrClosedPipe | Some ErrUnexpectedEOF", "| Some IoEOF | Some ErrUnexpectedEOF"]], "definition": "enc_loop", "desc": "a closed pipe is an error", "breaks": ["C21"]}}
{"mid": "s058", "lemmas": ["EncryptProofs.enc_start_spec", "Scene.file1_made", "Scene.file2_made", "Thm_Cli.C45_close_refuted", "Thm_Commands.C44_refuted", "Thm_Commands.C46_refuted", "Thm_Chain.c51_code", "Thm_Chain.c51_ops", "Thm_Stream.file3_made", "Thm_StreamFormat.stream_out1", "Thm_StreamFormat.stream_out2", "Thm_EndToEnd.g_code", "Thm_EndToEnd.enc_ops3", "Thm_Pipe.c64_code", "Thm_History.C60_refuted", "Thm_Limits.C21_refuted"], "hard": [], "failed": ["C01_encrypt_decrypt_round_trip", "C01_encrypt_succeeds", "C02_stream_round_trip", "C02_stream_writes_succeed", "C03_encrypted_file_streams", "C03_stream_file_decrypts", "C04_fragmentation_independent", "C04_stream_agrees_with_encrypt", "C04_stream_write_sizes_irrelevant", "C05_file_format", "C05_stream_format", "C06_chunks", "C06_stream_chunks", "C07_nonces_distinct_partial", "C07_refuted_counter_wraps", "C07_refuted_second_encrypt", "C07_stream_nonces_distinct_partial", "C08_tampered_header", "C08_tampered_stream_header", "C09_truncated_file", "C09_truncated_stream", "C10_complete_partial", "C10_refuted_truncation", "C10_stream_complete_partial", "C11_released_data_genuine", "C13_refuted_recipient_forges", "C14_refuted", "C16_recipients_agree", "C20_refuted", "C21_encrypt_errors_partial", "C21_refuted", "C23_refuted", "C24_recipients_partial", "C24_refuted", "C27_writes", "C29_refuted", "C44_refuted", "C45_close_refuted", "C46_refuted", "C48_encrypt_succeeds", "C51_encrypt_then_decrypt", "C56_encrypt_ends", "C57_encrypt_size", "C57_stream_size", "C58_file_randomness", "C58_stream_randomness", "C59_encrypt_against_stream", "C60_refuted", "C63_output_genuine", "C64_pipeline", "C65_generate_encrypt_decrypt", "C72_unverified_refuted", "C73_encrypt_words", "C76_origin_partial", "C76_stream_origin_partial", "C81_content_hidden", "C81_stream_content_hidden", "C83_anonymous", "C83_sender_hidden", "C84_many_files_partial", "C84_next_file_untouched_partial", "C84_refuted", "C85_encryptor_never_panics", "C87_follow_along", "C88_any_form"], "secs": 412, "m": {"id": "s058", "edits": [["Encrypt.v", "(u32 (h_chunk (e_hdr e) + 4 + gcm_overhead))", "(u32 (h_chunk (e_hdr e) + gcm_overhead))"]], "definition": "enc_start", "desc": "I/O buffer four bytes short", "breaks": ["C01", "C85"]}}
{"mid": "s060", "lemmas": ["EncryptProofs.enc_block_spec", "Thm_Calls.enc_block_headless", "Thm_Commands.C46_refuted"], "hard": [], "failed": ["C01_encrypt_decrypt_round_trip", "C01_encrypt_succeeds", "C02_stream_round_trip", "C02_stream_writes_succeed", "C03_encrypted_file_streams", "C03_stream_file_decrypts", "C04_fragmentation_independent", "C04_stream_agrees_with_encrypt", "C04_stream_write_sizes_irrelevant", "C05_file_format", "C05_stream_format", "C06_chunks", "C06_stream_chunks", "C07_nonces_distinct_partial", "C07_refuted_counter_wraps", "C07_refuted_second_encrypt", "C07_stream_nonces_distinct_partial", "C08_tampered_header", "C08_tampered_stream_header", "C09_truncated_file", "C09_truncated_stream", "C10_complete_partial", "C10_refuted_truncation", "C10_stream_complete_partial", "C11_released_data_genuine", "C13_refuted_recipient_forges", "C14_refuted", "C16_recipients_agree", "C20_refuted", "C21_encrypt_errors_partial", "C23_refuted", "C24_recipients_partial", "C24_refuted", "C27_writes", "C29_refuted", "C46_refuted", "C48_encrypt_succeeds", "C51_encrypt_then_decrypt", "C56_encrypt_ends", "C57_encrypt_size", "C57_stream_size", "C58_file_randomness", "C58_stream_randomness", "C59_encrypt_against_stream", "C63_output_genuine", "C64_pipeline", "C65_generate_encrypt_decrypt", "C70_one_file_per_encryptor", "C72_unverified_refuted", "C73_encrypt_words", "C76_origin_partial", "C76_stream_origin_partial", "C81_content_hidden", "C81_stream_content_hidden", "C83_anonymous", "C83_sender_hidden", "C84_many_files_partial", "C84_next_file_untouched_partial", "C84_refuted", "C85_encryptor_never_panics", "C87_follow_along", "C88_any_form"], "secs": 318, "m": {"id": "s060", "edits": [["Encrypt.v", "if eof then Z.lor z eof_bit else z", "if eof && negb (len pt =? 0) then Z.lor z eof_bit else z"]], "definition": "enc_block", "desc": "an empty last chunk is not marked", "breaks": ["C06", "C01"]}}
{"mid": "s061", "lemmas": ["DecryptProofs.dec_chunk_spec", "DecryptProofs.dec_chunk_frame", "Hostile.dec_chunk_any", "Thm_Amplify.dec_chunk_left", "Thm_Stream.dec_chunk_unopened"], "hard": [], "failed": ["C01_encrypt_decrypt_round_trip", "C02_stream_round_trip", "C03_encrypted_file_streams", "C03_stream_file_decrypts", "C09_truncated_file", "C09_truncated_stream", "C10_complete_partial", "C10_refuted_truncation", "C10_stream_complete_partial", "C11_released_data_genuine", "C13_content_signed_partial", "C13_refuted_recipient_forges", "C13_stream_signed_partial", "C14_refuted", "C20_every_history_partial", "C20_no_panic_partial", "C28_read_discipline", "C29_refuted", "C29_single_reader_partial", "C51_encrypt_then_decrypt", "C56_decrypt_ends", "C63_output_genuine", "C64_pipeline", "C65_generate_encrypt_decrypt", "C69_stream_and_decrypt_agree", "C73_encrypt_words", "C76_origin_partial", "C76_stream_origin_partial", "C84_many_files_partial", "C84_next_file_untouched_partial", "C84_refuted", "C86_no_amplification", "C87_follow_along", "C88_any_form"], "secs": 297, "m": {"id": "s061", "edits": [["Decrypt.v", "if h_chunk (d_hdr d) <? m then", "if max_chunk <? m then"]], "definition": "dec_chunk", "desc": "chunks larger than the header says", "breaks": ["C20", "C19"]}}
{"mid": "s062", "lemmas": ["DecryptProofs.process_trailer_spec", "DecryptProofs.process_trailer_ok", "Hostile.process_trailer_any", "Thm_Amplify.process_trailer_left", "Thm_Cli.C45_close_refuted", "Thm_NoPanic.dec_chunk_hdr"], "hard": [], "failed": ["C01_encrypt_decrypt_round_trip", "C02_stream_round_trip", "C03_encrypted_file_streams", "C03_stream_file_decrypts", "C09_truncated_file", "C09_truncated_stream", "C10_complete_partial", "C10_refuted_truncation", "C10_stream_complete_partial", "C11_released_data_genuine", "C13_content_signed_partial", "C13_refuted_recipient_forges", "C13_stream_signed_partial", "C14_refuted", "C20_every_history_partial", "C20_no_panic_partial", "C28_read_discipline", "C29_refuted", "C29_single_reader_partial", "C45_close_refuted", "C51_encrypt_then_decrypt", "C56_decrypt_ends", "C63_output_genuine", "C64_pipeline", "C65_generate_encrypt_decrypt", "C69_stream_and_decrypt_agree", "C73_encrypt_words", "C76_origin_partial", "C76_stream_origin_partial", "C84_many_files_partial", "C84_next_file_untouched_partial", "C84_refuted", "C86_no_amplification", "C87_follow_along", "C88_any_form"], "secs": 270, "m": {"id": "s062", "edits": [["Decrypt.v", "read_full (d_rd d) sig_size", "read_full (d_rd d) (sig_size + 1)"]], "definition": "process_trailer", "desc": "one byte more than the trailer is read", "breaks": ["C84", "C01"]}}
{"mid": "s063", "lemmas": ["DecryptProofs.process_trailer_spec", "Hostile.process_trailer_any", "Thm_Session.process_trailer_flags", "Thm_Calls.process_trailer_eof", "Thm_Amplify.process_trailer_left", "Thm_NoPanic.dec_chunk_hdr"], "hard": [], "failed": ["C01_encrypt_decrypt_round_trip", "C02_stream_round_trip", "C03_encrypted_file_streams", "C03_stream_file_decrypts", "C09_truncated_file", "C09_truncated_stream", "C10_complete_partial", "C10_refuted_truncation", "C10_stream_complete_partial", "C11_released_data_genuine", "C13_content_signed_partial", "C13_refuted_recipient_forges", "C13_stream_signed_partial", "C14_refuted", "C18_decrypt_after_stream_reader", "C18_decrypt_every_history", "C18_nothing_after_decrypt", "C18_nothing_after_decrypt_every_history", "C20_every_history_partial", "C20_no_panic_partial", "C28_read_discipline", "C29_refuted", "C29_single_reader_partial", "C51_encrypt_then_decrypt", "C56_decrypt_ends", "C63_output_genuine", "C64_pipeline", "C65_generate_encrypt_decrypt", "C69_stream_and_decrypt_agree", "C73_encrypt_words", "C76_origin_partial", "C76_stream_origin_partial", "C84_many_files_partial", "C84_next_file_untouched_partial", "C84_refuted", "C86_no_amplification", "C87_follow_along", "C88_any_form"], "secs": 271, "m": {"id": "s063", "edits": [["Decrypt.v", "| Some x => (d', Fail (EWrap \"decrypt: premature EOF while reading trailer\" x))", "| Some x => if d_auth d then (d', Fail (EWrap \"decrypt: premature EOF while reading trailer\" x)) else (d', Ok (m, true))"]], "definition": "process_trailer", "desc": "missing trailer accepted without sender", "breaks": ["C09", "C10"]}}
{"mid": "s064", "lemmas": ["OpenProofs.set_private_key_spec", "RoundTrip.opened_by_intro", "Thm_Cli.C45_close_refuted", "Thm_Commands.C46_refuted", "Thm_Crash.set_any", "Thm_History.set_shape", "Thm_NoPanic.dstep_quiet"], "hard": [], "failed": ["C01_encrypt_decrypt_round_trip", "C02_stream_round_trip", "C03_encrypted_file_streams", "C03_stream_file_decrypts", "C09_truncated_file", "C09_truncated_stream", "C10_complete_partial", "C10_refuted_truncation", "C10_stream_complete_partial", "C11_released_data_genuine", "C12_authenticated_means_signed", "C13_content_signed_partial", "C13_refuted_recipient_forges", "C13_stream_signed_partial", "C14_refuted", "C14_signed_file_partial", "C16_recipients_agree", "C20_every_history_partial", "C20_no_panic_partial", "C28_read_discipline", "C29_refuted", "C29_single_reader_partial", "C45_close_refuted", "C46_refuted", "C46_sender_partial", "C51_encrypt_then_decrypt", "C56_decrypt_ends", "C60_authenticated_exactly", "C60_last_call_decides_partial", "C63_output_genuine", "C64_pipeline", "C65_generate_encrypt_decrypt", "C69_stream_and_decrypt_agree", "C73_encrypt_words", "C76_origin_partial", "C76_stream_origin_partial", "C84_many_files_partial", "C84_next_file_untouched_partial", "C84_refuted", "C87_follow_along", "C88_any_form"], "secs": 286, "m": {"id": "s064", "edits": [["Decrypt.v", "mkDec (d_hdr d) (Some ae) (Some (hmackey, [])) senderPk (d_rd d) []\n                     (h_chunk (d_hdr d) + gcm_overhead)", "mkDec (d_hdr d) (Some ae) (Some (hmackey, [])) senderPk (d_rd d) []\n                     (h_chunk (d_hdr d))"]], "definition": "set_private_key", "desc": "decrypt buffer too small", "breaks": ["C01", "C20"]}}
{"mid": "s065", "lemmas": ["OpenProofs.unwrap_key_spec", "Thm_Cli.C45_close_refuted", "Thm_Commands.C46_refuted", "Thm_History.C60_refuted"], "hard": [], "failed": ["C01_encrypt_decrypt_round_trip", "C02_stream_round_trip", "C03_encrypted_file_streams", "C03_stream_file_decrypts", "C09_truncated_file", "C09_truncated_stream", "C10_complete_partial", "C10_refuted_truncation", "C10_stream_complete_partial", "C11_released_data_genuine", "C12_authenticated_means_signed", "C13_content_signed_partial", "C13_refuted_recipient_forges", "C13_stream_signed_partial", "C14_refuted", "C14_signed_file_partial", "C15_not_a_recipient", "C16_recipients_agree", "C20_every_history_partial", "C20_no_panic_partial", "C20_refuted", "C28_read_discipline", "C29_refuted", "C29_single_reader_partial", "C45_close_refuted", "C46_refuted", "C46_sender_partial", "C51_encrypt_then_decrypt", "C60_authenticated_exactly", "C60_last_call_decides_partial", "C60_refuted", "C63_output_genuine", "C64_pipeline", "C65_generate_encrypt_decrypt", "C69_stream_and_decrypt_agree", "C72_unverified_refuted", "C73_encrypt_words", "C76_origin_partial", "C76_stream_origin_partial", "C84_many_files_partial", "C84_next_file_untouched_partial", "C84_refuted", "C87_follow_along", "C88_any_form"], "secs": 282, "m": {"id": "s065", "edits": [["Decrypt.v", "(w_dkey w) (pk_Pk (sk_pk sk))", "(w_dkey w) []"]], "definition": "unwrap_key", "desc": "AAD missing on unwrap", "breaks": ["C01", "C15"]}}
{"mid": "s066", "lemmas": ["OpenProofs.find_key_spec", "Thm_Crash.find_any", "Thm_History.C60_refuted"], "hard": [], "failed": ["C01_encrypt_decrypt_round_trip", "C02_stream_round_trip", "C03_encrypted_file_streams", "C03_stream_file_decrypts", "C09_truncated_file", "C09_truncated_stream", "C10_complete_partial", "C10_refuted_truncation", "C10_stream_complete_partial", "C11_released_data_genuine", "C12_authenticated_means_signed", "C13_content_signed_partial", "C13_refuted_recipient_forges", "C13_stream_signed_partial", "C14_refuted", "C14_signed_file_partial", "C15_not_a_recipient", "C16_recipients_agree", "C20_every_history_partial", "C20_no_panic_partial", "C20_refuted", "C28_read_discipline", "C29_refuted", "C29_single_reader_partial", "C46_sender_partial", "C51_encrypt_then_decrypt", "C56_decrypt_ends", "C60_authenticated_exactly", "C60_last_call_decides_partial", "C60_refuted", "C63_output_genuine", "C64_pipeline", "C65_generate_encrypt_decrypt", "C69_stream_and_decrypt_agree", "C72_unverified_refuted", "C73_encrypt_words", "C76_origin_partial", "C76_stream_origin_partial", "C84_many_files_partial", "C84_next_file_untouched_partial", "C84_refuted", "C87_follow_along", "C88_any_form"], "secs": 272, "m": {"id": "s066", "edits": [["Decrypt.v", "| (Ok None, sk') => find_key C h ks' sk'", "| (Ok None, sk') => (Fail ErrBadKey, sk')"]], "definition": "find_key", "desc": "only the first wrapped key is tried", "breaks": ["C16", "C01"]}}
{"mid": "s068", "lemmas": ["DecryptProofs.dec_loop_S", "Thm_Cli.C45_close_refuted", "Thm_Commands.C46_refuted"], "hard": [], "failed": ["C01_encrypt_decrypt_round_trip", "C02_stream_round_trip", "C03_encrypted_file_streams", "C03_stream_file_decrypts", "C09_truncated_file", "C10_complete_partial", "C10_refuted_truncation", "C11_released_data_genuine", "C13_content_signed_partial", "C13_refuted_recipient_forges", "C14_refuted", "C18_nothing_after_decrypt", "C18_nothing_after_decrypt_every_history", "C20_every_history_partial", "C20_no_panic_partial", "C21_decrypt_write_errors", "C44_old_or_new_partial", "C45_close_refuted", "C45_decrypt_succeeds", "C45_decrypt_to_file_partial", "C46_refuted", "C46_sender_partial", "C51_encrypt_then_decrypt", "C56_decrypt_ends", "C63_decrypt_to_stdout", "C63_output_genuine", "C64_pipeline", "C65_generate_encrypt_decrypt", "C69_stream_and_decrypt_agree", "C73_encrypt_words", "C74_failure_changes_nothing_partial", "C76_origin_partial", "C84_many_files_partial", "C84_next_file_untouched_partial", "C84_refuted", "C86_no_amplification", "C88_any_form"], "secs": 265, "m": {"id": "s068", "edits": [["Decrypt.v", "dec_loop C f d w (u32 (i + 1))", "dec_loop C f d w i"]], "definition": "dec_loop", "desc": "block number not advanced", "breaks": ["C01", "C02"]}}
{"mid": "s069", "lemmas": ["RoundTrip.decrypt_spec", "Support.decrypt_clean", "FreeProofs.decrypt_free", "FreeProofs.decrypt_willing", "Hostile.decrypt_any", "Thm_Session.C18_nothing_after_decrypt", "Thm_Calls.C18_nothing_after_decrypt_every_history", "Thm_Amplify.dstep_given", "Thm_Amplify.C86_no_amplification", "Thm_NoPanic.dstep_quiet"], "hard": [], "failed": ["C01_encrypt_decrypt_round_trip", "C02_stream_round_trip", "C03_encrypted_file_streams", "C03_stream_file_decrypts", "C09_truncated_file", "C10_complete_partial", "C10_refuted_truncation", "C11_released_data_genuine", "C13_content_signed_partial", "C13_refuted_recipient_forges", "C14_refuted", "C18_nothing_after_decrypt", "C18_nothing_after_decrypt_every_history", "C20_every_history_partial", "C20_no_panic_partial", "C21_decrypt_write_errors", "C44_old_or_new_partial", "C45_decrypt_succeeds", "C45_decrypt_to_file_partial", "C46_sender_partial", "C51_encrypt_then_decrypt", "C56_decrypt_ends", "C63_decrypt_to_stdout", "C63_output_genuine", "C64_pipeline", "C65_generate_encrypt_decrypt", "C69_stream_and_decrypt_agree", "C73_encrypt_words", "C74_failure_changes_nothing_partial", "C76_origin_partial", "C84_many_files_partial", "C84_next_file_untouched_partial", "C84_refuted", "C86_no_amplification", "C88_any_form"], "secs": 263, "m": {"id": "s069", "edits": [["Decrypt.v", "else if d_eof d then (d, w, Fail IoEOF)\n      else", "else"]], "definition": "decrypt", "desc": "a second Decrypt starts again", "breaks": ["C18"]}}
{"mid": "s070", "lemmas": ["StreamProofs.ew_loop_spec", "Thm_Session.ew_loop_flags", "Thm_Calls.ew_loop_hdr", "Thm_Calls.ew_loop_headless", "Thm_Stream.ew_loop_fail", "Thm_Secret.ew_loop_same", "Thm_NoPanic.ew_loop_calm"], "hard": [], "failed": ["C02_stream_round_trip", "C02_stream_writes_succeed", "C03_encrypted_file_streams", "C03_stream_file_decrypts", "C04_stream_agrees_with_encrypt", "C04_stream_write_sizes_irrelevant", "C05_stream_format", "C06_stream_chunks", "C07_stream_nonces_distinct_partial", "C08_tampered_stream_header", "C09_truncated_file", "C09_truncated_stream", "C10_complete_partial", "C10_refuted_truncation", "C10_stream_complete_partial", "C11_released_data_genuine", "C13_refuted_recipient_forges", "C14_refuted", "C17_every_history", "C17_no_recipient_after_start", "C18_encrypt_after_stream_writer", "C18_encrypt_every_history", "C20_refuted", "C27_sticky_errors", "C27_writes", "C29_refuted", "C57_stream_size", "C58_stream_randomness", "C59_encrypt_against_stream", "C63_output_genuine", "C70_one_file_per_encryptor", "C72_unverified_refuted", "C76_origin_partial", "C76_stream_origin_partial", "C81_stream_content_hidden", "C82_recipients_hidden", "C84_many_files_partial", "C84_next_file_untouched_partial", "C84_refuted", "C85_encryptor_never_panics", "C87_follow_along", "C88_any_form"], "secs": 231, "m": {"id": "s070", "edits": [["Stream.v", "if (len buf =? max) && (0 <? len b) then", "if (len buf =? max) then"]], "definition": "ew_loop", "desc": "a full buffer is flushed at once", "breaks": ["C59", "C06"]}}
{"mid": "s067", "lemmas": ["OpenProofs.verify_sender_spec"], "hard": ["Thm_Commands(timeout/mem)", "Thm_Chain", "Thm_Crash", "Thm_Dest", "Thm_EndToEnd", "Thm_Pipe", "Thm_Touch", "Thm_Fail", "Thm_Flags", "Thm_Forms", "Thm_Modes", "Thm_Parallel", "Thm_Signed", "Thm_Texts", "Thm_Words"], "failed": ["C01_encrypt_decrypt_round_trip", "C02_stream_round_trip", "C03_encrypted_file_streams", "C03_stream_file_decrypts", "C09_truncated_file", "C09_truncated_stream", "C10_complete_partial", "C10_refuted_truncation", "C10_stream_complete_partial", "C11_released_data_genuine", "C12_authenticated_means_signed", "C13_content_signed_partial", "C13_refuted_recipient_forges", "C13_stream_signed_partial", "C14_refuted", "C14_signed_file_partial", "C16_recipients_agree", "C20_every_history_partial", "C20_no_panic_partial", "C20_refuted", "C28_read_discipline", "C29_refuted", "C29_single_reader_partial", "C42_write_outcome", "C44_no_overwrite_partial", "C44_old_or_new_partial", "C44_refuted", "C46_refuted", "C46_sender_partial", "C47_verify_exact", "C49_refuted", "C49_sign_partial", "C51_encrypt_then_decrypt", "C52_sign_then_verify", "C53_crash_exactly_partial", "C53_refuted", "C54_refuted", "C54_round_trip_partial", "C54_string_exact", "C56_decrypt_ends", "C56_encrypt_ends", "C56_generate_ends", "C56_sign_ends", "C60_authenticated_exactly", "C60_last_call_decides_partial", "C62_verify_report", "C63_decrypt_to_stdout", "C63_output_genuine", "C64_encrypt_to_stdout", "C64_pipeline", "C65_generate_encrypt_decrypt", "C66_generate_sign_verify", "C68_only_outputs", "C69_stream_and_decrypt_agree", "C71_command", "C71_options", "C72_gen_p_refuted", "C72_readme_partial", "C72_sign_stdout_refuted", "C72_unverified_refuted", "C73_encrypt_words", "C73_sign_words", "C74_failure_changes_nothing_partial", "C74_generate_refuted", "C75_generated_pair", "C75_permissions", "C76_origin_partial", "C76_stream_origin_partial", "C77_concurrent_runs", "C78_history_partial", "C78_refuted_race", "C79_verified_file", "C79_verify_command", "C80_generate", "C80_marshal", "C80_sign", "C84_many_files_partial", "C84_next_file_untouched_partial", "C84_refuted", "C87_follow_along", "C88_any_form", "C90_one_destination"], "secs": 1078, "m": {"id": "s067", "edits": [["Decrypt.v", "if beq (zeros sig_size) sig then Ok false", "if beq (zeros sig_size) sig then Ok (match senderPk with Some _ => true | None => false end)"]], "definition": "verify_sender", "desc": "unsigned files authenticated by any expected sender", "breaks": ["C12"]}}
{"mid": "s071", "lemmas": ["StreamProofs.ew_close_spec", "Thm_Stream.C27_sticky_errors"], "hard": [], "failed": ["C02_stream_round_trip", "C02_stream_writes_succeed", "C03_encrypted_file_streams", "C03_stream_file_decrypts", "C04_stream_agrees_with_encrypt", "C04_stream_write_sizes_irrelevant", "C05_stream_format", "C06_stream_chunks", "C07_stream_nonces_distinct_partial", "C08_tampered_stream_header", "C09_truncated_file", "C09_truncated_stream", "C10_complete_partial", "C10_refuted_truncation", "C10_stream_complete_partial", "C11_released_data_genuine", "C13_refuted_recipient_forges", "C14_refuted", "C20_refuted", "C27_sticky_errors", "C29_refuted", "C57_stream_size", "C58_stream_randomness", "C59_encrypt_against_stream", "C63_output_genuine", "C72_unverified_refuted", "C76_origin_partial", "C76_stream_origin_partial", "C81_stream_content_hidden", "C84_many_files_partial", "C84_next_file_untouched_partial", "C84_refuted", "C88_any_form"], "secs": 224, "m": {"id": "s071", "edits": [["Stream.v", "mkEw [] (ew_blk s) (Some ErrClosed)", "mkEw [] (ew_blk s) None"]], "definition": "ew_close", "desc": "writes after Close are accepted", "breaks": ["C27"]}}
{"mid": "s072", "lemmas": ["StreamRead.er_read_spec", "StreamRead.read_all_tail", "Hostile.er_read_any", "Thm_Session.er_read_flags", "Thm_Amplify.er_read_left", "Thm_Stream.C28_sticky_errors", "Thm_Stream.C29_refuted", "Thm_Follow.er_read_opens", "Thm_NoPanic.er_read_calm", "Thm_NoPanic.er_read_hdr"], "hard": [], "failed": ["C02_stream_round_trip", "C03_encrypted_file_streams", "C03_stream_file_decrypts", "C09_truncated_stream", "C10_stream_complete_partial", "C11_released_data_genuine", "C13_stream_signed_partial", "C18_decrypt_after_stream_reader", "C18_decrypt_every_history", "C20_every_history_partial", "C20_no_panic_partial", "C28_read_discipline", "C28_sticky_errors", "C29_refuted", "C29_single_reader_partial", "C63_output_genuine", "C69_stream_and_decrypt_agree", "C76_stream_origin_partial", "C86_no_amplification", "C87_follow_along", "C88_any_form"], "secs": 250, "m": {"id": "s072", "edits": [["Stream.v", "if d_eof d then (d, mkEr", "if false then (d, mkEr"]], "definition": "er_read", "desc": "reading goes on after the last chunk", "breaks": ["C28"]}}
{"mid": "s073", "lemmas": ["StreamRead.er_deliver_spec", "Hostile.er_deliver_any", "Thm_Amplify.er_read_left", "Thm_Stream.C29_refuted"], "hard": [], "failed": ["C02_stream_round_trip", "C03_encrypted_file_streams", "C03_stream_file_decrypts", "C09_truncated_stream", "C10_stream_complete_partial", "C11_released_data_genuine", "C13_stream_signed_partial", "C20_no_panic_partial", "C28_read_discipline", "C29_refuted", "C29_single_reader_partial", "C63_output_genuine", "C69_stream_and_decrypt_agree", "C76_stream_origin_partial", "C86_no_amplification", "C87_follow_along", "C88_any_form"], "secs": 234, "m": {"id": "s073", "edits": [["Stream.v", "let m := Z.min n (er_len s) in", "let m := Z.min n (er_len s) - 1 in"]], "definition": "er_deliver", "desc": "one byte less delivered", "breaks": ["C28", "C02"]}}
{"mid": "s074", "lemmas": ["StreamRead.stream_read_spec", "Thm_Session.C18_decrypt_after_stream_reader", "Thm_Calls.C18_decrypt_every_history", "Thm_Decrypt.C20_no_panic_partial", "Thm_Stream.C28_read_discipline", "Thm_Stream.C29_refuted", "Thm_Follow.C87_follow_along"], "hard": [], "failed": ["C02_stream_round_trip", "C03_encrypted_file_streams", "C03_stream_file_decrypts", "C09_truncated_stream", "C10_stream_complete_partial", "C11_released_data_genuine", "C13_stream_signed_partial", "C18_decrypt_after_stream_reader", "C18_decrypt_every_history", "C20_no_panic_partial", "C28_read_discipline", "C29_refuted", "C29_single_reader_partial", "C63_output_genuine", "C69_stream_and_decrypt_agree", "C76_stream_origin_partial", "C87_follow_along", "C88_any_form"], "secs": 236, "m": {"id": "s074", "edits": [["Stream.v", "else (d_set_stream d, Ok", "else (d, Ok"]], "definition": "new_stream_reader", "desc": "Decrypt after NewStreamReader not refused", "breaks": ["C18"]}}
{"mid": "s075", "lemmas": ["Base64Proofs.val_crlf", "Base64Proofs.skip_nl_nil", "Base64Proofs.b64_dec_unbroken", "Base64Proofs.no_break_unbroken"], "hard": [], "failed": ["C32_signature_reading_exact", "C32_signature_round_trip", "C33_openssh_line", "C33_public_round_trip", "C33_yaml_exact", "C34_private_round_trip_partial", "C35_public_partial", "C36_private_panics_exactly", "C36_private_partial", "C36_private_refuted", "C36_public_panics_exactly", "C37_bad_blob_rejected", "C37_blob_exact", "C37_line_exact", "C37_line_partial", "C38_entries_partial", "C38_sound", "C40_decode_exact", "C40_refused", "C40_round_trip", "C42_stored_objects", "C43_pair_usable_partial", "C47_verify_exact", "C52_sign_then_verify", "C53_crash_exactly_partial", "C54_refuted", "C54_round_trip_partial", "C54_string_exact", "C56_decrypt_ends", "C56_encrypt_ends", "C56_sign_ends", "C62_verify_report", "C65_generate_encrypt_decrypt", "C66_generate_sign_verify", "C67_one_key", "C67_private_exact", "C67_public_exact", "C68_only_outputs", "C73_encrypt_words", "C73_sign_words", "C74_failure_changes_nothing_partial", "C75_permissions", "C77_concurrent_runs", "C78_history_partial", "C79_verify_command", "C88_any_form"], "secs": 188, "m": {"id": "s075", "edits": [["Base64.v", "Byte.eqb c x0a || Byte.eqb c x0d", "Byte.eqb c x0a"]], "definition": "is_crlf", "desc": "CR not skipped", "breaks": ["C40"]}}
{"mid": "s076", "lemmas": ["TrimProofs.white_forms"], "hard": [], "failed": ["C33_openssh_line", "C37_blob_exact", "C37_line_exact", "C67_public_exact", "C88_any_form"], "secs": 184, "m": {"id": "s076", "edits": [["GoText.v", "[xc2; x85]; ", ""]], "definition": "space_forms", "desc": "NEL not trimmed", "breaks": ["C37"]}}
{"mid": "s077", "lemmas": ["TextProofs.trim_core", "TextProofs.trim_part", "SshProofs.trim_head", "TrimProofs.trimmed_iff", "Thm_Ssh.C38_options_refuted", "Thm_Cli.town_auth", "Thm_Chain.c51_code", "Thm_Chain.c51_ops", "Thm_EndToEnd.g_auth", "Thm_Pipe.c64_code"], "hard": [], "failed": ["C33_openssh_line", "C37_blob_exact", "C37_line_exact", "C37_line_partial", "C38_entries_partial", "C38_options_refuted", "C38_sound", "C56_encrypt_ends", "C67_public_exact", "C88_any_form"], "secs": 215, "m": {"id": "s077", "edits": [["GoText.v", "let s := strip space_forms (List.length s) s in\n", ""]], "definition": "trim_space", "desc": "leading white space kept", "breaks": ["C37"]}}
{"mid": "s078", "lemmas": ["Thm_Sign.C30_signatures_verify", "Thm_Commands.sign_file_exact"], "hard": [], "failed": ["C30_generated_keys", "C30_signatures_verify", "C49_sign_partial", "C52_sign_then_verify", "C66_generate_sign_verify", "C73_sign_words", "C74_failure_changes_nothing_partial", "C80_sign", "C88_any_form"], "secs": 276, "m": {"id": "s078", "edits": [["Sign.v", "ck <- file_cksum C f ;; sign_message C sk ck", "ck <- file_cksum C f ;; sign_message C sk (take 32 ck)"]], "definition": "sign_file", "desc": "half of the file checksum signed", "breaks": ["C30", "C31"]}}
{"mid": "s079", "lemmas": ["Thm_Sign.file_cksum_holds"], "hard": [], "failed": ["C30_generated_keys", "C30_signatures_verify", "C31_file_signature_binds", "C47_verify_exact", "C49_sign_partial", "C52_sign_then_verify", "C53_crash_exactly_partial", "C62_verify_report", "C66_generate_sign_verify", "C68_only_outputs", "C73_sign_words", "C74_failure_changes_nothing_partial", "C75_permissions", "C77_concurrent_runs", "C78_history_partial", "C79_verified_file", "C79_verify_command", "C80_sign", "C88_any_form"], "secs": 250, "m": {"id": "s079", "edits": [["Sign.v", "(h ++ be64 sz)", "(h ++ be64 0)"]], "definition": "file_cksum", "desc": "length not hashed", "breaks": ["C31"]}}
