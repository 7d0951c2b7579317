{"mid": "x001", "lemmas": ["Thm_Usage.C100_usage_is_true"], "hard": [], "failed": ["C100_usage_is_true"], "secs": 5, "m": {"id": "x001", "edits": [["Usage.v", "sign, s          Sign", "sign, g          Sign"]], "definition": "usage_format", "desc": "sign listed with the short form g", "breaks": ["C100"]}}
{"mid": "x002", "lemmas": ["Thm_Usage.C100_usage_is_true"], "hard": [], "failed": ["C100_usage_is_true"], "secs": 6, "m": {"id": "x002", "edits": [["Usage.v", "  decrypt, d       Decrypt a file with a private key\n", ""]], "definition": "usage_format", "desc": "decrypt not listed", "breaks": ["C100"]}}
{"mid": "x003", "lemmas": ["Thm_Usage.C100_usage_is_true"], "hard": [], "failed": ["C100_usage_is_true"], "secs": 7, "m": {"id": "x003", "edits": [["Usage.v", "-v, --version", "-V, --version"]], "definition": "usage_format", "desc": "version listed with -V", "breaks": ["C100"]}}
{"mid": "x004", "lemmas": ["Thm_Usage.C100_usage_is_true"], "hard": [], "failed": ["C100_usage_is_true"], "secs": 7, "m": {"id": "x004", "edits": [["Usage.v", "generate|gen|g [options]", "keygen|gen|g [options]"]], "definition": "gen_format", "desc": "generate's usage says keygen", "breaks": ["C100"]}}
{"mid": "x005", "lemmas": [], "hard": [], "failed": [], "secs": 11, "m": {"id": "x005", "edits": [["Usage.v", "Definition gen_texts (T : tongue) (B : banner) : list bytes := [fill gen_format", "Definition gen_texts (T : tongue) (B : banner) : list bytes := [fill sign_format"]], "definition": "gen_texts", "desc": "usage of sign printed for generate", "breaks": ["C100"]}}
{"mid": "x006", "lemmas": ["Thm_Usage.C100_texts", "Thm_Usage.C100_options_missing_refuted"], "hard": [], "failed": ["C100_options_missing_refuted", "C100_texts"], "secs": 20, "m": {"id": "x006", "edits": [["Usage.v", "| Decrypt_ => wrong dec_flags (dec_texts T)", "| Decrypt_ => wrong dec_flags (enc_texts T)"]], "definition": "command_texts", "desc": "enc usage printed for decrypt", "breaks": ["C100"]}}
{"mid": "x007", "lemmas": ["Thm_Usage.C100_texts"], "hard": [], "failed": ["C100_texts"], "secs": 11, "m": {"id": "x007", "edits": [["Usage.v", "PGood _ _ => [] | _ => l end in\n  match c", "PGood _ _ => l | _ => l end in\n  match c"]], "definition": "command_texts", "desc": "usage printed also when the options are right", "breaks": ["C100"]}}
{"mid": "x008", "lemmas": ["Thm_Usage.C100_texts"], "hard": [], "failed": ["C100_texts"], "secs": 11, "m": {"id": "x008", "edits": [["Usage.v", "      if get_bool s (str \"version\") false then [version_text T B]\n      else if get_bool s (str \"help\") false then [usage_text T]", "      if get_bool s (str \"help\") false then [usage_text T]\n      else if get_bool s (str \"version\") false then [version_text T B]"]], "definition": "main_texts", "desc": "help before version", "breaks": ["C100"]}}
{"mid": "x009", "lemmas": ["Thm_Usage.C100_texts"], "hard": [], "failed": ["C100_texts"], "secs": 12, "m": {"id": "x009", "edits": [["Usage.v", "else if get_bool s (str \"help\") false then [usage_text T]", "else if get_bool s (str \"help\") false then [usage_text T; version_text T B]"]], "definition": "main_texts", "desc": "help prints the version too", "breaks": ["C100"]}}
{"mid": "x010", "lemmas": ["Thm_Usage.print_all_accepts"], "hard": [], "failed": ["C100_options_missing_refuted", "C100_texts"], "secs": 15, "m": {"id": "x010", "edits": [["Usage.v", "fold_left (fun w t => snd (fullwrite t w)) l w", "fold_left (fun w0 t => snd (fullwrite t w)) l w"]], "definition": "print_all", "desc": "only the last text printed", "breaks": ["C100"]}}
{"mid": "x011", "lemmas": ["Thm_Usage.C100_texts"], "hard": [], "failed": ["C100_texts"], "secs": 13, "m": {"id": "x011", "edits": [["Usage.v", "mkOut (x_code x) (x_ops x) (print_all", "mkOut (if main_texts T B argv then x_code x else 1) (x_ops x) (print_all"]], "definition": "main_shown", "desc": "status 1 after usage", "breaks": ["C100"]}}
{"mid": "x012", "lemmas": ["Thm_Flags.C71_command", "Thm_Zero.C99_misspelt_refuted"], "hard": [], "failed": ["C100_texts", "C71_command", "C72_unverified_refuted", "C73_encrypt_words", "C73_sign_words", "C99_every_command_line", "C99_misspelt_refuted", "C99_zero_partial"], "secs": 83, "m": {"id": "x012", "edits": [["Flags.v", "(fun argv => ended 0 (parse_args enc_flags", "(fun argv => ended 2 (parse_args enc_flags"]], "definition": "declared", "desc": "wrong options of encrypt end with 2 (what one would expect, not what the code does)", "breaks": ["C99", "C71"]}}
{"mid": "x013", "lemmas": ["Thm_Flags.C71_command"], "hard": [], "failed": ["C100_texts", "C71_command", "C72_unverified_refuted", "C73_encrypt_words", "C73_sign_words", "C99_every_command_line", "C99_zero_partial"], "secs": 73, "m": {"id": "x013", "edits": [["Flags.v", "(fun argv => ended 2 (parse_args sign_flags", "(fun argv => ended 0 (parse_args sign_flags"]], "definition": "declared", "desc": "wrong options of sign end with 0", "breaks": ["C99", "C71"]}}
{"mid": "x014", "lemmas": ["Thm_Flags.C71_command", "Thm_Told.C96_failure_is_reported"], "hard": [], "failed": ["C100_texts", "C71_command", "C72_unverified_refuted", "C73_encrypt_words", "C73_sign_words", "C96_failure_is_reported", "C99_every_command_line", "C99_zero_partial"], "secs": 77, "m": {"id": "x014", "edits": [["Flags.v", "if get_bool s (str \"help\") false then Quit 0 else Options (get_bool s (str \"quiet\")", "if get_bool s (str \"help\") false then Quit 1 else Options (get_bool s (str \"quiet\")"]], "definition": "declared", "desc": "help of verify ends with 1", "breaks": ["C71", "C99"]}}
{"mid": "x015", "lemmas": ["Thm_Flags.C71_options", "Thm_Flags.C71_command", "Thm_Flags.C72_gen_p_refuted", "Thm_Zero.C99_every_command_line", "Thm_Zero.C99_misspelt_refuted", "Thm_Usage.C100_options_missing_refuted"], "hard": [], "failed": ["C100_options_missing_refuted", "C100_texts", "C71_command", "C71_options", "C72_gen_p_refuted", "C72_unverified_refuted", "C73_encrypt_words", "C73_sign_words", "C99_every_command_line", "C99_misspelt_refuted", "C99_zero_partial"], "secs": 76, "m": {"id": "x015", "edits": [["Flags.v", "match p with PHelp | PBad => Quit code |", "match p with PHelp | PBad => f [] [] |"]], "definition": "ended", "desc": "wrong options are ignored", "breaks": ["C99", "C71"]}}
{"mid": "x016", "lemmas": ["Thm_Paths.clean_loop_is"], "hard": [], "failed": ["C101_clean", "C101_generate_names", "C101_spellings"], "secs": 4, "m": {"id": "x016", "edits": [["Paths.v", "Byte.eqb c2 x2e && at_end r2 then", "Byte.eqb c2 x2e && negb (match r2 with [] => true | _ => false end) && at_end r2 then"]], "definition": "clean_loop", "desc": "a trailing /.. is not seen", "breaks": ["C101"]}}
{"mid": "x017", "lemmas": ["Thm_Paths.clean_loop_is"], "hard": [], "failed": ["C101_clean", "C101_generate_names", "C101_spellings"], "secs": 4, "m": {"id": "x017", "edits": [["Paths.v", "else if negb rooted then", "else if true then"]], "definition": "clean_loop", "desc": ".. at the root is kept", "breaks": ["C101"]}}
{"mid": "x018", "lemmas": ["Thm_Paths.clean_loop_is"], "hard": [], "failed": ["C101_clean", "C101_generate_names", "C101_spellings"], "secs": 4, "m": {"id": "x018", "edits": [["Paths.v", "in clean_loop f rooted r2 out (len out)\n", "in clean_loop f rooted r2 out dotdot\n"]], "definition": "clean_loop", "desc": ".. goes back over ..", "breaks": ["C101"]}}
{"mid": "x019", "lemmas": ["Thm_Paths.back_to_spec"], "hard": [], "failed": ["C101_clean", "C101_generate_names", "C101_spellings"], "secs": 7, "m": {"id": "x019", "edits": [["Paths.v", "negb (Byte.eqb (nth w out x00) x2f) then back_to v", "true then back_to v"]], "definition": "back_to", "desc": "goes back too far", "breaks": ["C101"]}}
{"mid": "x020", "lemmas": ["Thm_Paths.back_to_spec"], "hard": [], "failed": ["C101_clean", "C101_generate_names", "C101_spellings"], "secs": 6, "m": {"id": "x020", "edits": [["Paths.v", "then back_to v out dotdot else Z.of_nat w", "then back_to v out dotdot else Z.of_nat w + 1"]], "definition": "back_to", "desc": "leaves the slash", "breaks": ["C101"]}}
{"mid": "x021", "lemmas": ["Thm_Paths.C101_clean"], "hard": [], "failed": ["C101_clean", "C101_generate_names", "C101_spellings"], "secs": 8, "m": {"id": "x021", "edits": [["Paths.v", "  | [] => [x2e]\n  | c :: p1", "  | [] => []\n  | c :: p1"]], "definition": "clean", "desc": "empty path stays empty", "breaks": ["C101"]}}
{"mid": "x022", "lemmas": ["Thm_Paths.clean_loop_is"], "hard": [], "failed": ["C101_clean", "C101_generate_names", "C101_spellings"], "secs": 3, "m": {"id": "x022", "edits": [["Paths.v", "if Byte.eqb c x2e && at_end r1 then", "if Byte.eqb c x2e && negb (at_end r1) then"]], "definition": "clean_loop", "desc": "names that begin with a dot are dropped", "breaks": ["C101"]}}
{"mid": "x023", "lemmas": ["Thm_Paths.clean_loop_is"], "hard": [], "failed": ["C101_clean", "C101_generate_names", "C101_spellings"], "secs": 4, "m": {"id": "x023", "edits": [["Paths.v", "then out ++ [x2f] else out in\n        clean_loop", "then out else out in\n        clean_loop"]], "definition": "clean_loop", "desc": "no slash between elements", "breaks": ["C101"]}}
{"mid": "x024", "lemmas": ["Thm_Paths.C101_program_name"], "hard": [], "failed": ["C101_program_name"], "secs": 9, "m": {"id": "x024", "edits": [["Paths.v", "rev (element (strip_slashes (rev p)))", "element (strip_slashes p)"]], "definition": "base", "desc": "the first element instead of the last", "breaks": ["C101"]}}
{"mid": "x025", "lemmas": ["Thm_Paths.C101_program_name"], "hard": [], "failed": ["C101_program_name"], "secs": 8, "m": {"id": "x025", "edits": [["Paths.v", "rev (element (strip_slashes (rev p)))", "rev (element (rev p))"]], "definition": "base", "desc": "trailing slashes not stripped", "breaks": ["C101"]}}
{"mid": "x026", "lemmas": ["Thm_Chain.c51_ops", "Thm_EndToEnd.gen_ops", "Thm_EndToEnd.enc_ops3", "Thm_Modes.reader_bits"], "hard": [], "failed": ["C75_who_may"], "secs": 180, "m": {"id": "x026", "edits": [["Fs.v", "u * 64 + g * 8 + o", "u * 64 - g * 8 + o"]], "definition": "oct", "desc": "group and others swapped in weight (v084 again, now with C75_who_may)", "breaks": ["C75"]}}
{"mid": "x027", "lemmas": ["Thm_Modes.owner_bits", "Thm_Modes.reader_bits"], "hard": [], "failed": ["C75_who_may"], "secs": 147, "m": {"id": "x027", "edits": [["Fs.v", "u * 64 + g * 8 + o", "u * 128 + g * 8 + o"]], "definition": "oct", "desc": "user bits one place up", "breaks": ["C75"]}}
{"mid": "x028", "lemmas": ["Thm_Loops.write_loop_runs"], "hard": [], "failed": ["C22_write_loop"], "secs": 415, "m": {"id": "x028", "edits": [["GoIO.v", "(k, e) :: s => let a := take k p in (len a, e,", "(k, e) :: s => let a := drop k p in (len a, e,"]], "definition": "w_write", "desc": "a Write takes the end of the buffer (v024 again, now with C22_write_loop)", "breaks": ["C22"]}}
{"mid": "x029", "lemmas": ["Thm_Loops.at_least_runs"], "hard": [], "failed": ["C21_read_loop"], "secs": 371, "m": {"id": "x029", "edits": [["GoIO.v", "if n <? len b then (take n b, None, (drop n b, e) :: r')\n      else (b, e, r')\n  end.\n\n(** the loop", "if n <? len b then (take n b, None, r')\n      else (b, e, r')\n  end.\n\n(** the loop"]], "definition": "rd_read", "desc": "a short Read loses the rest", "breaks": ["C21"]}}
