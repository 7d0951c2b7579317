{"mid": "u001", "lemmas": ["Thm_Midway.read_like"], "hard": [], "failed": ["C95_set_key_midway_partial"], "secs": 294, "m": {"id": "u001", "edits": [["Stream.v", "(er_blk s) None, if m <? len b", "(er_blk s) (Some IoEOF), if m <? len b"]], "definition": "er_read_kept", "desc": "kept data ends the stream (t029 again, now with C95)", "breaks": ["C95"]}}
{"mid": "u002", "lemmas": ["Thm_Told.sprintf_filled"], "hard": [], "failed": ["C96_texts"], "secs": 20, "m": {"id": "u002", "edits": [["Told.v", "Some s => Some (a ++ s) | None => None end\n      | [] =>", "Some s => Some (a ++ tl s) | None => None end\n      | [] =>"]], "definition": "sprintf", "desc": "values taken in the wrong order is impossible; a verb eats the byte after it", "breaks": ["C96"]}}
{"mid": "u003", "lemmas": [], "hard": [], "failed": [], "secs": 13, "m": {"id": "u003", "edits": [["Told.v", "Some s => Some (x25 :: s)", "Some s => Some (x25 :: x25 :: s)"]], "definition": "sprintf", "desc": "%% writes two percent signs", "breaks": ["none: no message has %%"]}}
{"mid": "u004", "lemmas": ["Thm_Told.C96_texts"], "hard": [], "failed": ["C96_texts"], "secs": 26, "m": {"id": "u004", "edits": [["Told.v", "if Byte.eqb (last s x00) x0a then s else s ++ [x0a]", "s ++ [x0a]"]], "definition": "warn", "desc": "newline appended always", "breaks": ["C96"]}}
{"mid": "u005", "lemmas": ["Thm_Told.C96_texts"], "hard": [], "failed": ["C96_texts"], "secs": 24, "m": {"id": "u005", "edits": [["Told.v", "if Byte.eqb (last s x00) x0a then s else s ++ [x0a]", "s"]], "definition": "warn", "desc": "newline never appended", "breaks": ["C96"]}}
{"mid": "u006", "lemmas": ["Thm_Told.C96_texts"], "hard": [], "failed": ["C96_texts"], "secs": 25, "m": {"id": "u006", "edits": [["Told.v", "argv0 ++ str \": \" ++ str", "argv0 ++ str \" \" ++ str"]], "definition": "warn", "desc": "no colon after the program name", "breaks": ["C96"]}}
{"mid": "u007", "lemmas": ["Thm_Told.C96_texts"], "hard": [], "failed": ["C96_texts"], "secs": 25, "m": {"id": "u007", "edits": [["Told.v", "sprintf (argv0 ++ str \": \" ++", "sprintf (str \": \" ++"]], "definition": "warn", "desc": "program name left out", "breaks": ["C96"]}}
{"mid": "u008", "lemmas": ["Thm_Told.talk_err", "Thm_Told.err_not_ok", "Thm_Told.decrypt_talk", "Thm_Told.encrypt_too_many", "Thm_Told.C96_no_sender_warning"], "hard": [], "failed": ["C96_every_bad_recipient_named", "C96_failure_is_reported", "C96_no_sender_warning", "C96_success_is_silent", "C96_texts"], "secs": 45, "m": {"id": "u008", "edits": [["Told.v", "match r with Fail x => [(\"%s\"%string, [tg_text T x])] | _ => [] end.\n\n(** as Cli", "match r with Fail x => [] | _ => [] end.\n\n(** as Cli"]], "definition": "die_err", "desc": "Die without a message", "breaks": ["C96"]}}
{"mid": "u009", "lemmas": ["Thm_Told.talk_err", "Thm_Told.decrypt_talk", "Thm_Told.C96_no_sender_warning"], "hard": [], "failed": ["C96_failure_is_reported", "C96_no_sender_warning", "C96_success_is_silent", "C96_texts"], "secs": 35, "m": {"id": "u009", "edits": [["Told.v", "Definition die_err {A} (T : tongue) (r : res A) : list msg := match r with Fail x => [(\"%s\"%string", "Definition die_err {A} (T : tongue) (r : res A) : list msg := match r with Fail x => [(\"%s: %s\"%string"]], "definition": "die_err", "desc": "Die with the format of two values", "breaks": ["C96"]}}
{"mid": "u010", "lemmas": ["Thm_Told.talk_with", "Thm_Told.decrypt_talk", "Thm_Told.encrypt_too_many", "Thm_Told.C96_no_sender_warning"], "hard": [], "failed": ["C96_every_bad_recipient_named", "C96_failure_is_reported", "C96_no_sender_warning", "C96_success_is_silent", "C96_texts"], "secs": 35, "m": {"id": "u010", "edits": [["Told.v", "mkOut c (sf_ops v m (wo_place W outfile) w) (wo_stdout W), ms)", "mkOut c (sf_ops v m (wo_place W outfile) w) (wo_stdout W), [])"]], "definition": "with_output_told", "desc": "messages of the body dropped when the output is a file", "breaks": ["C96"]}}
{"mid": "u011", "lemmas": ["Thm_Told.talk_with", "Thm_Told.decrypt_talk", "Thm_Told.encrypt_too_many", "Thm_Told.C96_no_sender_warning"], "hard": [], "failed": ["C96_every_bad_recipient_named", "C96_failure_is_reported", "C96_no_sender_warning", "C96_success_is_silent", "C96_texts"], "secs": 39, "m": {"id": "u011", "edits": [["Told.v", "let '(c, w, ms) := body (wo_stdout W) in (mkOut c [] w, ms)", "let '(c, w, ms) := body (wo_stdout W) in (mkOut c [] w, [])"]], "definition": "with_output_told", "desc": "messages of the body dropped on standard output", "breaks": ["C96"]}}
{"mid": "u012", "lemmas": ["Thm_Told.generate_talk"], "hard": [], "failed": ["C96_failure_is_reported", "C96_success_is_silent", "C96_texts"], "secs": 19, "m": {"id": "u012", "edits": [["Told.v", "done 1 [] [(\"Public/Private key files (%s, %s) exist. won't overwrite!\"%string, [skn; pkn])]", "done 1 [] []"]], "definition": "generate_told", "desc": "existing files: no message", "breaks": ["C96"]}}
{"mid": "u013", "lemmas": ["Thm_Told.generate_talk"], "hard": [], "failed": ["C96_failure_is_reported", "C96_success_is_silent", "C96_texts"], "secs": 19, "m": {"id": "u013", "edits": [["Told.v", "[skn; pkn]", "[skn]"]], "definition": "generate_told", "desc": "existing files: one file name missing", "breaks": ["C96"]}}
{"mid": "u014", "lemmas": ["Thm_Told.recipients_talk", "Thm_Told.encrypt_too_many"], "hard": [], "failed": ["C96_every_bad_recipient_named", "C96_failure_is_reported", "C96_success_is_silent", "C96_texts"], "secs": 25, "m": {"id": "u014", "edits": [["Told.v", "None => skip (\"can't find user %s in %s\"%string, [fn; authkeys])", "None => let '(r, ms) := recipients_told T C E W authkeys pka fns' e g (errs + 1) in (r, ms)"]], "definition": "recipients_told", "desc": "unknown user: counted but not named", "breaks": ["C96"]}}
{"mid": "u015", "lemmas": ["Thm_Told.recipients_talk"], "hard": [], "failed": ["C96_every_bad_recipient_named", "C96_failure_is_reported", "C96_success_is_silent", "C96_texts"], "secs": 21, "m": {"id": "u015", "edits": [["Told.v", "[fn; authkeys]", "[authkeys; fn]"]], "definition": "recipients_told", "desc": "unknown user: arguments swapped", "breaks": ["C96"]}}
{"mid": "u016", "lemmas": ["Thm_Told.recipients_talk", "Thm_Told.encrypt_too_many"], "hard": [], "failed": ["C96_every_bad_recipient_named", "C96_failure_is_reported", "C96_success_is_silent", "C96_texts"], "secs": 26, "m": {"id": "u016", "edits": [["Told.v", "(errs + 1) in (r, m :: ms)", "(errs + 1) in (r, ms ++ [m])"]], "definition": "recipients_told", "desc": "complaints in reverse order", "breaks": ["C96"]}}
{"mid": "u017", "lemmas": ["Thm_Told.recipients_same", "Thm_Told.recipients_talk", "Thm_Told.encrypt_too_many"], "hard": [], "failed": ["C82_recipients_hidden", "C96_every_bad_recipient_named", "C96_failure_is_reported", "C96_same_outcome", "C96_success_is_silent", "C96_texts"], "secs": 27, "m": {"id": "u017", "edits": [["Told.v", "| Fail x => skip (\"%s\"%string, [tg_text T x])", "| Fail x => if errs =? 0 then skip (\"%s\"%string, [tg_text T x]) else recipients_told T C E W authkeys pka fns' e g (errs + 1)"]], "definition": "recipients_told", "desc": "only the first unreadable key is named", "breaks": ["C96"]}}
{"mid": "u018", "lemmas": ["Thm_Reads.C97_encrypt", "Thm_Told.recipients_same", "Thm_Told.recipients_talk", "Thm_Told.encrypt_too_many"], "hard": [], "failed": ["C82_recipients_hidden", "C96_every_bad_recipient_named", "C96_failure_is_reported", "C96_same_outcome", "C96_success_is_silent", "C96_texts", "C97_encrypt"], "secs": 27, "m": {"id": "u018", "edits": [["Told.v", "| (e, _, g, Ok _) => recipients_told T C E W authkeys pka fns' e g errs", "| (e, _, g, Ok _) => let '(r, ms) := recipients_told T C E W authkeys pka fns' e g errs in (r, (\"%s\"%string, [fn]) :: ms)"]], "definition": "recipients_told", "desc": "a recipient that was added is complained about", "breaks": ["C96"]}}
{"mid": "u019", "lemmas": ["Thm_Told.enc_body_talk", "Thm_Told.encrypt_too_many"], "hard": [], "failed": ["C96_every_bad_recipient_named", "C96_failure_is_reported", "C96_success_is_silent", "C96_texts"], "secs": 23, "m": {"id": "u019", "edits": [["Told.v", "(1, w, ms ++ [(\"Too many errors!\"%string, [])])", "(1, w, ms)"]], "definition": "enc_body_told", "desc": "no final Too many errors", "breaks": ["none: each bad recipient is still named"]}}
{"mid": "u020", "lemmas": ["Thm_Told.enc_body_talk", "Thm_Told.encrypt_too_many"], "hard": [], "failed": ["C96_every_bad_recipient_named", "C96_failure_is_reported", "C96_success_is_silent", "C96_texts"], "secs": 26, "m": {"id": "u020", "edits": [["Told.v", "(1, w, ms ++ [(\"Too many errors!\"%string, [])])", "(1, w, [(\"Too many errors!\"%string, [])])"]], "definition": "enc_body_told", "desc": "complaints dropped at Too many errors", "breaks": ["C96"]}}
{"mid": "u021", "lemmas": ["Thm_Told.enc_body_talk", "Thm_Told.encrypt_too_many"], "hard": [], "failed": ["C96_every_bad_recipient_named", "C96_failure_is_reported", "C96_success_is_silent", "C96_texts"], "secs": 25, "m": {"id": "u021", "edits": [["Told.v", "(0, snd (w_close w), ms)\n               | (_, _, w, _, r)", "(0, snd (w_close w), ms ++ [(\"done\"%string, [])])\n               | (_, _, w, _, r)"]], "definition": "enc_body_told", "desc": "a message on success", "breaks": ["C96"]}}
{"mid": "u022", "lemmas": ["Thm_Told.encrypt_talk", "Thm_Told.encrypt_too_many"], "hard": [], "failed": ["C96_every_bad_recipient_named", "C96_failure_is_reported", "C96_success_is_silent", "C96_texts"], "secs": 26, "m": {"id": "u022", "edits": [["Told.v", "done 1 [(\"can't find homedir for this user\"%string, [])]", "done 1 []"]], "definition": "encrypt_told", "desc": "no home: no message", "breaks": ["C96"]}}
{"mid": "u023", "lemmas": ["Thm_Told.encrypt_talk"], "hard": [], "failed": ["C96_failure_is_reported", "C96_success_is_silent", "C96_texts"], "secs": 21, "m": {"id": "u023", "edits": [["Told.v", "[infile; tg_text T x])] | _ => [] end)\n            end\n      | r => done (code_of r) (die_err T r)\n      end\n  | r => done (code_of r) (die_err T r)\n  end.\n\n(** crypt.go:324", "[infile])] | _ => [] end)\n            end\n      | r => done (code_of r) (die_err T r)\n      end\n  | r => done (code_of r) (die_err T r)\n  end.\n\n(** crypt.go:324"]], "definition": "encrypt_told", "desc": "unopenable input: value missing", "breaks": ["C96"]}}
{"mid": "u024", "lemmas": ["Thm_Told.dec_body_talk", "Thm_Told.C96_no_sender_warning"], "hard": [], "failed": ["C96_failure_is_reported", "C96_no_sender_warning", "C96_success_is_silent", "C96_texts"], "secs": 27, "m": {"id": "u024", "edits": [["Told.v", "ms ++ if test then", "ms ++ if negb test then"]], "definition": "dec_body_told", "desc": "Enc file OK without --test", "breaks": ["C96"]}}
{"mid": "u025", "lemmas": ["Thm_Told.dec_body_talk", "Thm_Told.C96_no_sender_warning"], "hard": [], "failed": ["C96_failure_is_reported", "C96_no_sender_warning", "C96_success_is_silent", "C96_texts"], "secs": 31, "m": {"id": "u025", "edits": [["Told.v", "| (_, w, r) => (code_of r, w, ms ++ die_err T r)\n          end\n      | (_, _, r)", "| (_, w, r) => (code_of r, w, ms ++ (if test then [(\"Enc file OK\"%string, [])] else []) ++ die_err T r)\n          end\n      | (_, _, r)"]], "definition": "dec_body_told", "desc": "Enc file OK before decrypting", "breaks": ["C96"]}}
{"mid": "u026", "lemmas": ["Thm_Told.dec_body_talk", "Thm_Told.C96_no_sender_warning"], "hard": [], "failed": ["C96_failure_is_reported", "C96_no_sender_warning", "C96_success_is_silent", "C96_texts"], "secs": 33, "m": {"id": "u026", "edits": [["Told.v", "| None => if authenticated_sender d", "| None => if negb (authenticated_sender d)"]], "definition": "dec_body_told", "desc": "the sender warning also when the sender is not authenticated", "breaks": ["C96"]}}
{"mid": "u027", "lemmas": ["Thm_Told.decrypt_talk", "Thm_Told.C96_no_sender_warning"], "hard": [], "failed": ["C96_failure_is_reported", "C96_no_sender_warning", "C96_success_is_silent", "C96_texts"], "secs": 32, "m": {"id": "u027", "edits": [["Told.v", "(mkWriter [] [] [] 0) in done c ms", "(mkWriter [] [] [] 0) in done c []"]], "definition": "decrypt_told", "desc": "test mode loses its message", "breaks": ["C96"]}}
{"mid": "u028", "lemmas": ["Thm_Told.sign_talk"], "hard": [], "failed": ["C96_failure_is_reported", "C96_success_is_silent", "C96_texts"], "secs": 22, "m": {"id": "u028", "edits": [["Told.v", "      | r => (code_of r, w, die_err T r)\n      end\n  | r => (code_of r, w, die_err T r)\n  end.\nDefinition sign_told", "      | r => (code_of r, w, [])\n      end\n  | r => (code_of r, w, die_err T r)\n  end.\nDefinition sign_told"]], "definition": "sign_body_told", "desc": "unreadable file: no message", "breaks": ["C96"]}}
{"mid": "u029", "lemmas": ["Thm_Told.verify_talk"], "hard": [], "failed": ["C96_failure_is_reported", "C96_success_is_silent", "C96_texts"], "secs": 21, "m": {"id": "u029", "edits": [["Told.v", "done 1 [(\"Wrong public key '%s' for verifying '%s'\"%string, [pn; sn])]", "done 1 []"]], "definition": "verify_told", "desc": "wrong public key: no message", "breaks": ["C96"]}}
{"mid": "u030", "lemmas": ["Thm_Told.verify_same", "Thm_Told.verify_talk"], "hard": [], "failed": ["C71_command", "C71_options", "C72_unverified_refuted", "C73_encrypt_words", "C73_sign_words", "C96_failure_is_reported", "C96_same_outcome", "C96_success_is_silent", "C96_texts"], "secs": 23, "m": {"id": "u030", "edits": [["Told.v", "(verify_text fn sn ok)", "(if ok then verify_text fn sn ok else [])"]], "definition": "verify_told", "desc": "negative verdict not printed", "breaks": ["C96"]}}
{"mid": "u031", "lemmas": ["Thm_Told.C96_failure_is_reported", "Thm_Told.main_wf"], "hard": [], "failed": ["C96_failure_is_reported", "C96_texts"], "secs": 32, "m": {"id": "u031", "edits": [["Told.v", "None => quit 1 [(\"Unknown command %s\"%string, [a])]", "None => quit 1 []"]], "definition": "main_told", "desc": "unknown command: no message", "breaks": ["C96"]}}
{"mid": "u032", "lemmas": ["Thm_Told.C96_success_is_silent", "Thm_Told.main_wf"], "hard": [], "failed": ["C96_success_is_silent", "C96_texts"], "secs": 34, "m": {"id": "u032", "edits": [["Told.v", "if mo_version o then quit 0 []", "if mo_version o then quit 0 [(\"version\"%string, [])]"]], "definition": "main_told", "desc": "--version also complains", "breaks": ["C96"]}}
{"mid": "u033", "lemmas": ["CliProofs.get_pass_ok", "CliProofs.get_pass_is", "Thm_Crash.pass_nopanic", "Thm_Reads.pass_same"], "hard": [], "failed": ["C43_generate", "C43_generate_exit_status", "C44_no_overwrite_partial", "C44_old_or_new_partial", "C45_decrypt_succeeds", "C45_decrypt_to_file_partial", "C45_test_mode", "C46_refuted", "C46_sender_partial", "C48_encrypt_exact", "C48_encrypt_succeeds", "C48_unresolved", "C49_sign_partial", "C50_new_pair_partial", "C51_encrypt_then_decrypt", "C52_sign_then_verify", "C56_decrypt_ends", "C56_encrypt_ends", "C56_generate_ends", "C56_sign_ends", "C63_decrypt_to_stdout", "C63_output_genuine", "C64_encrypt_succeeds", "C64_encrypt_to_stdout", "C64_pipeline", "C65_generate_encrypt_decrypt", "C66_generate_sign_verify", "C68_only_outputs", "C72_unverified_refuted", "C73_encrypt_words", "C73_sign_words", "C74_failure_changes_nothing_partial", "C75_permissions", "C77_concurrent_runs", "C78_history_partial", "C80_generate", "C80_sign", "C92_printed_signature_verifies", "C92_sign_exit_status", "C92_sign_to_stdout", "C97_decrypt", "C97_encrypt", "C97_generate", "C97_sign"], "secs": 132, "m": {"id": "u033", "edits": [["Cli.v", "else if 0 <? len envpw then Ok (wo_getenv W envpw)", "else if 0 <? len (wo_getenv W (str \"PASSWORD\")) then Ok (wo_getenv W (str \"PASSWORD\")) else if 0 <? len envpw then Ok (wo_getenv W envpw)"]], "definition": "get_pass", "desc": "the environment variable PASSWORD is always looked at", "breaks": ["C97"]}}
