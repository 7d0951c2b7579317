{"mid": "y001", "lemmas": ["ToyExt.toyE_keeps", "Thm_Chain.C53_refuted"], "hard": [], "failed": ["C53_refuted"], "secs": 80, "early": true, "m": {"id": "y001", "definition": "yaml_sig", "desc": "comment and hash exchanged", "breaks": ["C36"], "edits": [["KeyFiles.v", "y_opt E \"comment\" (ss_comment r) ++ y_opt E \"pkhash\" (ss_pkhash r) ++ y_field \"signature\"", "y_opt E \"comment\" (ss_pkhash r) ++ y_opt E \"pkhash\" (ss_comment r) ++ y_field \"signature\""]]}}
{"mid": "y002", "lemmas": ["ToyExt.toyE_keeps", "Thm_Texts.C80_marshal"], "hard": [], "failed": ["C103_zero_means_done", "C43_generate_exit_status", "C80_generate", "C80_marshal", "C80_sign", "C92_sign_exit_status", "C92_sign_to_stdout"], "secs": 131, "early": true, "m": {"id": "y002", "definition": "yaml_sig", "desc": "the hash of the key is left out", "breaks": ["C36"], "edits": [["KeyFiles.v", "y_opt E \"comment\" (ss_comment r) ++ y_opt E \"pkhash\" (ss_pkhash r) ++ y_field \"signature\"", "y_opt E \"comment\" (ss_comment r) ++ y_field \"signature\""]]}}
{"mid": "y003", "lemmas": ["CliProofs.read_private_loaded"], "hard": [], "failed": ["C103_zero_means_done", "C43_pair_usable_partial", "C52_sign_then_verify", "C56_encrypt_ends", "C56_sign_ends", "C65_generate_encrypt_decrypt", "C66_generate_sign_verify", "C73_encrypt_words", "C73_sign_words", "C92_printed_signature_verifies", "C92_sign_exit_status", "C92_sign_to_stdout"], "secs": 19, "early": true, "m": {"id": "y003", "definition": "read_private_key", "desc": "no password function is passed on", "breaks": ["C34"], "edits": [["KeyFiles.v", "yml <- f ;; make_private_key C E yml getpw.", "yml <- f ;; make_private_key C E yml None."]]}}
{"mid": "y004", "lemmas": ["CliProofs.read_public_loaded"], "hard": [], "failed": ["C43_pair_usable_partial", "C56_decrypt_ends", "C56_encrypt_ends", "C65_generate_encrypt_decrypt", "C66_generate_sign_verify", "C73_encrypt_words", "C73_sign_words"], "secs": 18, "early": true, "m": {"id": "y004", "definition": "read_public_key", "desc": "an unreadable file is an empty file", "breaks": ["C47"], "edits": [["KeyFiles.v", "(f : res bytes) : res pubkey := yml <- f ;; make_public_key C E yml.", "(f : res bytes) : res pubkey := make_public_key C E (match f with Ok b => b | _ => [] end)."]]}}
{"mid": "y005", "lemmas": ["Thm_Usage.C100_usage_is_true"], "hard": [], "failed": ["C100_usage_is_true"], "secs": 7, "early": true, "m": {"id": "y005", "definition": "sign_format", "desc": "the wrong command is described", "breaks": ["C100"], "edits": [["Usage.v", "%s sign|s [options] privkey file", "%s verify|s [options] privkey file"]]}}
{"mid": "y006", "lemmas": ["Thm_Usage.C100_options_missing_refuted"], "hard": [], "failed": ["C100_options_missing_refuted"], "secs": 12, "early": true, "m": {"id": "y006", "definition": "enc_texts", "desc": "one value too few", "breaks": ["C100"], "edits": [["Usage.v", "[fill enc_format [tg_base T; tg_base T; tg_base T; tg_base T]]", "[fill enc_format [tg_base T; tg_base T; tg_base T]]"]]}}
{"mid": "y007", "lemmas": ["Thm_Usage.C100_usage_is_true"], "hard": [], "failed": ["C100_usage_is_true"], "secs": 10, "early": true, "m": {"id": "y007", "definition": "dec_texts", "desc": "the text of encrypt", "breaks": ["C100"], "edits": [["Usage.v", "[fill dec_format [tg_base T; tg_base T; tg_base T; tg_base T]]", "[fill enc_format [tg_base T; tg_base T; tg_base T; tg_base T]]"]]}}
{"mid": "y008", "lemmas": ["Thm_Usage.C100_usage_is_true"], "hard": [], "failed": ["C100_usage_is_true"], "secs": 7, "early": true, "m": {"id": "y008", "definition": "verify_texts", "desc": "options not shown", "breaks": ["C100"], "edits": [["Usage.v", "[fill verify_format [tg_base T; tg_base T]; bn_options B Verify]", "[fill verify_format [tg_base T; tg_base T]]"]]}}
{"mid": "y009", "lemmas": ["Thm_Usage.C100_usage_is_true"], "hard": [], "failed": ["C100_usage_is_true"], "secs": 8, "early": true, "m": {"id": "y009", "definition": "verify_texts", "desc": "options of another command", "breaks": ["C100"], "edits": [["Usage.v", "bn_options B Verify]", "bn_options B Sign]"]]}}
{"mid": "y010", "lemmas": ["Thm_Mem.ew_calls_mem_ok"], "hard": [], "failed": ["C104_stream"], "secs": 6, "early": true, "m": {"id": "y010", "definition": "ew_calls_mem", "desc": "the buffer of the first call is used for every call", "breaks": ["C104"], "edits": [["Mem.v", "let '(e, w, g, rs) := ew_calls_mem C e eb w g s cs in (e, w, g, r :: rs)", "let '(e, w, g, rs) := ew_calls_mem C e [] w g s cs in (e, w, g, r :: rs)"]]}}
{"mid": "y011", "lemmas": ["Thm_Mem.in_slice_app"], "hard": [], "failed": ["C104_chunk", "C104_encrypt", "C104_encrypt_call", "C104_header", "C104_stream"], "secs": 1, "early": true, "m": {"id": "y011", "definition": "in_slice", "desc": "the rest of the buffer is lost", "breaks": ["C104"], "edits": [["Mem.v", "Ok (take lo d ++ s' ++ drop hi d)", "Ok (take lo d ++ s')"]]}}
{"mid": "y012", "lemmas": ["Thm_Race.wp_call"], "hard": [], "failed": ["C94_caches", "C94_goroutines_partial"], "secs": 2, "early": true, "m": {"id": "y012", "definition": "call_code", "desc": "public keys are never converted", "breaks": ["C94"], "edits": [["Race.v", "call_prog C (fun k pk => conv_pk k pk) (fun k sk => conv_sk C k sk) pks sks", "call_prog C (fun k pk => conv_pk 0 pk) (fun k sk => conv_sk C k sk) pks sks"]]}}
{"mid": "y013", "lemmas": ["Thm_Race.inv_begin"], "hard": [], "failed": ["C94_caches", "C94_goroutines_partial"], "secs": 5, "early": true, "m": {"id": "y013", "definition": "begin_", "desc": "nobody has anything to do", "breaks": ["C94"], "edits": [["Race.v", "map (fun cs => mkGo cs None", "map (fun cs => mkGo (tl cs) None"]]}}
{"mid": "y014", "lemmas": ["DecryptProofs.same_refl"], "hard": [], "failed": ["C02_stream_round_trip", "C03_encrypted_file_streams", "C03_stream_file_decrypts", "C09_truncated_stream", "C10_stream_complete_partial", "C11_released_data_genuine", "C13_stream_signed_partial", "C29_refuted", "C29_single_reader_partial", "C63_output_genuine", "C69_stream_and_decrypt_agree", "C76_stream_origin_partial", "C84_many_files_any_reader_partial", "C84_stream_next_file_untouched_partial", "C84_stream_refuted", "C87_follow_along", "C88_any_form", "C94_caches", "C94_goroutines_partial", "C95_set_key_midway_partial"], "secs": 10, "early": true, "m": {"id": "y014", "definition": "d_with", "desc": "the stream state is reset", "breaks": ["C11"], "edits": [["Decrypt.v", "(d_auth d) (d_eof d) (d_stream d).\n\n(** encrypt.go:617", "(d_auth d) (d_eof d) false.\n\n(** encrypt.go:617"]]}}
{"mid": "y015", "lemmas": ["Base64Proofs.digit_char"], "hard": [], "failed": ["C32_signature_round_trip", "C33_public_round_trip", "C34_private_round_trip_partial", "C36_private_refuted", "C37_comment_refuted", "C37_line_partial", "C40_round_trip", "C42_stored_objects", "C43_pair_usable_partial", "C44_refuted", "C45_close_refuted", "C46_refuted", "C49_refuted", "C50_refuted", "C52_sign_then_verify", "C53_refuted", "C54_refuted", "C54_round_trip_partial", "C65_generate_encrypt_decrypt", "C66_generate_sign_verify", "C73_encrypt_words", "C73_sign_words", "C74_generate_refuted", "C92_printed_signature_verifies", "C96_failure_is_reported", "C96_success_is_silent", "C96_texts", "C98_rewritten_key"], "secs": 1, "early": true, "m": {"id": "y015", "definition": "b64_char", "desc": "the alphabet is shifted by one", "breaks": ["C40"], "edits": [["Base64.v", "nth (Z.to_nat d) b64_alphabet x00", "nth (Z.to_nat d + 1) b64_alphabet x00"]]}}
{"mid": "y016", "lemmas": ["FsProofs.node_simpl"], "hard": [], "failed": ["C04_stream_agrees_with_encrypt", "C04_stream_write_sizes_irrelevant", "C05_stream_format", "C06_stream_chunks", "C07_stream_nonces_distinct_partial", "C07_stream_refuted_counter_wraps", "C08_tampered_stream_header", "C100_usage_is_true", "C101_generate_names", "C101_spellings", "C103_zero_means_done", "C104_stream", "C105_past", "C105_past_generate", "C106_order", "C42_stored_objects", "C42_write_atomic", "C43_generate", "C43_generate_exit_status", "C44_old_or_new_partial", "C45_decrypt_to_file_partial", "C48_encrypt_exact", "C48_unresolved", "C49_sign_partial", "C50_new_pair_partial", "C51_encrypt_then_decrypt", "C52_sign_then_verify", "C58_stream_randomness", "C62_verify_report", "C63_decrypt_to_stdout", "C63_output_genuine", "C64_pipeline", "C65_generate_encrypt_decrypt", "C66_generate_sign_verify", "C68_only_outputs", "C73_encrypt_words", "C73_sign_words", "C74_failure_changes_nothing_partial", "C75_permissions", "C75_who_may", "C77_concurrent_runs", "C78_history_partial", "C80_generate", "C80_sign", "C85_encryptor_never_panics", "C86_no_amplification", "C93_encryptor_messages", "C94_caches", "C94_goroutines_partial", "C97_generate"], "secs": 4, "early": true, "m": {"id": "y016", "definition": "run_ops", "desc": "the last operation is not done", "breaks": ["C56"], "edits": [["Fs.v", "fold_left do_op ops f.", "fold_left do_op (removelast ops) f."]]}}
{"mid": "y017", "lemmas": ["SshKeyProofs.container_inv"], "hard": [], "failed": ["C103_zero_means_done", "C35_private_partial", "C39_container_exact", "C43_pair_usable_partial", "C52_sign_then_verify", "C56_encrypt_ends", "C56_sign_ends", "C65_generate_encrypt_decrypt", "C66_generate_sign_verify", "C67_one_key", "C67_private_exact", "C73_encrypt_words", "C73_sign_words", "C80_sign", "C88_any_form", "C92_printed_signature_verifies", "C92_sign_exit_status", "C92_sign_to_stdout", "C98_rewritten_key"], "secs": 66, "early": true, "m": {"id": "y017", "definition": "call_getpw", "desc": "the error of the password prompt is dropped", "breaks": ["C34"], "edits": [["Ssh.v", "match f with Some r => r | None => Panic \"nil function call\" end", "match f with Some (Fail _) => Ok [] | Some r => r | None => Panic \"nil function call\" end"]]}}
{"mid": "y018", "lemmas": ["Thm_Flags.main_same"], "hard": [], "failed": ["C100_texts", "C103_zero_means_done", "C71_command", "C71_options", "C72_unverified_refuted", "C73_encrypt_words", "C73_sign_words", "C93_option", "C99_every_command_line", "C99_misspelt_refuted", "C99_zero_partial"], "secs": 9, "early": true, "m": {"id": "y018", "definition": "main_flags", "desc": "no letter for the version", "breaks": ["C100"], "edits": [["Flags.v", "fl \"version\" (Some x76) true", "fl \"version\" None true"]]}}
