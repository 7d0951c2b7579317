{"mid": "v002", "error": "edit does not compile: File \"./theories/Decrypt.v\", line 157, characters 0-781:\nError: Non exhaustive pattern-matching: no clause found for pattern Ok false\n\n", "m": {"edits": [["Decrypt.v", "          | Ok false => (", "          | Ok true => ("]], "definition": "process_trailer", "desc": "Decrypt: 'false' -> 'true' (auto)", "breaks": [], "mod": "Decrypt", "id": "v002"}}
{"mid": "v001", "lemmas": ["Thm_Debug.start_message"], "hard": [], "failed": ["C93_discloses", "C93_encryptor_messages"], "secs": 3, "early": true, "m": {"edits": [["Debug.v", "++ varHdr", "++ []"]], "definition": "start_debug", "desc": "Debug: '++ varHdr' -> '++ []' (auto)", "breaks": [], "mod": "Debug", "id": "v001"}}
{"mid": "v004", "lemmas": ["Thm_Flags.main_same"], "hard": [], "failed": ["C100_texts", "C71_command", "C71_options", "C72_unverified_refuted", "C73_encrypt_words", "C73_sign_words", "C93_option", "C99_every_command_line", "C99_misspelt_refuted", "C99_zero_partial"], "secs": 9, "early": true, "m": {"edits": [["Flags.v", "on\" (Some x76) true; fl ", "on\" (Some x76) false; fl "]], "definition": "main_flags", "desc": "Flags: 'true' -> 'false' (auto)", "breaks": [], "mod": "Flags", "id": "v004"}}
{"mid": "v003", "lemmas": ["PbProofs.unmarshal_spec_fuel"], "hard": [], "failed": ["C01_encrypt_decrypt_round_trip", "C02_stream_round_trip", "C03_encrypted_file_streams", "C03_stream_file_decrypts", "C05_file_format", "C05_stream_format", "C09_truncated_file", "C09_truncated_stream", "C10_complete_partial", "C10_refuted_truncation", "C10_stream_complete_partial", "C11_released_data_genuine", "C13_refuted_recipient_forges", "C14_refuted", "C16_recipients_agree", "C20_refuted", "C23_refuted", "C24_recipients_partial", "C24_refuted", "C29_refuted", "C51_encrypt_then_decrypt", "C63_output_genuine", "C64_pipeline", "C65_generate_encrypt_decrypt", "C72_unverified_refuted", "C73_encrypt_words", "C84_many_files_any_reader_partial", "C84_many_files_partial", "C84_next_file_untouched_partial", "C84_refuted", "C84_stream_next_file_untouched_partial", "C84_stream_refuted", "C87_follow_along", "C88_any_form", "C93_both_ends", "C95_set_key_midway_partial"], "secs": 14, "early": true, "m": {"edits": [["Pb.v", "er := mkHeader 0 [] [", "er := mkHeader 1 [] ["]], "definition": "empty_header", "desc": "Pb: '0' -> '1' (auto)", "breaks": [], "mod": "Pb", "id": "v003"}}
{"mid": "v005", "lemmas": ["EncryptProofs.the_trailer_good"], "hard": [], "failed": ["C01_encrypt_decrypt_round_trip", "C01_encrypt_succeeds", "C02_stream_round_trip", "C03_encrypted_file_streams", "C03_stream_file_decrypts", "C04_fragmentation_independent", "C04_stream_agrees_with_encrypt", "C04_stream_write_sizes_irrelevant", "C05_file_format", "C05_stream_format", "C06_chunks", "C06_stream_chunks", "C07_nonces_distinct_partial", "C07_refuted_counter_wraps", "C07_refuted_second_encrypt", "C07_stream_nonces_distinct_partial", "C07_stream_refuted_counter_wraps", "C08_tampered_header", "C08_tampered_stream_header", "C09_truncated_file", "C09_truncated_stream", "C10_complete_partial", "C10_refuted_truncation", "C10_stream_complete_partial", "C11_released_data_genuine", "C13_refuted_recipient_forges", "C14_refuted", "C16_recipients_agree", "C20_refuted", "C21_encrypt_errors_partial", "C23_refuted", "C24_recipients_partial", "C24_refuted", "C29_refuted", "C48_encrypt_succeeds", "C51_encrypt_then_decrypt", "C57_encrypt_size", "C57_stream_size", "C58_file_randomness", "C58_stream_randomness", "C59_encrypt_against_stream", "C63_output_genuine", "C64_encrypt_succeeds", "C64_pipeline", "C65_generate_encrypt_decrypt", "C72_unverified_refuted", "C73_encrypt_words", "C76_origin_partial", "C76_stream_origin_partial", "C81_content_hidden", "C81_stream_content_hidden", "C83_anonymous", "C83_sender_hidden", "C83_stream_anonymous", "C83_stream_sender_hidden", "C84_many_files_any_reader_partial", "C84_many_files_partial", "C84_next_file_untouched_partial", "C84_refuted", "C84_stream_next_file_untouched_partial", "C84_stream_refuted", "C88_any_form", "C93_both_ends", "C93_discloses", "C95_set_key_midway_partial"], "secs": 9, "early": true, "m": {"edits": [["Sign.v", "++ ck", "++ []"]], "definition": "msg_digest", "desc": "Sign: '++ ck' -> '++ []' (auto)", "breaks": [], "mod": "Sign", "id": "v005"}}
{"mid": "v007", "lemmas": ["Thm_KeyFiles.yaml_priv_marker"], "hard": [], "failed": ["C34_private_round_trip_partial", "C42_stored_objects", "C43_pair_usable_partial", "C65_generate_encrypt_decrypt", "C66_generate_sign_verify", "C73_encrypt_words", "C73_sign_words", "C98_rewritten_key"], "secs": 7, "early": true, "m": {"edits": [["KeyFiles.v", "crypt_N : Z := 2^19.\n", "crypt_N : Z := 3^19.\n"]], "definition": "scrypt_N", "desc": "KeyFiles: '2' -> '3' (auto)", "breaks": [], "mod": "KeyFiles", "id": "v007"}}
{"mid": "v006", "lemmas": ["Thm_Commands.C47_verify_exact"], "hard": [], "failed": ["C47_verify_exact", "C52_sign_then_verify", "C66_generate_sign_verify", "C73_sign_words", "C79_verify_command", "C92_printed_signature_verifies"], "secs": 18, "early": true, "m": {"edits": [["Cli.v", "(fun _ _ ok => if ok then ", "(fun _ _ ok => if negb (ok) then "]], "definition": "cli_verify", "desc": "Cli: 'if ok' -> 'if negb (ok)' (auto)", "breaks": [], "mod": "Cli", "id": "v006"}}
{"mid": "v009", "lemmas": ["EncryptProofs.encrypt_spec"], "hard": [], "failed": ["C01_encrypt_decrypt_round_trip", "C01_encrypt_succeeds", "C02_stream_round_trip", "C03_encrypted_file_streams", "C03_stream_file_decrypts", "C04_fragmentation_independent", "C04_stream_agrees_with_encrypt", "C05_file_format", "C06_chunks", "C07_nonces_distinct_partial", "C07_refuted_counter_wraps", "C07_refuted_second_encrypt", "C08_tampered_header", "C09_truncated_file", "C09_truncated_stream", "C10_complete_partial", "C10_refuted_truncation", "C10_stream_complete_partial", "C11_released_data_genuine", "C13_refuted_recipient_forges", "C14_refuted", "C16_recipients_agree", "C20_refuted", "C21_encrypt_errors_partial", "C23_refuted", "C24_recipients_partial", "C24_refuted", "C29_refuted", "C48_encrypt_succeeds", "C51_encrypt_then_decrypt", "C57_encrypt_size", "C58_file_randomness", "C59_encrypt_against_stream", "C63_output_genuine", "C64_encrypt_succeeds", "C64_pipeline", "C65_generate_encrypt_decrypt", "C72_unverified_refuted", "C73_encrypt_words", "C76_origin_partial", "C76_stream_origin_partial", "C81_content_hidden", "C83_anonymous", "C83_sender_hidden", "C84_many_files_any_reader_partial", "C84_many_files_partial", "C84_next_file_untouched_partial", "C84_refuted", "C84_stream_next_file_untouched_partial", "C84_stream_refuted", "C88_any_form", "C93_both_ends", "C93_discloses", "C95_set_key_midway_partial"], "secs": 11, "early": true, "m": {"edits": [["Encrypt.v", "'(e, w, rs) := if e_started e then ", "'(e, w, rs) := if negb (e_started e) then "]], "definition": "encrypt", "desc": "Encrypt: 'if e_started e' -> 'if negb (e_started e)' (auto)", "breaks": [], "mod": "Encrypt", "id": "v009"}}
{"mid": "v010", "lemmas": ["FsProofs.commit_data"], "hard": [], "failed": ["C04_stream_agrees_with_encrypt", "C04_stream_write_sizes_irrelevant", "C05_stream_format", "C06_stream_chunks", "C07_stream_nonces_distinct_partial", "C07_stream_refuted_counter_wraps", "C08_tampered_stream_header", "C100_usage_is_true", "C42_stored_objects", "C42_write_atomic", "C43_generate", "C43_generate_exit_status", "C44_old_or_new_partial", "C45_decrypt_to_file_partial", "C48_encrypt_exact", "C48_unresolved", "C49_sign_partial", "C50_new_pair_partial", "C51_encrypt_then_decrypt", "C52_sign_then_verify", "C58_stream_randomness", "C62_verify_report", "C63_decrypt_to_stdout", "C63_output_genuine", "C64_pipeline", "C65_generate_encrypt_decrypt", "C66_generate_sign_verify", "C68_only_outputs", "C73_encrypt_words", "C73_sign_words", "C74_failure_changes_nothing_partial", "C75_permissions", "C77_concurrent_runs", "C78_history_partial", "C80_generate", "C80_sign", "C85_encryptor_never_panics", "C86_no_amplification", "C93_encryptor_messages", "C94_caches", "C94_goroutines_partial", "C97_generate"], "secs": 5, "early": true, "m": {"edits": [["Fs.v", "++ b", "++ []"]], "definition": "do_op", "desc": "Fs: '++ b' -> '++ []' (auto)", "breaks": [], "mod": "Fs", "id": "v010"}}
{"mid": "v011", "lemmas": ["PbProofs.len_pb_bytes"], "hard": [], "failed": ["C01_encrypt_decrypt_round_trip", "C01_encrypt_succeeds", "C02_stream_round_trip", "C02_stream_writes_succeed", "C03_encrypted_file_streams", "C03_stream_file_decrypts", "C04_fragmentation_independent", "C04_stream_agrees_with_encrypt", "C04_stream_write_sizes_irrelevant", "C05_file_format", "C05_stream_format", "C06_chunks", "C06_stream_chunks", "C07_nonces_distinct_partial", "C07_refuted_counter_wraps", "C07_refuted_second_encrypt", "C07_stream_nonces_distinct_partial", "C07_stream_refuted_counter_wraps", "C08_tampered_header", "C08_tampered_stream_header", "C09_truncated_file", "C09_truncated_stream", "C10_complete_partial", "C10_refuted_truncation", "C10_stream_complete_partial", "C11_released_data_genuine", "C13_refuted_recipient_forges", "C14_refuted", "C16_recipients_agree", "C20_refuted", "C21_encrypt_errors_partial", "C23_refuted", "C24_recipients_partial", "C24_refuted", "C25_header_codec_round_trip", "C26_reencode", "C27_writes", "C29_refuted", "C48_encrypt_succeeds", "C51_encrypt_then_decrypt", "C56_encrypt_ends", "C57_encrypt_size", "C57_stream_size", "C58_file_randomness", "C58_stream_randomness", "C59_encrypt_against_stream", "C63_output_genuine", "C64_encrypt_succeeds", "C64_pipeline", "C65_generate_encrypt_decrypt", "C72_unverified_refuted", "C73_encrypt_words", "C76_origin_partial", "C76_stream_origin_partial", "C81_content_hidden", "C81_stream_content_hidden", "C83_anonymous", "C83_sender_hidden", "C83_stream_anonymous", "C83_stream_sender_hidden", "C84_many_files_any_reader_partial", "C84_many_files_partial", "C84_next_file_untouched_partial", "C84_refuted", "C84_stream_next_file_untouched_partial", "C84_stream_refuted", "C85_encryptor_never_panics", "C87_follow_along", "C88_any_form", "C93_both_ends", "C93_discloses", "C93_encryptor_messages", "C95_set_key_midway_partial"], "secs": 11, "early": true, "m": {"edits": [["Pb.v", " then 1 + len b + size_", " then 1 + len b - size_"]], "definition": "size_field", "desc": "Pb: '+' -> '-' (auto)", "breaks": [], "mod": "Pb", "id": "v011"}}
{"mid": "v012", "lemmas": ["EncryptProofs.new_encryptor_spec"], "hard": [], "failed": ["C01_encrypt_decrypt_round_trip", "C01_encrypt_succeeds", "C02_stream_round_trip", "C02_stream_writes_succeed", "C03_encrypted_file_streams", "C03_stream_file_decrypts", "C04_fragmentation_independent", "C04_stream_agrees_with_encrypt", "C04_stream_write_sizes_irrelevant", "C05_file_format", "C05_stream_format", "C06_chunks", "C06_stream_chunks", "C07_nonces_distinct_partial", "C07_refuted_counter_wraps", "C07_refuted_second_encrypt", "C07_stream_nonces_distinct_partial", "C07_stream_refuted_counter_wraps", "C08_tampered_header", "C08_tampered_stream_header", "C09_truncated_file", "C09_truncated_stream", "C10_complete_partial", "C10_refuted_truncation", "C10_stream_complete_partial", "C11_released_data_genuine", "C13_refuted_recipient_forges", "C14_refuted", "C16_own_entry_opens", "C16_recipients_agree", "C20_refuted", "C21_encrypt_errors_partial", "C23_chunk_size_partial", "C23_refuted", "C24_recipients_partial", "C24_refuted", "C27_writes", "C29_refuted", "C48_encrypt_succeeds", "C51_encrypt_then_decrypt", "C56_encrypt_ends", "C57_encrypt_size", "C57_stream_size", "C58_file_randomness", "C58_stream_randomness", "C59_encrypt_against_stream", "C61_rejected_exactly", "C63_output_genuine", "C64_encrypt_succeeds", "C64_pipeline", "C65_generate_encrypt_decrypt", "C72_unverified_refuted", "C73_encrypt_words", "C76_origin_partial", "C76_stream_origin_partial", "C81_content_hidden", "C81_stream_content_hidden", "C82_recipients_hidden", "C83_anonymous", "C83_sender_hidden", "C83_stream_anonymous", "C83_stream_sender_hidden", "C84_many_files_any_reader_partial", "C84_many_files_partial", "C84_next_file_untouched_partial", "C84_refuted", "C84_stream_next_file_untouched_partial", "C84_stream_refuted", "C85_encryptor_never_panics", "C87_follow_along", "C88_any_form", "C93_both_ends", "C93_discloses", "C95_set_key_midway_partial"], "secs": 11, "early": true, "m": {"edits": [["Encrypt.v", "lt_size : Z := 32.\nDef", "lt_size : Z := 33.\nDef"]], "definition": "salt_size", "desc": "Encrypt: '32' -> '33' (auto)", "breaks": [], "mod": "Encrypt", "id": "v012"}}
{"mid": "v008", "lemmas": ["SshKeyProofs.section_ok"], "hard": [], "failed": ["C39_container_exact", "C67_one_key", "C67_private_exact", "C88_any_form", "C98_rewritten_key"], "secs": 87, "early": true, "m": {"edits": [["Keys.v", "gb (len buf =? 64) the", "gb (len buf =? 65) the"]], "definition": "make_private_from_bytes", "desc": "Keys: '64' -> '65' (auto)", "breaks": [], "mod": "Keys", "id": "v008"}}
{"mid": "v014", "lemmas": ["PbProofs.marshal_fields_spec"], "hard": [], "failed": ["C01_encrypt_decrypt_round_trip", "C01_encrypt_succeeds", "C02_stream_round_trip", "C02_stream_writes_succeed", "C03_encrypted_file_streams", "C03_stream_file_decrypts", "C04_fragmentation_independent", "C04_stream_agrees_with_encrypt", "C04_stream_write_sizes_irrelevant", "C05_file_format", "C05_stream_format", "C06_chunks", "C06_stream_chunks", "C07_nonces_distinct_partial", "C07_refuted_counter_wraps", "C07_refuted_second_encrypt", "C07_stream_nonces_distinct_partial", "C07_stream_refuted_counter_wraps", "C08_tampered_header", "C08_tampered_stream_header", "C09_truncated_file", "C09_truncated_stream", "C10_complete_partial", "C10_refuted_truncation", "C10_stream_complete_partial", "C11_released_data_genuine", "C13_refuted_recipient_forges", "C14_refuted", "C16_recipients_agree", "C20_refuted", "C21_encrypt_errors_partial", "C23_refuted", "C24_recipients_partial", "C24_refuted", "C25_header_codec_round_trip", "C26_reencode", "C27_writes", "C29_refuted", "C48_encrypt_succeeds", "C51_encrypt_then_decrypt", "C56_encrypt_ends", "C57_encrypt_size", "C57_stream_size", "C58_file_randomness", "C58_stream_randomness", "C59_encrypt_against_stream", "C63_output_genuine", "C64_encrypt_succeeds", "C64_pipeline", "C65_generate_encrypt_decrypt", "C72_unverified_refuted", "C73_encrypt_words", "C76_origin_partial", "C76_stream_origin_partial", "C81_content_hidden", "C81_stream_content_hidden", "C83_anonymous", "C83_sender_hidden", "C83_stream_anonymous", "C83_stream_sender_hidden", "C84_many_files_any_reader_partial", "C84_many_files_partial", "C84_next_file_untouched_partial", "C84_refuted", "C84_stream_next_file_untouched_partial", "C84_stream_refuted", "C85_encryptor_never_panics", "C87_follow_along", "C88_any_form", "C93_both_ends", "C93_discloses", "C93_encryptor_messages", "C95_set_key_midway_partial"], "secs": 11, "early": true, "m": {"edits": [["Pb.v", "alt m) a in\n  if h_chunk m =? 0 then a el", "alt m) a in\n  if h_chunk m =? 1 then a el"]], "definition": "marshal_fields", "desc": "Pb: '0' -> '1' (auto)", "breaks": [], "mod": "Pb", "id": "v014"}}
{"mid": "v015", "lemmas": ["SshProofs.fields_u32"], "hard": [], "failed": ["C36_openssh_refuted", "C36_private_panics_exactly", "C39_container_exact", "C56_decrypt_ends", "C56_encrypt_ends", "C56_sign_ends", "C67_one_key", "C67_private_exact", "C88_any_form", "C98_rewritten_key"], "secs": 8, "early": true, "m": {"edits": [["Ssh.v", "sh_fields fs' (drop 4 dat", "sh_fields fs' (take 4 dat"]], "definition": "ssh_fields", "desc": "Ssh: 'drop' -> 'take' (auto)", "breaks": [], "mod": "Ssh", "id": "v015"}}
{"mid": "v016", "lemmas": ["PbProofs.push_keys_spec"], "hard": [], "failed": ["C01_encrypt_decrypt_round_trip", "C01_encrypt_succeeds", "C02_stream_round_trip", "C02_stream_writes_succeed", "C03_encrypted_file_streams", "C03_stream_file_decrypts", "C04_fragmentation_independent", "C04_stream_agrees_with_encrypt", "C04_stream_write_sizes_irrelevant", "C05_file_format", "C05_stream_format", "C06_chunks", "C06_stream_chunks", "C07_nonces_distinct_partial", "C07_refuted_counter_wraps", "C07_refuted_second_encrypt", "C07_stream_nonces_distinct_partial", "C07_stream_refuted_counter_wraps", "C08_tampered_header", "C08_tampered_stream_header", "C09_truncated_file", "C09_truncated_stream", "C10_complete_partial", "C10_refuted_truncation", "C10_stream_complete_partial", "C11_released_data_genuine", "C13_refuted_recipient_forges", "C14_refuted", "C16_recipients_agree", "C20_refuted", "C21_encrypt_errors_partial", "C23_refuted", "C24_recipients_partial", "C24_refuted", "C25_header_codec_round_trip", "C26_reencode", "C27_writes", "C29_refuted", "C48_encrypt_succeeds", "C51_encrypt_then_decrypt", "C56_encrypt_ends", "C57_encrypt_size", "C57_stream_size", "C58_file_randomness", "C58_stream_randomness", "C59_encrypt_against_stream", "C63_output_genuine", "C64_encrypt_succeeds", "C64_pipeline", "C65_generate_encrypt_decrypt", "C72_unverified_refuted", "C73_encrypt_words", "C76_origin_partial", "C76_stream_origin_partial", "C81_content_hidden", "C81_stream_content_hidden", "C83_anonymous", "C83_sender_hidden", "C83_stream_anonymous", "C83_stream_sender_hidden", "C84_many_files_any_reader_partial", "C84_many_files_partial", "C84_next_file_untouched_partial", "C84_refuted", "C84_stream_next_file_untouched_partial", "C84_stream_refuted", "C85_encryptor_never_panics", "C87_follow_along", "C88_any_form", "C93_both_ends", "C93_discloses", "C93_encryptor_messages", "C95_set_key_midway_partial"], "secs": 11, "early": true, "m": {"edits": [["Pb.v", "++ m", "++ []"]], "definition": "push_keys", "desc": "Pb: '++ m' -> '++ []' (auto)", "breaks": [], "mod": "Pb", "id": "v016"}}
{"mid": "v017", "lemmas": ["Thm_Flags.dec_same"], "hard": [], "failed": ["C100_texts", "C71_command", "C71_options", "C72_unverified_refuted", "C73_encrypt_words", "C73_sign_words", "C99_every_command_line", "C99_misspelt_refuted", "C99_zero_partial"], "secs": 9, "early": true, "m": {"edits": [["Flags.v", "st\" (Some x74) true; fl ", "st\" (Some x74) false; fl "]], "definition": "dec_flags", "desc": "Flags: 'true' -> 'false' (auto)", "breaks": [], "mod": "Flags", "id": "v017"}}
{"mid": "v018", "lemmas": ["IOProofs.read_loop_any"], "hard": [], "failed": ["C01_encrypt_decrypt_round_trip", "C01_encrypt_succeeds", "C02_stream_round_trip", "C03_encrypted_file_streams", "C03_stream_file_decrypts", "C04_fragmentation_independent", "C04_stream_agrees_with_encrypt", "C05_file_format", "C06_chunks", "C07_nonces_distinct_partial", "C07_refuted_counter_wraps", "C07_refuted_second_encrypt", "C08_tampered_header", "C09_truncated_file", "C09_truncated_stream", "C10_complete_partial", "C10_refuted_truncation", "C10_stream_complete_partial", "C11_released_data_genuine", "C12_authenticated_means_signed", "C13_refuted_recipient_forges", "C14_refuted", "C14_signed_file_partial", "C15_not_a_recipient", "C16_recipients_agree", "C19_new_decryptor_total", "C20_every_history_partial", "C20_no_panic_partial", "C20_refuted", "C21_encrypt_errors_partial", "C23_refuted", "C24_recipients_partial", "C24_refuted", "C28_read_discipline", "C29_refuted", "C46_sender_partial", "C48_encrypt_succeeds", "C51_encrypt_then_decrypt", "C56_decrypt_ends", "C56_encrypt_ends", "C57_encrypt_size", "C58_file_randomness", "C59_encrypt_against_stream", "C60_authenticated_exactly", "C60_last_call_decides_partial", "C63_output_genuine", "C64_encrypt_succeeds", "C64_pipeline", "C65_generate_encrypt_decrypt", "C70_one_file_per_encryptor", "C72_unverified_refuted", "C73_encrypt_words", "C76_origin_partial", "C76_stream_origin_partial", "C81_content_hidden", "C83_anonymous", "C83_sender_hidden", "C84_many_files_any_reader_partial", "C84_many_files_partial", "C84_next_file_untouched_partial", "C84_refuted", "C84_stream_next_file_untouched_partial", "C84_stream_refuted", "C85_encryptor_never_panics", "C86_no_amplification", "C88_any_form", "C93_both_ends", "C93_discloses", "C95_set_key_midway_partial", "C96_failure_is_reported", "C96_no_sender_warning", "C96_success_is_silent", "C96_texts"], "secs": 3, "early": true, "m": {"edits": [["Encrypt.v", "r' => (length b + rd_si", "r' => (length b - rd_si"]], "definition": "rd_size", "desc": "Encrypt: '+' -> '-' (auto)", "breaks": [], "mod": "Encrypt", "id": "v018"}}
{"mid": "v019", "lemmas": ["Thm_Told.C96_same_outcome"], "hard": [], "failed": ["C96_same_outcome"], "secs": 9, "early": true, "m": {"edits": [["Told.v", "| Help => quit 0\n  en", "| Help => quit 1\n  en"]], "definition": "run_told", "desc": "Told: '0' -> '1' (auto)", "breaks": [], "mod": "Told", "id": "v019"}}
{"mid": "v013", "lemmas": ["Hostile.dec_chunk_any"], "hard": [], "failed": ["C20_every_history_partial", "C20_no_panic_partial", "C28_read_discipline", "C56_decrypt_ends"], "secs": 115, "early": true, "m": {"edits": [["Decrypt.v", "ytes := got ++ drop (len ", "ytes := got ++ take (len "]], "definition": "buf_put", "desc": "Decrypt: 'drop' -> 'take' (auto)", "breaks": [], "mod": "Decrypt", "id": "v013"}}
{"mid": "v020", "lemmas": ["PbProofs.get_unknown_safe"], "hard": [], "failed": ["C01_encrypt_decrypt_round_trip", "C02_stream_round_trip", "C03_encrypted_file_streams", "C03_stream_file_decrypts", "C05_file_format", "C05_stream_format", "C08_accepted_header", "C08_tampered_header", "C08_tampered_stream_header", "C09_truncated_file", "C09_truncated_stream", "C10_complete_partial", "C10_refuted_truncation", "C10_stream_complete_partial", "C11_released_data_genuine", "C12_authenticated_means_signed", "C13_content_signed_partial", "C13_refuted_recipient_forges", "C13_stream_signed_partial", "C14_refuted", "C14_signed_file_partial", "C15_not_a_recipient", "C16_recipients_agree", "C19_new_decryptor_total", "C20_every_history_partial", "C20_no_panic_partial", "C20_refuted", "C23_refuted", "C24_recipients_partial", "C24_refuted", "C26_decoder_total_and_exact", "C26_reencode", "C28_read_discipline", "C29_refuted", "C29_single_reader_partial", "C46_sender_partial", "C51_encrypt_then_decrypt", "C56_decrypt_ends", "C60_authenticated_exactly", "C60_last_call_decides_partial", "C63_output_genuine", "C64_pipeline", "C65_generate_encrypt_decrypt", "C69_stream_and_decrypt_agree", "C70_one_file_per_encryptor", "C72_unverified_refuted", "C73_encrypt_words", "C76_origin_partial", "C76_stream_origin_partial", "C84_many_files_any_reader_partial", "C84_many_files_partial", "C84_next_file_untouched_partial", "C84_refuted", "C84_stream_next_file_untouched_partial", "C84_stream_refuted", "C87_follow_along", "C88_any_form", "C93_both_ends", "C95_set_key_midway_partial", "C96_failure_is_reported", "C96_no_sender_warning", "C96_success_is_silent", "C96_texts"], "secs": 17, "early": true, "m": {"edits": [["Pb.v", "(length d) d 0 0.\n\n(*", "(length d) d 0 1.\n\n(*"]], "definition": "skip", "desc": "Pb: '0' -> '1' (auto)", "breaks": [], "mod": "Pb", "id": "v020"}}
{"mid": "v022", "lemmas": ["PbProofs.header_step_gen"], "hard": [], "failed": ["C01_encrypt_decrypt_round_trip", "C02_stream_round_trip", "C03_encrypted_file_streams", "C03_stream_file_decrypts", "C05_file_format", "C05_stream_format", "C09_truncated_file", "C09_truncated_stream", "C10_complete_partial", "C10_refuted_truncation", "C10_stream_complete_partial", "C11_released_data_genuine", "C13_refuted_recipient_forges", "C14_refuted", "C16_recipients_agree", "C20_refuted", "C23_refuted", "C24_recipients_partial", "C24_refuted", "C29_refuted", "C51_encrypt_then_decrypt", "C63_output_genuine", "C64_pipeline", "C65_generate_encrypt_decrypt", "C72_unverified_refuted", "C73_encrypt_words", "C84_many_files_any_reader_partial", "C84_many_files_partial", "C84_next_file_untouched_partial", "C84_refuted", "C84_stream_next_file_untouched_partial", "C84_stream_refuted", "C87_follow_along", "C88_any_form", "C93_both_ends", "C95_set_key_midway_partial"], "secs": 13, "early": true, "m": {"edits": [["Pb.v", "eldNum =? 4 then\n          if negb (wireType =", "eldNum =? 4 then\n          if id (wireType ="]], "definition": "unmarshal_header_loop", "desc": "Pb: 'negb (' -> 'id (' (auto)", "breaks": [], "mod": "Pb", "id": "v022"}}
{"mid": "v023", "lemmas": ["BytesLemmas.drop_skipn"], "hard": [], "failed": ["C01_encrypt_decrypt_round_trip", "C01_encrypt_succeeds", "C02_stream_round_trip", "C02_stream_writes_succeed", "C03_encrypted_file_streams", "C03_stream_file_decrypts", "C04_fragmentation_independent", "C04_stream_agrees_with_encrypt", "C04_stream_write_sizes_irrelevant", "C05_file_format", "C05_stream_format", "C06_chunks", "C06_stream_chunks", "C07_nonces_distinct_partial", "C07_refuted_counter_wraps", "C07_refuted_second_encrypt", "C07_stream_nonces_distinct_partial", "C07_stream_refuted_counter_wraps", "C08_accepted_header", "C08_tampered_header", "C08_tampered_stream_header", "C09_truncated_file", "C09_truncated_stream", "C100_options_missing_refuted", "C100_texts", "C10_complete_partial", "C10_refuted_truncation", "C10_stream_complete_partial", "C11_released_data_genuine", "C12_authenticated_means_signed", "C13_content_signed_partial", "C13_refuted_recipient_forges", "C13_stream_signed_partial", "C14_refuted", "C14_signed_file_partial", "C15_not_a_recipient", "C16_recipients_agree", "C19_new_decryptor_total", "C20_every_history_partial", "C20_no_panic_partial", "C20_refuted", "C21_encrypt_errors_partial", "C21_refuted", "C22_fullwrite_all_or_error", "C23_refuted", "C24_recipients_partial", "C24_refuted", "C25_header_codec_round_trip", "C26_decoder_total_and_exact", "C26_reencode", "C27_writes", "C28_read_discipline", "C29_refuted", "C29_single_reader_partial", "C31_file_signature_binds", "C31_hash_input_injective", "C33_openssh_line", "C35_private_partial", "C35_public_partial", "C36_openssh_refuted", "C36_private_panics_exactly", "C36_private_partial", "C36_public_panics_exactly", "C37_bad_blob_rejected", "C37_blob_exact", "C37_line_exact", "C37_line_partial", "C38_entries_partial", "C38_sound", "C38_total_and_linewise", "C39_container_exact", "C39_section_unique", "C42_stored_objects", "C42_write_atomic", "C42_write_outcome", "C43_generate", "C43_generate_exit_status", "C43_pair_usable_partial", "C44_no_overwrite_partial", "C44_old_or_new_partial", "C44_refuted", "C45_close_refuted", "C45_decrypt_succeeds", "C45_decrypt_to_file_partial", "C46_refuted", "C46_sender_partial", "C47_verify_exact", "C48_encrypt_exact", "C48_encrypt_succeeds", "C48_unresolved", "C49_refuted", "C49_sign_partial", "C50_new_pair_partial", "C50_refuted", "C51_encrypt_then_decrypt", "C52_sign_then_verify", "C53_crash_exactly_partial", "C53_refuted", "C54_refuted", "C54_round_trip_partial", "C54_string_exact", "C56_decrypt_ends", "C56_encrypt_ends", "C56_sign_ends", "C57_encrypt_size", "C57_stream_size", "C58_file_randomness", "C58_stream_randomness", "C59_encrypt_against_stream", "C60_authenticated_exactly", "C60_last_call_decides_partial", "C60_refuted", "C62_verify_report", "C63_decrypt_to_stdout", "C63_output_genuine", "C64_encrypt_succeeds", "C64_encrypt_to_stdout", "C64_pipeline", "C65_generate_encrypt_decrypt", "C66_generate_sign_verify", "C67_one_key", "C67_private_exact", "C67_public_exact", "C68_only_outputs", "C69_stream_and_decrypt_agree", "C70_one_file_per_encryptor", "C72_unverified_refuted", "C73_encrypt_words", "C73_sign_words", "C74_failure_changes_nothing_partial", "C74_generate_refuted", "C75_generated_pair", "C75_permissions", "C76_origin_partial", "C76_stream_origin_partial", "C77_concurrent_runs", "C78_history_partial", "C79_verified_file", "C79_verify_command", "C80_generate", "C80_sign", "C81_content_hidden", "C81_stream_content_hidden", "C83_anonymous", "C83_sender_hidden", "C83_stream_anonymous", "C83_stream_sender_hidden", "C84_many_files_any_reader_partial", "C84_many_files_partial", "C84_next_file_untouched_partial", "C84_refuted", "C84_stream_next_file_untouched_partial", "C84_stream_refuted", "C85_encryptor_never_panics", "C86_no_amplification", "C87_follow_along", "C88_any_form", "C92_printed_signature_verifies", "C92_sign_exit_status", "C92_sign_to_stdout", "C93_both_ends", "C93_discloses", "C93_encryptor_messages", "C95_no_panic_refuted", "C95_repeated_call_refuted", "C95_set_key_midway_partial", "C96_every_bad_recipient_named", "C96_failure_is_reported", "C96_no_sender_warning", "C96_success_is_silent", "C96_texts", "C97_generate", "C98_rewritten_key"], "secs": 1, "early": true, "m": {"edits": [["Bytes.v", "[] => []\n  | x :: l' => if n <=? 0 then l el", "[] => []\n  | x :: l' => if n <=? 1 then l el"]], "definition": "drop", "desc": "Bytes: '=? 0' -> '=? 1' (auto)", "breaks": [], "mod": "Bytes", "id": "v023"}}
{"mid": "v021", "lemmas": ["Thm_Files.C43_generate"], "hard": [], "failed": ["C43_generate", "C50_new_pair_partial", "C65_generate_encrypt_decrypt", "C66_generate_sign_verify", "C73_encrypt_words", "C73_sign_words"], "secs": 55, "early": true, "m": {"edits": [["Store.v", "rite : bool)\n  : list fop * res unit := write_file v (oct 6 4 4) f dst (marshal_p", "rite : bool)\n  : list fop * res unit := write_file v (oct 6 5 4) f dst (marshal_p"]], "definition": "serialize_public", "desc": "Store: '4' -> '5' (auto)", "breaks": [], "mod": "Store", "id": "v021"}}
{"mid": "v025", "lemmas": ["EncryptProofs.lor_eof"], "hard": [], "failed": ["C01_encrypt_decrypt_round_trip", "C01_encrypt_succeeds", "C02_stream_round_trip", "C02_stream_writes_succeed", "C03_encrypted_file_streams", "C03_stream_file_decrypts", "C04_fragmentation_independent", "C04_stream_agrees_with_encrypt", "C04_stream_write_sizes_irrelevant", "C05_file_format", "C05_stream_format", "C06_chunks", "C06_stream_chunks", "C07_nonces_distinct_partial", "C07_refuted_counter_wraps", "C07_refuted_second_encrypt", "C07_stream_nonces_distinct_partial", "C07_stream_refuted_counter_wraps", "C08_tampered_header", "C08_tampered_stream_header", "C09_truncated_file", "C09_truncated_stream", "C10_complete_partial", "C10_refuted_truncation", "C10_stream_complete_partial", "C11_released_data_genuine", "C13_refuted_recipient_forges", "C14_refuted", "C16_recipients_agree", "C20_refuted", "C21_encrypt_errors_partial", "C23_refuted", "C24_recipients_partial", "C24_refuted", "C27_writes", "C29_refuted", "C48_encrypt_succeeds", "C51_encrypt_then_decrypt", "C56_encrypt_ends", "C57_encrypt_size", "C57_stream_size", "C58_file_randomness", "C58_stream_randomness", "C59_encrypt_against_stream", "C63_output_genuine", "C64_encrypt_succeeds", "C64_pipeline", "C65_generate_encrypt_decrypt", "C70_one_file_per_encryptor", "C72_unverified_refuted", "C73_encrypt_words", "C76_origin_partial", "C76_stream_origin_partial", "C81_content_hidden", "C81_stream_content_hidden", "C83_anonymous", "C83_sender_hidden", "C83_stream_anonymous", "C83_stream_sender_hidden", "C84_many_files_any_reader_partial", "C84_many_files_partial", "C84_next_file_untouched_partial", "C84_refuted", "C84_stream_next_file_untouched_partial", "C84_stream_refuted", "C85_encryptor_never_panics", "C87_follow_along", "C88_any_form", "C93_both_ends", "C93_discloses", "C95_set_key_midway_partial"], "secs": 6, "early": true, "m": {"edits": [["Encrypt.v", "eof_bit : Z := 2^31.\n", "eof_bit : Z := 3^31.\n"]], "definition": "eof_bit", "desc": "Encrypt: '2' -> '3' (auto)", "breaks": [], "mod": "Encrypt", "id": "v025"}}
{"mid": "v026", "lemmas": ["Toy.toy_ys_ok"], "hard": [], "failed": ["C21_refuted", "C44_refuted", "C45_close_refuted", "C46_refuted", "C49_refuted", "C50_refuted", "C53_refuted", "C60_refuted", "C74_generate_refuted", "C95_no_panic_refuted", "C95_repeated_call_refuted"], "secs": 93, "early": true, "m": {"edits": [["Keys.v", " then Some (a, 1, 0)\n", " then Some (a, 2, 0)\n"]], "definition": "egcd", "desc": "Keys: '1' -> '2' (auto)", "breaks": [], "mod": "Keys", "id": "v026"}}
{"mid": "v027", "lemmas": ["Thm_Race.wp_call"], "hard": [], "failed": ["C94_caches", "C94_goroutines_partial"], "secs": 1, "early": true, "m": {"edits": [["Race.v", "der auth false false, [])", "der auth false true, [])"]], "definition": "call_prog", "desc": "Race: 'false' -> 'true' (auto)", "breaks": [], "mod": "Race", "id": "v027"}}
{"mid": "v028", "lemmas": ["ToyExt.optional_ok", "ToyExt.toyE_keeps", "Thm_KeyFiles.yaml_not_ssh"], "hard": [], "failed": ["C33_public_round_trip", "C42_stored_objects", "C43_pair_usable_partial", "C65_generate_encrypt_decrypt", "C66_generate_sign_verify", "C73_encrypt_words", "C73_sign_words"], "secs": 9, "early": true, "m": {"edits": [["KeyFiles.v", ":= if len s =? 0 then", ":= if len s =? 1 then"]], "definition": "y_opt", "desc": "KeyFiles: '0' -> '1' (auto)", "breaks": [], "mod": "KeyFiles", "id": "v028"}}
{"mid": "v029", "lemmas": ["TextProofs.not_prefix_head"], "hard": [], "failed": ["C37_line_partial", "C38_entries_partial", "C88_any_form"], "secs": 6, "early": true, "m": {"edits": [["GoText.v", "&&", "||"]], "definition": "is_prefix", "desc": "GoText: '&&' -> '||' (auto)", "breaks": [], "mod": "GoText", "id": "v029"}}
{"mid": "v030", "lemmas": ["EncryptProofs.write_trailer_spec"], "hard": [], "failed": ["C01_encrypt_decrypt_round_trip", "C01_encrypt_succeeds", "C02_stream_round_trip", "C02_stream_writes_succeed", "C03_encrypted_file_streams", "C03_stream_file_decrypts", "C04_fragmentation_independent", "C04_stream_agrees_with_encrypt", "C04_stream_write_sizes_irrelevant", "C05_file_format", "C05_stream_format", "C06_chunks", "C06_stream_chunks", "C07_nonces_distinct_partial", "C07_refuted_counter_wraps", "C07_refuted_second_encrypt", "C07_stream_nonces_distinct_partial", "C07_stream_refuted_counter_wraps", "C08_tampered_header", "C08_tampered_stream_header", "C09_truncated_file", "C09_truncated_stream", "C10_complete_partial", "C10_refuted_truncation", "C10_stream_complete_partial", "C11_released_data_genuine", "C13_refuted_recipient_forges", "C14_refuted", "C16_recipients_agree", "C20_refuted", "C21_encrypt_errors_partial", "C23_refuted", "C24_recipients_partial", "C24_refuted", "C27_writes", "C29_refuted", "C48_encrypt_succeeds", "C51_encrypt_then_decrypt", "C56_encrypt_ends", "C57_encrypt_size", "C57_stream_size", "C58_file_randomness", "C58_stream_randomness", "C59_encrypt_against_stream", "C63_output_genuine", "C64_encrypt_succeeds", "C64_pipeline", "C65_generate_encrypt_decrypt", "C72_unverified_refuted", "C73_encrypt_words", "C76_origin_partial", "C76_stream_origin_partial", "C81_content_hidden", "C81_stream_content_hidden", "C83_anonymous", "C83_sender_hidden", "C83_stream_anonymous", "C83_stream_sender_hidden", "C84_many_files_any_reader_partial", "C84_many_files_partial", "C84_next_file_untouched_partial", "C84_refuted", "C84_stream_next_file_untouched_partial", "C84_stream_refuted", "C85_encryptor_never_panics", "C87_follow_along", "C88_any_form", "C93_both_ends", "C93_discloses", "C95_set_key_midway_partial"], "secs": 8, "early": true, "m": {"edits": [["Crypto.v", "egb (len sk =? 64) the", "egb (len sk =? 65) the"]], "definition": "Ed_Sign", "desc": "Crypto: '64' -> '65' (auto)", "breaks": [], "mod": "Crypto", "id": "v030"}}
{"mid": "v031", "lemmas": ["Thm_Reads.C97_encrypt"], "hard": [], "failed": ["C97_encrypt"], "secs": 3, "early": true, "m": {"edits": [["Told.v", " + 1", " + 2"]], "definition": "recipients_told", "desc": "Told: '+ 1' -> '+ 2' (auto)", "breaks": [], "mod": "Told", "id": "v031"}}
{"mid": "v024", "lemmas": [], "hard": [], "failed": [], "secs": 421, "m": {"edits": [["GoIO.v", " s => let a := take k p i", " s => let a := drop k p i"]], "definition": "w_write", "desc": "GoIO: 'take' -> 'drop' (auto)", "breaks": [], "mod": "GoIO", "id": "v024"}}
{"mid": "v032", "lemmas": [], "hard": [], "failed": [], "secs": 258, "m": {"edits": [["Ssh.v", " - ", " + "]], "definition": "opt_end", "desc": "Ssh: '-' -> '+' (auto)", "breaks": [], "mod": "Ssh", "id": "v032"}}
{"mid": "v033", "lemmas": ["Thm_Told.sign_same"], "hard": [], "failed": ["C100_texts", "C71_command", "C71_options", "C72_unverified_refuted", "C73_encrypt_words", "C73_sign_words", "C96_same_outcome", "C99_every_command_line", "C99_misspelt_refuted", "C99_zero_partial"], "secs": 7, "early": true, "m": {"edits": [["Told.v", "T W v (oct 6 4 4) out", "T W v (oct 6 4 5) out"]], "definition": "sign_told", "desc": "Told: '4' -> '5' (auto)", "breaks": [], "mod": "Told", "id": "v033"}}
{"mid": "v035", "lemmas": ["OpenProofs.unwrap_key_spec"], "hard": [], "failed": ["C01_encrypt_decrypt_round_trip", "C02_stream_round_trip", "C03_encrypted_file_streams", "C03_stream_file_decrypts", "C09_truncated_file", "C09_truncated_stream", "C10_complete_partial", "C10_refuted_truncation", "C10_stream_complete_partial", "C11_released_data_genuine", "C12_authenticated_means_signed", "C13_content_signed_partial", "C13_refuted_recipient_forges", "C13_stream_signed_partial", "C14_refuted", "C14_signed_file_partial", "C15_not_a_recipient", "C16_recipients_agree", "C20_every_history_partial", "C20_no_panic_partial", "C20_refuted", "C28_read_discipline", "C29_refuted", "C29_single_reader_partial", "C46_sender_partial", "C51_encrypt_then_decrypt", "C60_authenticated_exactly", "C60_last_call_decides_partial", "C63_output_genuine", "C64_pipeline", "C65_generate_encrypt_decrypt", "C69_stream_and_decrypt_agree", "C72_unverified_refuted", "C73_encrypt_words", "C76_origin_partial", "C76_stream_origin_partial", "C84_many_files_any_reader_partial", "C84_many_files_partial", "C84_next_file_untouched_partial", "C84_refuted", "C84_stream_next_file_untouched_partial", "C84_stream_refuted", "C87_follow_along", "C88_any_form", "C93_both_ends", "C95_set_key_midway_partial"], "secs": 46, "early": true, "m": {"edits": [["Decrypt.v", "if negb (len (w_dkey w) =? aes_key_size + gcm_overhead)\n       ", "if negb (negb (len (w_dkey w) =? aes_key_size + gcm_overhead)) "]], "definition": "unwrap_key", "desc": "Decrypt: 'if negb (len (w_dkey w) =? aes_key_size + gcm_overhead)' -> 'if negb (negb (len (w_dkey w) =? aes_key_size + gcm_overhead))' (auto)", "breaks": [], "mod": "Decrypt", "id": "v035"}}
{"mid": "v034", "lemmas": ["StreamRead.er_read_spec"], "hard": [], "failed": ["C02_stream_round_trip", "C03_encrypted_file_streams", "C03_stream_file_decrypts", "C09_truncated_stream", "C10_stream_complete_partial", "C11_released_data_genuine", "C13_stream_signed_partial", "C29_refuted", "C29_single_reader_partial", "C63_output_genuine", "C69_stream_and_decrypt_agree", "C76_stream_origin_partial", "C84_many_files_any_reader_partial", "C84_stream_next_file_untouched_partial", "C84_stream_refuted", "C87_follow_along", "C88_any_form", "C95_set_key_midway_partial"], "secs": 67, "early": true, "m": {"edits": [["Stream.v", " (u32 (er_blk s + 1)) N", " (u32 (er_blk s - 1)) N"]], "definition": "er_read", "desc": "Stream: '+' -> '-' (auto)", "breaks": [], "mod": "Stream", "id": "v034"}}
{"mid": "v037", "lemmas": ["Thm_Told.decrypt_same"], "hard": [], "failed": ["C96_same_outcome"], "secs": 10, "early": true, "m": {"edits": [["Told.v", "true", "false"]], "definition": "decrypt_told", "desc": "Told: 'true' -> 'false' (auto)", "breaks": [], "mod": "Told", "id": "v037"}}
{"mid": "v036", "lemmas": ["StreamProofs.new_stream_writer_spec"], "hard": [], "failed": ["C02_stream_round_trip", "C02_stream_writes_succeed", "C03_encrypted_file_streams", "C03_stream_file_decrypts", "C04_stream_agrees_with_encrypt", "C04_stream_write_sizes_irrelevant", "C05_stream_format", "C06_stream_chunks", "C07_stream_nonces_distinct_partial", "C07_stream_refuted_counter_wraps", "C08_tampered_stream_header", "C09_truncated_file", "C09_truncated_stream", "C10_complete_partial", "C10_refuted_truncation", "C10_stream_complete_partial", "C11_released_data_genuine", "C13_refuted_recipient_forges", "C14_refuted", "C20_refuted", "C27_writes", "C29_refuted", "C57_stream_size", "C58_stream_randomness", "C59_encrypt_against_stream", "C63_output_genuine", "C72_unverified_refuted", "C76_origin_partial", "C76_stream_origin_partial", "C81_stream_content_hidden", "C83_stream_anonymous", "C83_stream_sender_hidden", "C84_many_files_any_reader_partial", "C84_many_files_partial", "C84_next_file_untouched_partial", "C84_refuted", "C84_stream_next_file_untouched_partial", "C84_stream_refuted", "C87_follow_along", "C88_any_form", "C93_discloses", "C95_set_key_midway_partial"], "secs": 38, "early": true, "m": {"edits": [["Stream.v", "if e_started e ", "if negb (e_started e) "]], "definition": "new_stream_writer", "desc": "Stream: 'if e_started e' -> 'if negb (e_started e)' (auto)", "breaks": [], "mod": "Stream", "id": "v036"}}
{"mid": "v038", "lemmas": ["Thm_Flags.short_help"], "hard": [], "failed": ["C71_own_help"], "secs": 13, "early": true, "m": {"edits": [["Flags.v", "if Byte.eqb c x68 ", "if negb (Byte.eqb c x68) "]], "definition": "parse_short", "desc": "Flags: 'if Byte.eqb c x68' -> 'if negb (Byte.eqb c x68)' (auto)", "breaks": [], "mod": "Flags", "id": "v038"}}
{"mid": "v039", "lemmas": ["Thm_Race.C94_torn_refuted"], "hard": [], "failed": ["C94_torn_refuted"], "secs": 8, "early": true, "m": {"edits": [["Race.v", "un n => K (Ok (take (matc", "un n => K (Ok (drop (matc"]], "definition": "words_pk", "desc": "Race: 'take' -> 'drop' (auto)", "breaks": [], "mod": "Race", "id": "v039"}}
{"mid": "v040", "lemmas": ["EncryptProofs.block_size_chunk"], "hard": [], "failed": ["C04_stream_agrees_with_encrypt", "C05_file_format", "C05_stream_format", "C06_chunks", "C06_stream_chunks", "C07_nonces_distinct_partial", "C07_refuted_counter_wraps", "C07_refuted_second_encrypt", "C07_stream_nonces_distinct_partial", "C07_stream_refuted_counter_wraps", "C57_encrypt_size", "C57_stream_size", "C59_encrypt_against_stream", "C81_content_hidden", "C81_stream_content_hidden", "C84_many_files_any_reader_partial", "C84_many_files_partial", "C84_next_file_untouched_partial", "C84_refuted", "C84_stream_next_file_untouched_partial", "C84_stream_refuted", "C87_follow_along"], "secs": 12, "early": true, "m": {"edits": [["Encrypt.v", "=? 0", "=? 1"]], "definition": "block_size", "desc": "Encrypt: '=? 0' -> '=? 1' (auto)", "breaks": [], "mod": "Encrypt", "id": "v040"}}
{"mid": "v042", "lemmas": ["Thm_Usage.C100_texts"], "hard": [], "failed": ["C100_texts"], "secs": 2, "early": true, "m": {"edits": [["Usage.v", "g fs l := match parse_args fs true args with", "g fs l := match parse_args fs false args with"]], "definition": "command_texts", "desc": "Usage: 'true' -> 'false' (auto)", "breaks": [], "mod": "Usage", "id": "v042"}}
{"mid": "v043", "lemmas": ["Thm_Flags.sign_same"], "hard": [], "failed": ["C100_texts", "C71_command", "C71_options", "C72_unverified_refuted", "C73_encrypt_words", "C73_sign_words", "C96_same_outcome", "C99_every_command_line", "C99_misspelt_refuted", "C99_zero_partial"], "secs": 10, "early": true, "m": {"edits": [["Flags.v", " fl \"env-password\" (Some x45) false; fl \"outp", " fl \"env-password\" (Some x45) true; fl \"outp"]], "definition": "sign_flags", "desc": "Flags: 'false' -> 'true' (auto)", "breaks": [], "mod": "Flags", "id": "v043"}}
{"mid": "v044", "lemmas": ["SshProofs.unmarshal_inv"], "hard": [], "failed": ["C33_openssh_line", "C35_private_partial", "C35_public_partial", "C36_private_panics_exactly", "C36_private_partial", "C37_bad_blob_rejected", "C37_blob_exact", "C37_line_exact", "C37_line_partial", "C38_sound", "C39_container_exact", "C43_pair_usable_partial", "C47_verify_exact", "C52_sign_then_verify", "C53_crash_exactly_partial", "C54_round_trip_partial", "C54_string_exact", "C56_decrypt_ends", "C56_encrypt_ends", "C56_sign_ends", "C62_verify_report", "C65_generate_encrypt_decrypt", "C66_generate_sign_verify", "C67_one_key", "C67_private_exact", "C67_public_exact", "C68_only_outputs", "C73_encrypt_words", "C73_sign_words", "C74_failure_changes_nothing_partial", "C75_permissions", "C77_concurrent_runs", "C78_history_partial", "C79_verify_command", "C80_sign", "C88_any_form", "C92_printed_signature_verifies", "C92_sign_exit_status", "C92_sign_to_stdout", "C98_rewritten_key"], "secs": 9, "early": true, "m": {"edits": [["Ssh.v", "if len data =? 0 ", "if negb (len data =? 0) "]], "definition": "ssh_unmarshal", "desc": "Ssh: 'if len data =? 0' -> 'if negb (len data =? 0)' (auto)", "breaks": [], "mod": "Ssh", "id": "v044"}}
{"mid": "v045", "lemmas": ["PbProofs.size_header_spec"], "hard": [], "failed": ["C01_encrypt_decrypt_round_trip", "C01_encrypt_succeeds", "C02_stream_round_trip", "C02_stream_writes_succeed", "C03_encrypted_file_streams", "C03_stream_file_decrypts", "C04_fragmentation_independent", "C04_stream_agrees_with_encrypt", "C04_stream_write_sizes_irrelevant", "C05_file_format", "C05_stream_format", "C06_chunks", "C06_stream_chunks", "C07_nonces_distinct_partial", "C07_refuted_counter_wraps", "C07_refuted_second_encrypt", "C07_stream_nonces_distinct_partial", "C07_stream_refuted_counter_wraps", "C08_tampered_header", "C08_tampered_stream_header", "C09_truncated_file", "C09_truncated_stream", "C10_complete_partial", "C10_refuted_truncation", "C10_stream_complete_partial", "C11_released_data_genuine", "C13_refuted_recipient_forges", "C14_refuted", "C16_recipients_agree", "C20_refuted", "C21_encrypt_errors_partial", "C23_refuted", "C24_recipients_partial", "C24_refuted", "C25_header_codec_round_trip", "C26_reencode", "C27_writes", "C29_refuted", "C48_encrypt_succeeds", "C51_encrypt_then_decrypt", "C56_encrypt_ends", "C57_encrypt_size", "C57_stream_size", "C58_file_randomness", "C58_stream_randomness", "C59_encrypt_against_stream", "C63_output_genuine", "C64_encrypt_succeeds", "C64_pipeline", "C65_generate_encrypt_decrypt", "C72_unverified_refuted", "C73_encrypt_words", "C76_origin_partial", "C76_stream_origin_partial", "C81_content_hidden", "C81_stream_content_hidden", "C83_anonymous", "C83_sender_hidden", "C83_stream_anonymous", "C83_stream_sender_hidden", "C84_many_files_any_reader_partial", "C84_many_files_partial", "C84_next_file_untouched_partial", "C84_refuted", "C84_stream_next_file_untouched_partial", "C84_stream_refuted", "C85_encryptor_never_panics", "C87_follow_along", "C88_any_form", "C93_both_ends", "C93_discloses", "C93_encryptor_messages", "C95_set_key_midway_partial"], "secs": 13, "early": true, "m": {"edits": [["Pb.v", "keys (h_keys m) + len (", "keys (h_keys m) - len ("]], "definition": "size_header", "desc": "Pb: '+' -> '-' (auto)", "breaks": [], "mod": "Pb", "id": "v045"}}
{"mid": "v041", "lemmas": ["SshProofs.auth_loop_acc"], "hard": [], "failed": ["C38_entries_partial", "C38_sound", "C38_total_and_linewise", "C44_no_overwrite_partial", "C44_old_or_new_partial", "C48_encrypt_exact", "C48_unresolved", "C51_encrypt_then_decrypt", "C56_encrypt_ends", "C64_encrypt_to_stdout", "C64_pipeline", "C65_generate_encrypt_decrypt", "C68_only_outputs", "C73_encrypt_words", "C74_failure_changes_nothing_partial", "C75_permissions", "C77_concurrent_runs", "C78_history_partial", "C88_any_form", "C96_every_bad_recipient_named"], "secs": 52, "early": true, "m": {"edits": [["Ssh.v", "++ ks", "++ []"]], "definition": "auth_loop", "desc": "Ssh: '++ ks' -> '++ []' (auto)", "breaks": [], "mod": "Ssh", "id": "v041"}}
{"mid": "v046", "lemmas": ["Thm_Main.abbrev_prefix"], "hard": [], "failed": ["C100_texts", "C100_usage_is_true", "C55_dispatch", "C68_only_outputs", "C71_command", "C72_unverified_refuted", "C73_encrypt_words", "C73_sign_words", "C74_failure_changes_nothing_partial", "C75_permissions", "C77_concurrent_runs", "C78_history_partial", "C99_every_command_line", "C99_zero_partial"], "secs": 10, "early": true, "m": {"edits": [["Main.v", "if beq k w ", "if negb (beq k w) "]], "definition": "find_cmd", "desc": "Main: 'if beq k w' -> 'if negb (beq k w)' (auto)", "breaks": [], "mod": "Main", "id": "v046"}}
{"mid": "v048", "lemmas": ["EncryptProofs.new_encryptor_spec"], "hard": [], "failed": ["C01_encrypt_decrypt_round_trip", "C01_encrypt_succeeds", "C02_stream_round_trip", "C02_stream_writes_succeed", "C03_encrypted_file_streams", "C03_stream_file_decrypts", "C04_fragmentation_independent", "C04_stream_agrees_with_encrypt", "C04_stream_write_sizes_irrelevant", "C05_file_format", "C05_stream_format", "C06_chunks", "C06_stream_chunks", "C07_nonces_distinct_partial", "C07_refuted_counter_wraps", "C07_refuted_second_encrypt", "C07_stream_nonces_distinct_partial", "C07_stream_refuted_counter_wraps", "C08_tampered_header", "C08_tampered_stream_header", "C09_truncated_file", "C09_truncated_stream", "C10_complete_partial", "C10_refuted_truncation", "C10_stream_complete_partial", "C11_released_data_genuine", "C13_refuted_recipient_forges", "C14_refuted", "C16_own_entry_opens", "C16_recipients_agree", "C20_refuted", "C21_encrypt_errors_partial", "C23_chunk_size_partial", "C23_refuted", "C24_recipients_partial", "C24_refuted", "C27_writes", "C29_refuted", "C48_encrypt_succeeds", "C51_encrypt_then_decrypt", "C56_encrypt_ends", "C57_encrypt_size", "C57_stream_size", "C58_file_randomness", "C58_stream_randomness", "C59_encrypt_against_stream", "C61_rejected_exactly", "C63_output_genuine", "C64_encrypt_succeeds", "C64_pipeline", "C65_generate_encrypt_decrypt", "C72_unverified_refuted", "C73_encrypt_words", "C76_origin_partial", "C76_stream_origin_partial", "C81_content_hidden", "C81_stream_content_hidden", "C82_recipients_hidden", "C83_anonymous", "C83_sender_hidden", "C83_stream_anonymous", "C83_stream_sender_hidden", "C84_many_files_any_reader_partial", "C84_many_files_partial", "C84_next_file_untouched_partial", "C84_refuted", "C84_stream_next_file_untouched_partial", "C84_stream_refuted", "C85_encryptor_never_panics", "C87_follow_along", "C88_any_form", "C93_both_ends", "C93_discloses", "C95_set_key_midway_partial"], "secs": 13, "early": true, "m": {"edits": [["Encrypt.v", "g) := rand_buf 32 g in", "g) := rand_buf 33 g in"]], "definition": "new_sender", "desc": "Encrypt: '32' -> '33' (auto)", "breaks": [], "mod": "Encrypt", "id": "v048"}}
{"mid": "v049", "lemmas": ["FlagsProofs.get_text_chosen"], "hard": [], "failed": ["C100_texts", "C71_command", "C71_options", "C72_unverified_refuted", "C73_encrypt_words", "C73_sign_words", "C99_every_command_line", "C99_misspelt_refuted", "C99_zero_partial"], "secs": 7, "early": true, "m": {"edits": [["Flags.v", " get_text s n (if beq m n then ", " get_text s n (if negb (beq m n) then "]], "definition": "get_text", "desc": "Flags: 'if beq m n' -> 'if negb (beq m n)' (auto)", "breaks": [], "mod": "Flags", "id": "v049"}}
{"mid": "v050", "lemmas": ["PbProofs.push_field_spec"], "hard": [], "failed": ["C01_encrypt_decrypt_round_trip", "C01_encrypt_succeeds", "C02_stream_round_trip", "C02_stream_writes_succeed", "C03_encrypted_file_streams", "C03_stream_file_decrypts", "C04_fragmentation_independent", "C04_stream_agrees_with_encrypt", "C04_stream_write_sizes_irrelevant", "C05_file_format", "C05_stream_format", "C06_chunks", "C06_stream_chunks", "C07_nonces_distinct_partial", "C07_refuted_counter_wraps", "C07_refuted_second_encrypt", "C07_stream_nonces_distinct_partial", "C07_stream_refuted_counter_wraps", "C08_tampered_header", "C08_tampered_stream_header", "C09_truncated_file", "C09_truncated_stream", "C10_complete_partial", "C10_refuted_truncation", "C10_stream_complete_partial", "C11_released_data_genuine", "C13_refuted_recipient_forges", "C14_refuted", "C16_recipients_agree", "C20_refuted", "C21_encrypt_errors_partial", "C23_refuted", "C24_recipients_partial", "C24_refuted", "C25_header_codec_round_trip", "C26_reencode", "C27_writes", "C29_refuted", "C48_encrypt_succeeds", "C51_encrypt_then_decrypt", "C56_encrypt_ends", "C57_encrypt_size", "C57_stream_size", "C58_file_randomness", "C58_stream_randomness", "C59_encrypt_against_stream", "C63_output_genuine", "C64_encrypt_succeeds", "C64_pipeline", "C65_generate_encrypt_decrypt", "C72_unverified_refuted", "C73_encrypt_words", "C76_origin_partial", "C76_stream_origin_partial", "C81_content_hidden", "C81_stream_content_hidden", "C83_anonymous", "C83_sender_hidden", "C83_stream_anonymous", "C83_stream_sender_hidden", "C84_many_files_any_reader_partial", "C84_many_files_partial", "C84_next_file_untouched_partial", "C84_refuted", "C84_stream_next_file_untouched_partial", "C84_stream_refuted", "C85_encryptor_never_panics", "C87_follow_along", "C88_any_form", "C93_both_ends", "C93_discloses", "C93_encryptor_messages", "C95_set_key_midway_partial"], "secs": 14, "early": true, "m": {"edits": [["Pb.v", "ytes :=\n  if 0 <? len ", "ytes :=\n  if 0 <=? len "]], "definition": "push_field", "desc": "Pb: '<?' -> '<=?' (auto)", "breaks": [], "mod": "Pb", "id": "v050"}}
{"mid": "v051", "lemmas": ["Thm_Race.wp_conv_sk"], "hard": [], "failed": ["C94_caches", "C94_goroutines_partial"], "secs": 2, "early": true, "m": {"edits": [["Race.v", "  | Some _ => Load (SkCache k 0) (fun c' ", "  | Some _ => Load (SkCache k 1) (fun c' "]], "definition": "conv_sk", "desc": "Race: '0' -> '1' (auto)", "breaks": [], "mod": "Race", "id": "v051"}}
{"mid": "v052", "lemmas": ["EncryptProofs.enc_start_spec"], "hard": [], "failed": ["C01_encrypt_decrypt_round_trip", "C01_encrypt_succeeds", "C02_stream_round_trip", "C02_stream_writes_succeed", "C03_encrypted_file_streams", "C03_stream_file_decrypts", "C04_fragmentation_independent", "C04_stream_agrees_with_encrypt", "C04_stream_write_sizes_irrelevant", "C05_file_format", "C05_stream_format", "C06_chunks", "C06_stream_chunks", "C07_nonces_distinct_partial", "C07_refuted_counter_wraps", "C07_refuted_second_encrypt", "C07_stream_nonces_distinct_partial", "C07_stream_refuted_counter_wraps", "C08_tampered_header", "C08_tampered_stream_header", "C09_truncated_file", "C09_truncated_stream", "C10_complete_partial", "C10_refuted_truncation", "C10_stream_complete_partial", "C11_released_data_genuine", "C13_refuted_recipient_forges", "C14_refuted", "C16_recipients_agree", "C20_refuted", "C21_encrypt_errors_partial", "C23_refuted", "C24_recipients_partial", "C24_refuted", "C27_writes", "C29_refuted", "C48_encrypt_succeeds", "C51_encrypt_then_decrypt", "C56_encrypt_ends", "C57_encrypt_size", "C57_stream_size", "C58_file_randomness", "C58_stream_randomness", "C59_encrypt_against_stream", "C63_output_genuine", "C64_encrypt_succeeds", "C64_pipeline", "C65_generate_encrypt_decrypt", "C72_unverified_refuted", "C73_encrypt_words", "C76_origin_partial", "C76_stream_origin_partial", "C81_content_hidden", "C81_stream_content_hidden", "C83_anonymous", "C83_sender_hidden", "C83_stream_anonymous", "C83_stream_sender_hidden", "C84_many_files_any_reader_partial", "C84_many_files_partial", "C84_next_file_untouched_partial", "C84_refuted", "C84_stream_next_file_untouched_partial", "C84_stream_refuted", "C85_encryptor_never_panics", "C87_follow_along", "C88_any_form", "C93_both_ends", "C93_discloses", "C93_encryptor_messages", "C95_set_key_midway_partial"], "secs": 15, "early": true, "m": {"edits": [["Encrypt.v", "56_size : Z := 32.\nDef", "56_size : Z := 33.\nDef"]], "definition": "sha256_size", "desc": "Encrypt: '32' -> '33' (auto)", "breaks": [], "mod": "Encrypt", "id": "v052"}}
{"mid": "v053", "lemmas": ["StreamRead.shape_cons"], "hard": [], "failed": ["C02_stream_round_trip", "C03_encrypted_file_streams", "C03_stream_file_decrypts", "C09_truncated_stream", "C10_stream_complete_partial", "C11_released_data_genuine", "C13_stream_signed_partial", "C20_no_panic_partial", "C28_read_discipline", "C29_single_reader_partial", "C63_output_genuine", "C69_stream_and_decrypt_agree", "C76_stream_origin_partial", "C84_many_files_any_reader_partial", "C84_stream_next_file_untouched_partial", "C84_stream_refuted", "C87_follow_along", "C88_any_form", "C95_set_key_midway_partial"], "secs": 6, "early": true, "m": {"edits": [["StreamRead.v", " r = [] -> n = 0)) ns", " r = [] -> n = 1)) ns"]], "definition": "read_shape", "desc": "StreamRead: '0' -> '1' (auto)", "breaks": [], "mod": "StreamRead", "id": "v053"}}
{"mid": "v054", "lemmas": ["PbProofs.get_unknown_safe"], "hard": [], "failed": ["C01_encrypt_decrypt_round_trip", "C02_stream_round_trip", "C03_encrypted_file_streams", "C03_stream_file_decrypts", "C05_file_format", "C05_stream_format", "C08_accepted_header", "C08_tampered_header", "C08_tampered_stream_header", "C09_truncated_file", "C09_truncated_stream", "C10_complete_partial", "C10_refuted_truncation", "C10_stream_complete_partial", "C11_released_data_genuine", "C12_authenticated_means_signed", "C13_content_signed_partial", "C13_refuted_recipient_forges", "C13_stream_signed_partial", "C14_refuted", "C14_signed_file_partial", "C15_not_a_recipient", "C16_recipients_agree", "C19_new_decryptor_total", "C20_every_history_partial", "C20_no_panic_partial", "C20_refuted", "C23_refuted", "C24_recipients_partial", "C24_refuted", "C26_decoder_total_and_exact", "C26_reencode", "C28_read_discipline", "C29_refuted", "C29_single_reader_partial", "C46_sender_partial", "C51_encrypt_then_decrypt", "C56_decrypt_ends", "C60_authenticated_exactly", "C60_last_call_decides_partial", "C63_output_genuine", "C64_pipeline", "C65_generate_encrypt_decrypt", "C69_stream_and_decrypt_agree", "C70_one_file_per_encryptor", "C72_unverified_refuted", "C73_encrypt_words", "C76_origin_partial", "C76_stream_origin_partial", "C84_many_files_any_reader_partial", "C84_many_files_partial", "C84_next_file_untouched_partial", "C84_refuted", "C84_stream_next_file_untouched_partial", "C84_stream_refuted", "C87_follow_along", "C88_any_form", "C93_both_ends", "C95_set_key_midway_partial", "C96_failure_is_reported", "C96_no_sender_warning", "C96_success_is_silent", "C96_texts"], "secs": 16, "early": true, "m": {"edits": [["Pb.v", ";\n  if (skippy <? 0) |", ";\n  if (skippy <=? 0) |"]], "definition": "get_unknown", "desc": "Pb: '<?' -> '<=?' (auto)", "breaks": [], "mod": "Pb", "id": "v054"}}
{"mid": "v055", "lemmas": ["TextProofs.index_sub_spec"], "hard": [], "failed": ["C34_comment_refuted", "C34_private_round_trip_partial", "C35_private_partial", "C35_stale_refuted", "C36_openssh_refuted", "C36_private_panics_exactly", "C36_private_refuted", "C42_stored_objects", "C43_pair_usable_partial", "C56_decrypt_ends", "C56_encrypt_ends", "C56_sign_ends", "C65_generate_encrypt_decrypt", "C66_generate_sign_verify", "C67_one_key", "C67_private_exact", "C73_encrypt_words", "C73_sign_words", "C80_sign", "C88_any_form", "C98_rewritten_key"], "secs": 9, "early": true, "m": {"edits": [["GoText.v", " sub b' with Some i => Some (i + 1) | None ", " sub b' with Some i => Some (i - 1) | None "]], "definition": "index_sub", "desc": "GoText: '+' -> '-' (auto)", "breaks": [], "mod": "GoText", "id": "v055"}}
{"mid": "v047", "lemmas": ["Toy.toy_ys_ok"], "hard": [], "failed": ["C21_refuted", "C44_refuted", "C45_close_refuted", "C46_refuted", "C49_refuted", "C50_refuted", "C53_refuted", "C60_refuted", "C74_generate_refuted", "C95_no_panic_refuted", "C95_repeated_call_refuted"], "secs": 101, "early": true, "m": {"edits": [["Keys.v", "Z.land (b2z b) 127)) bi", "Z.land (b2z b) 128)) bi"]], "definition": "curve_of", "desc": "Keys: '127' -> '128' (auto)", "breaks": [], "mod": "Keys", "id": "v047"}}
{"mid": "v057", "lemmas": ["Thm_Flags.no_undeclared_help"], "hard": [], "failed": ["C71_own_help"], "secs": 10, "early": true, "m": {"edits": [["Flags.v", "if beq n (str \"help\") ", "if negb (beq n (str \"help\")) "]], "definition": "parse_args", "desc": "Flags: 'if beq n (str \"help\")' -> 'if negb (beq n (str \"help\"))' (auto)", "breaks": [], "mod": "Flags", "id": "v057"}}
{"mid": "v058", "lemmas": ["StreamProofs.ew_close_spec"], "hard": [], "failed": ["C02_stream_round_trip", "C02_stream_writes_succeed", "C03_encrypted_file_streams", "C03_stream_file_decrypts", "C04_stream_agrees_with_encrypt", "C04_stream_write_sizes_irrelevant", "C05_stream_format", "C06_stream_chunks", "C07_stream_nonces_distinct_partial", "C07_stream_refuted_counter_wraps", "C08_tampered_stream_header", "C09_truncated_file", "C09_truncated_stream", "C10_complete_partial", "C10_refuted_truncation", "C10_stream_complete_partial", "C11_released_data_genuine", "C13_refuted_recipient_forges", "C14_refuted", "C20_refuted", "C29_refuted", "C57_stream_size", "C58_stream_randomness", "C59_encrypt_against_stream", "C63_output_genuine", "C72_unverified_refuted", "C76_origin_partial", "C76_stream_origin_partial", "C81_stream_content_hidden", "C83_stream_anonymous", "C83_stream_sender_hidden", "C84_many_files_any_reader_partial", "C84_many_files_partial", "C84_next_file_untouched_partial", "C84_refuted", "C84_stream_next_file_untouched_partial", "C84_stream_refuted", "C88_any_form", "C93_discloses", "C95_set_key_midway_partial"], "secs": 30, "early": true, "m": {"edits": [["Stream.v", ") w (ew_blk s) true g in", ") w (ew_blk s) false g in"]], "definition": "ew_close", "desc": "Stream: 'true' -> 'false' (auto)", "breaks": [], "mod": "Stream", "id": "v058"}}
{"mid": "v059", "lemmas": ["Thm_Race.set_rest_same"], "hard": [], "failed": ["C94_caches", "C94_goroutines_partial"], "secs": 1, "early": true, "m": {"edits": [["Race.v", "   let dkey := take aes_k", "   let dkey := drop aes_k"]], "definition": "set_rest", "desc": "Race: 'take' -> 'drop' (auto)", "breaks": [], "mod": "Race", "id": "v059"}}
{"mid": "v056", "lemmas": ["Thm_Pipe.C62_verify_report"], "hard": [], "failed": ["C62_verify_report", "C68_only_outputs", "C73_sign_words", "C74_failure_changes_nothing_partial", "C75_permissions", "C77_concurrent_runs", "C78_history_partial"], "secs": 61, "early": true, "m": {"edits": [["Cli.v", "re \" ++ sn ++ (if ok then ", "re \" ++ sn ++ (if negb (ok) then "]], "definition": "verify_text", "desc": "Cli: 'if ok' -> 'if negb (ok)' (auto)", "breaks": [], "mod": "Cli", "id": "v056"}}
{"mid": "v061", "error": "edit does not compile: :\nIn environment\nC : crypto\ninp : bytes\ninp0 :=\nmatch find_byte (Byte.eqb \"013\") inp with\n| Some e => take e inp\n| None => inp\nend : bytes\ninp1 := trim_space inp0 : bytes\nb : byte\nl : bytes\ni : Z\ng : goerr\ninp2 := skip_blanks (drop (opt_end inp1 0 \"000\" false) inp1) : bytes\nb0 : byte\nl0 : bytes\nThe term \"Ok [\"000\"%byte]\" has type \"res bytes\"\nwhile it is expected to have type \"res (list pubkey)\".\n\n", "m": {"edits": [["Ssh.v", "                    | None => Ok []\n         ", "                    | None => Ok [x00]\n         "]], "definition": "auth_line", "desc": "Ssh: 'Ok []' -> 'Ok [x00]' (auto)", "breaks": [], "mod": "Ssh", "id": "v061"}}
{"mid": "v062", "lemmas": ["TextProofs.split_at"], "hard": [], "failed": ["C33_openssh_line", "C33_public_round_trip", "C33_yaml_exact", "C35_public_partial", "C36_public_panics_exactly", "C37_bad_blob_rejected", "C37_comment_refuted", "C37_line_exact", "C37_line_partial", "C42_stored_objects", "C43_pair_usable_partial", "C47_verify_exact", "C52_sign_then_verify", "C53_crash_exactly_partial", "C54_refuted", "C54_round_trip_partial", "C54_string_exact", "C56_decrypt_ends", "C56_encrypt_ends", "C62_verify_report", "C65_generate_encrypt_decrypt", "C66_generate_sign_verify", "C67_public_exact", "C68_only_outputs", "C73_encrypt_words", "C73_sign_words", "C74_failure_changes_nothing_partial", "C75_permissions", "C77_concurrent_runs", "C78_history_partial", "C79_verify_command", "C88_any_form", "C92_printed_signature_verifies"], "secs": 6, "early": true, "m": {"edits": [["GoText.v", "t_blanks s' [] true)\n   ", "t_blanks s' [] false)\n   "]], "definition": "split_blanks", "desc": "GoText: 'true' -> 'false' (auto)", "breaks": [], "mod": "GoText", "id": "v062"}}
{"mid": "v063", "lemmas": ["EncryptProofs.new_gcm_32"], "hard": [], "failed": ["C01_encrypt_decrypt_round_trip", "C01_encrypt_succeeds", "C02_stream_round_trip", "C02_stream_writes_succeed", "C03_encrypted_file_streams", "C03_stream_file_decrypts", "C04_fragmentation_independent", "C04_stream_agrees_with_encrypt", "C04_stream_write_sizes_irrelevant", "C05_file_format", "C05_stream_format", "C06_chunks", "C06_stream_chunks", "C07_nonces_distinct_partial", "C07_refuted_counter_wraps", "C07_refuted_second_encrypt", "C07_stream_nonces_distinct_partial", "C07_stream_refuted_counter_wraps", "C08_tampered_header", "C08_tampered_stream_header", "C09_truncated_file", "C09_truncated_stream", "C10_complete_partial", "C10_refuted_truncation", "C10_stream_complete_partial", "C11_released_data_genuine", "C12_authenticated_means_signed", "C13_content_signed_partial", "C13_refuted_recipient_forges", "C13_stream_signed_partial", "C14_refuted", "C14_signed_file_partial", "C15_not_a_recipient", "C16_own_entry_opens", "C16_recipients_agree", "C20_every_history_partial", "C20_no_panic_partial", "C20_refuted", "C21_encrypt_errors_partial", "C23_chunk_size_partial", "C23_refuted", "C24_recipients_partial", "C24_refuted", "C27_writes", "C28_read_discipline", "C29_refuted", "C29_single_reader_partial", "C34_comment_refuted", "C34_private_round_trip_partial", "C36_private_panics_exactly", "C36_private_refuted", "C42_stored_objects", "C43_generate_exit_status", "C43_pair_usable_partial", "C46_sender_partial", "C48_encrypt_succeeds", "C51_encrypt_then_decrypt", "C56_decrypt_ends", "C56_encrypt_ends", "C56_generate_ends", "C56_sign_ends", "C57_encrypt_size", "C57_stream_size", "C58_file_randomness", "C58_stream_randomness", "C59_encrypt_against_stream", "C60_authenticated_exactly", "C60_last_call_decides_partial", "C61_rejected_exactly", "C61_rejected_recipients_leave_no_trace", "C63_output_genuine", "C64_encrypt_succeeds", "C64_pipeline", "C65_generate_encrypt_decrypt", "C66_generate_sign_verify", "C67_one_key", "C67_private_exact", "C69_stream_and_decrypt_agree", "C72_unverified_refuted", "C73_encrypt_words", "C73_sign_words", "C76_origin_partial", "C76_stream_origin_partial", "C80_generate", "C80_marshal", "C80_sign", "C81_content_hidden", "C81_stream_content_hidden", "C82_recipients_hidden", "C83_anonymous", "C83_sender_hidden", "C83_stream_anonymous", "C83_stream_sender_hidden", "C84_many_files_any_reader_partial", "C84_many_files_partial", "C84_next_file_untouched_partial", "C84_refuted", "C84_stream_next_file_untouched_partial", "C84_stream_refuted", "C85_encryptor_never_panics", "C87_follow_along", "C88_any_form", "C92_sign_exit_status", "C92_sign_to_stdout", "C93_both_ends", "C93_discloses", "C93_encryptor_messages", "C95_set_key_midway_partial", "C98_rewritten_key"], "secs": 11, "early": true, "m": {"edits": [["Crypto.v", "|| (len key =? 32) the", "|| (len key =? 33) the"]], "definition": "new_gcm", "desc": "Crypto: '32' -> '33' (auto)", "breaks": [], "mod": "Crypto", "id": "v063"}}
{"mid": "v064", "lemmas": ["FsProofs.like_unchanged"], "hard": [], "failed": ["C42_stored_objects", "C42_write_atomic", "C43_generate", "C44_old_or_new_partial", "C45_decrypt_to_file_partial", "C48_encrypt_exact", "C48_unresolved", "C49_sign_partial", "C50_new_pair_partial", "C51_encrypt_then_decrypt", "C52_sign_then_verify", "C65_generate_encrypt_decrypt", "C66_generate_sign_verify", "C68_only_outputs", "C73_encrypt_words", "C73_sign_words", "C74_failure_changes_nothing_partial", "C78_history_partial", "C80_sign"], "secs": 3, "early": true, "m": {"edits": [["Fs.v", "ption bytes :=\n  match follow 40 f s with ", "ption bytes :=\n  match follow 41 f s with "]], "definition": "content", "desc": "Fs: '40' -> '41' (auto)", "breaks": [], "mod": "Fs", "id": "v064"}}
{"mid": "v065", "lemmas": ["CliProofs.open_in_ok"], "hard": [], "failed": ["C44_no_overwrite_partial", "C44_old_or_new_partial", "C45_decrypt_succeeds", "C45_decrypt_to_file_partial", "C45_test_mode", "C46_refuted", "C46_sender_partial", "C48_encrypt_exact", "C48_encrypt_succeeds", "C48_unresolved", "C51_encrypt_then_decrypt", "C63_decrypt_to_stdout", "C63_output_genuine", "C64_encrypt_succeeds", "C64_encrypt_to_stdout", "C64_pipeline", "C65_generate_encrypt_decrypt", "C68_only_outputs", "C72_unverified_refuted", "C73_encrypt_words", "C74_failure_changes_nothing_partial", "C75_permissions", "C77_concurrent_runs", "C78_history_partial"], "secs": 2, "early": true, "m": {"edits": [["Cli.v", "None => Ok", "None => id Ok"]], "definition": "open_in", "desc": "Cli: 'None => Ok' -> 'None => id Ok' (auto)", "breaks": [], "mod": "Cli", "id": "v065"}}
{"mid": "v066", "lemmas": ["Base64Proofs.val_crlf"], "hard": [], "failed": ["C32_signature_reading_exact", "C32_signature_round_trip", "C33_openssh_line", "C33_public_round_trip", "C33_yaml_exact", "C34_private_round_trip_partial", "C35_public_partial", "C36_private_panics_exactly", "C36_private_partial", "C36_private_refuted", "C36_public_panics_exactly", "C37_bad_blob_rejected", "C37_blob_exact", "C37_line_exact", "C37_line_partial", "C38_entries_partial", "C38_sound", "C40_decode_exact", "C40_refused", "C40_round_trip", "C42_stored_objects", "C43_pair_usable_partial", "C47_verify_exact", "C52_sign_then_verify", "C53_crash_exactly_partial", "C54_refuted", "C54_round_trip_partial", "C54_string_exact", "C56_decrypt_ends", "C56_encrypt_ends", "C56_sign_ends", "C62_verify_report", "C65_generate_encrypt_decrypt", "C66_generate_sign_verify", "C67_one_key", "C67_private_exact", "C67_public_exact", "C68_only_outputs", "C73_encrypt_words", "C73_sign_words", "C74_failure_changes_nothing_partial", "C75_permissions", "C77_concurrent_runs", "C78_history_partial", "C79_verify_command", "C88_any_form", "C92_printed_signature_verifies", "C98_rewritten_key"], "secs": 1, "early": true, "m": {"edits": [["Base64.v", "||", "&&"]], "definition": "is_crlf", "desc": "Base64: '||' -> '&&' (auto)", "breaks": [], "mod": "Base64", "id": "v066"}}
{"mid": "v067", "lemmas": ["PbProofs.i64_small"], "hard": [], "failed": ["C01_encrypt_decrypt_round_trip", "C02_stream_round_trip", "C03_encrypted_file_streams", "C03_stream_file_decrypts", "C05_file_format", "C05_stream_format", "C08_accepted_header", "C08_tampered_header", "C08_tampered_stream_header", "C09_truncated_file", "C09_truncated_stream", "C10_complete_partial", "C10_refuted_truncation", "C10_stream_complete_partial", "C11_released_data_genuine", "C12_authenticated_means_signed", "C13_content_signed_partial", "C13_refuted_recipient_forges", "C13_stream_signed_partial", "C14_refuted", "C14_signed_file_partial", "C15_not_a_recipient", "C16_recipients_agree", "C19_new_decryptor_total", "C20_every_history_partial", "C20_no_panic_partial", "C20_refuted", "C23_refuted", "C24_recipients_partial", "C24_refuted", "C25_header_codec_round_trip", "C26_decoder_total_and_exact", "C26_reencode", "C28_read_discipline", "C29_refuted", "C29_single_reader_partial", "C46_sender_partial", "C51_encrypt_then_decrypt", "C56_decrypt_ends", "C60_authenticated_exactly", "C60_last_call_decides_partial", "C63_output_genuine", "C64_pipeline", "C65_generate_encrypt_decrypt", "C69_stream_and_decrypt_agree", "C70_one_file_per_encryptor", "C72_unverified_refuted", "C73_encrypt_words", "C76_origin_partial", "C76_stream_origin_partial", "C84_many_files_any_reader_partial", "C84_many_files_partial", "C84_next_file_untouched_partial", "C84_refuted", "C84_stream_next_file_untouched_partial", "C84_stream_refuted", "C87_follow_along", "C88_any_form", "C93_both_ends", "C95_set_key_midway_partial", "C96_failure_is_reported", "C96_no_sender_warning", "C96_success_is_silent", "C96_texts"], "secs": 20, "early": true, "m": {"edits": [["Bytes.v", " 2^63) mod 2^64 - 2^63.", " 2^63) mod 2^64 + 2^63."]], "definition": "i64", "desc": "Bytes: '-' -> '+' (auto)", "breaks": [], "mod": "Bytes", "id": "v067"}}
{"mid": "v068", "lemmas": ["Thm_Files.C43_generate"], "hard": [], "failed": ["C43_generate", "C50_new_pair_partial", "C65_generate_encrypt_decrypt", "C66_generate_sign_verify", "C73_encrypt_words", "C73_sign_words"], "secs": 49, "early": true, "m": {"edits": [["Cli.v", "with Some _ => true | No", "with Some _ => false | No"]], "definition": "exists_", "desc": "Cli: 'true' -> 'false' (auto)", "breaks": [], "mod": "Cli", "id": "v068"}}
{"mid": "v069", "error": "edit does not compile: File \"./theories/Told.v\", line 50, characters 37-43:\nError: No interpretation for string \".pub\".\n\n", "m": {"edits": [["Told.v", " wo_clean W bn ++ str \".pu", " wo_clean W bn ++ [] \".pu"]], "definition": "generate_told", "desc": "Told: '++ str' -> '++ []' (auto)", "breaks": [], "mod": "Told", "id": "v069"}}
{"mid": "v060", "lemmas": ["LocalProofs.rng_bytes_agree"], "hard": [], "failed": ["C91_objects_independent", "C94_caches", "C94_goroutines_partial"], "secs": 116, "early": true, "m": {"edits": [["GoIO.v", "g_bytes t (p + 1) n' ", "g_bytes t (p + 2) n' "]], "definition": "rng_bytes", "desc": "GoIO: '1' -> '2' (auto)", "breaks": [], "mod": "GoIO", "id": "v060"}}
{"mid": "v070", "lemmas": ["OpenProofs.verify_sender_spec"], "hard": [], "failed": ["C01_encrypt_decrypt_round_trip", "C02_stream_round_trip", "C03_encrypted_file_streams", "C03_stream_file_decrypts", "C09_truncated_file", "C09_truncated_stream", "C10_complete_partial", "C10_refuted_truncation", "C10_stream_complete_partial", "C11_released_data_genuine", "C12_authenticated_means_signed", "C13_content_signed_partial", "C13_refuted_recipient_forges", "C13_stream_signed_partial", "C14_refuted", "C14_signed_file_partial", "C16_recipients_agree", "C20_every_history_partial", "C20_no_panic_partial", "C20_refuted", "C28_read_discipline", "C29_refuted", "C29_single_reader_partial", "C46_sender_partial", "C51_encrypt_then_decrypt", "C56_decrypt_ends", "C60_authenticated_exactly", "C60_last_call_decides_partial", "C63_output_genuine", "C64_pipeline", "C65_generate_encrypt_decrypt", "C69_stream_and_decrypt_agree", "C72_unverified_refuted", "C73_encrypt_words", "C76_origin_partial", "C76_stream_origin_partial", "C84_many_files_any_reader_partial", "C84_many_files_partial", "C84_next_file_untouched_partial", "C84_refuted", "C84_stream_next_file_untouched_partial", "C84_stream_refuted", "C87_follow_along", "C88_any_form", "C93_both_ends", "C95_set_key_midway_partial"], "secs": 49, "early": true, "m": {"edits": [["Decrypt.v", "if negb ok ", "if negb (negb ok) "]], "definition": "verify_sender", "desc": "Decrypt: 'if negb ok' -> 'if negb (negb ok)' (auto)", "breaks": [], "mod": "Decrypt", "id": "v070"}}
{"mid": "v071", "lemmas": ["StreamRead.stream_read_left"], "hard": [], "failed": ["C02_stream_round_trip", "C03_encrypted_file_streams", "C03_stream_file_decrypts", "C09_truncated_stream", "C10_stream_complete_partial", "C11_released_data_genuine", "C13_stream_signed_partial", "C29_single_reader_partial", "C63_output_genuine", "C69_stream_and_decrypt_agree", "C76_stream_origin_partial", "C84_many_files_any_reader_partial", "C84_stream_next_file_untouched_partial", "C84_stream_refuted", "C88_any_form"], "secs": 70, "early": true, "m": {"edits": [["Stream.v", " d, Ok (mkEr 0 0 0 No", " d, Ok (mkEr 0 1 0 No"]], "definition": "new_stream_reader", "desc": "Stream: '0' -> '1' (auto)", "breaks": [], "mod": "Stream", "id": "v071"}}
{"mid": "v073", "lemmas": ["SshProofs.parse_string_S4"], "hard": [], "failed": ["C33_openssh_line", "C35_public_partial", "C36_openssh_refuted", "C36_private_panics_exactly", "C36_public_panics_exactly", "C37_bad_blob_rejected", "C37_blob_exact", "C37_line_exact", "C37_line_partial", "C38_entries_partial", "C39_container_exact", "C43_pair_usable_partial", "C47_verify_exact", "C52_sign_then_verify", "C53_crash_exactly_partial", "C54_refuted", "C54_round_trip_partial", "C54_string_exact", "C56_decrypt_ends", "C56_encrypt_ends", "C56_sign_ends", "C62_verify_report", "C65_generate_encrypt_decrypt", "C66_generate_sign_verify", "C67_one_key", "C67_private_exact", "C67_public_exact", "C68_only_outputs", "C73_encrypt_words", "C73_sign_words", "C74_failure_changes_nothing_partial", "C75_permissions", "C77_concurrent_runs", "C78_history_partial", "C79_verify_command", "C88_any_form", "C92_printed_signature_verifies", "C98_rewritten_key"], "secs": 7, "early": true, "m": {"edits": [["Ssh.v", "=\n  if len inp <? 4 th", "=\n  if len inp <=? 4 th"]], "definition": "parse_string", "desc": "Ssh: '<?' -> '<=?' (auto)", "breaks": [], "mod": "Ssh", "id": "v073"}}
{"mid": "v074", "lemmas": ["BytesLemmas.b2z_z2b"], "hard": [], "failed": ["C01_encrypt_decrypt_round_trip", "C01_encrypt_succeeds", "C02_stream_round_trip", "C02_stream_writes_succeed", "C03_encrypted_file_streams", "C03_stream_file_decrypts", "C04_fragmentation_independent", "C04_stream_agrees_with_encrypt", "C04_stream_write_sizes_irrelevant", "C05_file_format", "C05_stream_format", "C06_chunks", "C06_stream_chunks", "C07_nonces_distinct_partial", "C07_refuted_counter_wraps", "C07_refuted_second_encrypt", "C07_stream_nonces_distinct_partial", "C07_stream_refuted_counter_wraps", "C08_accepted_header", "C08_tampered_header", "C08_tampered_stream_header", "C09_truncated_file", "C09_truncated_stream", "C10_complete_partial", "C10_refuted_truncation", "C10_stream_complete_partial", "C11_released_data_genuine", "C13_content_signed_partial", "C13_refuted_recipient_forges", "C13_stream_signed_partial", "C14_refuted", "C16_recipients_agree", "C20_refuted", "C21_encrypt_errors_partial", "C21_refuted", "C23_refuted", "C24_recipients_partial", "C24_refuted", "C25_header_codec_round_trip", "C26_reencode", "C27_writes", "C29_refuted", "C29_single_reader_partial", "C32_signature_reading_exact", "C32_signature_round_trip", "C33_openssh_line", "C33_public_round_trip", "C33_yaml_exact", "C34_private_round_trip_partial", "C35_private_partial", "C35_public_partial", "C36_openssh_refuted", "C36_private_panics_exactly", "C36_private_partial", "C36_private_refuted", "C36_public_panics_exactly", "C37_bad_blob_rejected", "C37_blob_exact", "C37_line_exact", "C37_line_partial", "C38_entries_partial", "C38_sound", "C38_total_and_linewise", "C39_container_exact", "C39_section_unique", "C40_decode_exact", "C40_refused", "C40_round_trip", "C41_private_key_conversion", "C41_public_key_conversion", "C42_stored_objects", "C43_pair_usable_partial", "C44_no_overwrite_partial", "C44_old_or_new_partial", "C44_refuted", "C45_close_refuted", "C46_refuted", "C47_verify_exact", "C48_encrypt_exact", "C48_encrypt_succeeds", "C48_unresolved", "C49_refuted", "C50_refuted", "C51_encrypt_then_decrypt", "C52_sign_then_verify", "C53_crash_exactly_partial", "C53_refuted", "C54_refuted", "C54_round_trip_partial", "C54_string_exact", "C56_decrypt_ends", "C56_encrypt_ends", "C56_sign_ends", "C57_encrypt_size", "C57_stream_size", "C58_file_randomness", "C58_stream_randomness", "C59_encrypt_against_stream", "C60_refuted", "C62_verify_report", "C63_output_genuine", "C64_encrypt_succeeds", "C64_encrypt_to_stdout", "C64_pipeline", "C65_generate_encrypt_decrypt", "C66_generate_sign_verify", "C67_one_key", "C67_private_exact", "C67_public_exact", "C68_only_outputs", "C69_stream_and_decrypt_agree", "C70_one_file_per_encryptor", "C72_unverified_refuted", "C73_encrypt_words", "C73_sign_words", "C74_failure_changes_nothing_partial", "C74_generate_refuted", "C75_permissions", "C76_origin_partial", "C76_stream_origin_partial", "C77_concurrent_runs", "C78_history_partial", "C79_verify_command", "C80_sign", "C81_content_hidden", "C81_stream_content_hidden", "C83_anonymous", "C83_sender_hidden", "C83_stream_anonymous", "C83_stream_sender_hidden", "C84_many_files_any_reader_partial", "C84_many_files_partial", "C84_next_file_untouched_partial", "C84_refuted", "C84_stream_next_file_untouched_partial", "C84_stream_refuted", "C85_encryptor_never_panics", "C87_follow_along", "C88_any_form", "C92_printed_signature_verifies", "C92_sign_exit_status", "C92_sign_to_stdout", "C93_both_ends", "C93_discloses", "C93_encryptor_messages", "C95_no_panic_refuted", "C95_repeated_call_refuted", "C95_set_key_midway_partial", "C96_every_bad_recipient_named", "C98_rewritten_key"], "secs": 1, "early": true, "m": {"edits": [["Bytes.v", "(Z.to_N (z mod 256)) wi", "(Z.to_N (z mod 257)) wi"]], "definition": "z2b", "desc": "Bytes: '256' -> '257' (auto)", "breaks": [], "mod": "Bytes", "id": "v074"}}
{"mid": "v075", "lemmas": ["SshProofs.skip_blanks_app"], "hard": [], "failed": ["C38_entries_partial", "C88_any_form"], "secs": 12, "early": true, "m": {"edits": [["Ssh.v", "if is_blank c ", "if negb (is_blank c) "]], "definition": "skip_blanks", "desc": "Ssh: 'if is_blank c' -> 'if negb (is_blank c)' (auto)", "breaks": [], "mod": "Ssh", "id": "v075"}}
{"mid": "v076", "error": "edit does not compile: File \"./theories/Told.v\", line 26, characters 38-48:\nError: Illegal application (Non-functional construction): \nThe expression \"[]\" of type \"list ?A\"\ncannot be applied to the term\n \"fst m\" : \"string\"\n\n", "m": {"edits": [["Told.v", "v0 ++ str \": \" ++ str (fst", "v0 ++ str \": \" ++ [] (fst"]], "definition": "warn", "desc": "Told: '++ str' -> '++ []' (auto)", "breaks": [], "mod": "Told", "id": "v076"}}
{"mid": "v072", "lemmas": ["SshKeyProofs.section_ok"], "hard": [], "failed": ["C39_container_exact", "C67_one_key", "C67_private_exact", "C88_any_form", "C98_rewritten_key"], "secs": 58, "early": true, "m": {"edits": [["Ssh.v", "       else if negb (good_", "       else if id (good_"]], "definition": "open_section", "desc": "Ssh: 'negb (' -> 'id (' (auto)", "breaks": [], "mod": "Ssh", "id": "v072"}}
{"mid": "v077", "lemmas": ["EncryptProofs.to_curve_pk_pt"], "hard": [], "failed": ["C01_encrypt_decrypt_round_trip", "C01_encrypt_succeeds", "C02_stream_round_trip", "C02_stream_writes_succeed", "C03_encrypted_file_streams", "C03_stream_file_decrypts", "C04_fragmentation_independent", "C04_stream_agrees_with_encrypt", "C04_stream_write_sizes_irrelevant", "C05_file_format", "C05_stream_format", "C06_chunks", "C06_stream_chunks", "C07_nonces_distinct_partial", "C07_refuted_counter_wraps", "C07_refuted_second_encrypt", "C07_stream_nonces_distinct_partial", "C07_stream_refuted_counter_wraps", "C08_tampered_header", "C08_tampered_stream_header", "C09_truncated_file", "C09_truncated_stream", "C10_complete_partial", "C10_refuted_truncation", "C10_stream_complete_partial", "C11_released_data_genuine", "C13_refuted_recipient_forges", "C14_refuted", "C16_own_entry_opens", "C16_recipients_agree", "C20_refuted", "C21_encrypt_errors_partial", "C23_chunk_size_partial", "C23_refuted", "C24_recipients_partial", "C24_refuted", "C27_writes", "C29_refuted", "C48_encrypt_succeeds", "C51_encrypt_then_decrypt", "C56_encrypt_ends", "C57_encrypt_size", "C57_stream_size", "C58_file_randomness", "C58_stream_randomness", "C59_encrypt_against_stream", "C61_rejected_exactly", "C63_output_genuine", "C64_encrypt_succeeds", "C64_pipeline", "C65_generate_encrypt_decrypt", "C72_unverified_refuted", "C73_encrypt_words", "C76_origin_partial", "C76_stream_origin_partial", "C81_content_hidden", "C81_stream_content_hidden", "C82_recipients_hidden", "C83_anonymous", "C83_sender_hidden", "C83_stream_anonymous", "C83_stream_sender_hidden", "C84_many_files_any_reader_partial", "C84_many_files_partial", "C84_next_file_untouched_partial", "C84_refuted", "C84_stream_next_file_untouched_partial", "C84_stream_refuted", "C85_encryptor_never_panics", "C87_follow_along", "C88_any_form", "C93_both_ends", "C93_discloses", "C95_set_key_midway_partial"], "secs": 12, "early": true, "m": {"edits": [["Keys.v", "if 32 <? len (pk_Pk pk) ", "if negb (32 <? len (pk_Pk pk)) "]], "definition": "to_curve_pk", "desc": "Keys: 'if 32 <? len (pk_Pk pk)' -> 'if negb (32 <? len (pk_Pk pk))' (auto)", "breaks": [], "mod": "Keys", "id": "v077"}}
{"mid": "v078", "lemmas": ["CliProofs.slurp_ok"], "hard": [], "failed": ["C44_no_overwrite_partial", "C44_old_or_new_partial", "C45_decrypt_succeeds", "C45_decrypt_to_file_partial", "C45_test_mode", "C46_refuted", "C46_sender_partial", "C47_verify_exact", "C48_encrypt_exact", "C48_encrypt_succeeds", "C48_unresolved", "C49_sign_partial", "C51_encrypt_then_decrypt", "C52_sign_then_verify", "C53_crash_exactly_partial", "C56_decrypt_ends", "C56_encrypt_ends", "C56_sign_ends", "C62_verify_report", "C63_decrypt_to_stdout", "C63_output_genuine", "C64_encrypt_succeeds", "C64_encrypt_to_stdout", "C64_pipeline", "C65_generate_encrypt_decrypt", "C66_generate_sign_verify", "C68_only_outputs", "C72_unverified_refuted", "C73_encrypt_words", "C73_sign_words", "C74_failure_changes_nothing_partial", "C75_permissions", "C77_concurrent_runs", "C78_history_partial", "C79_verify_command", "C80_sign", "C92_printed_signature_verifies", "C92_sign_exit_status", "C92_sign_to_stdout", "C96_every_bad_recipient_named", "C96_truthful"], "secs": 4, "early": true, "m": {"edits": [["Store.v", "None => Ok", "None => id Ok"]], "definition": "read_file", "desc": "Store: 'None => Ok' -> 'None => id Ok' (auto)", "breaks": [], "mod": "Store", "id": "v078"}}
{"mid": "v079", "error": "edit does not compile: File \"./theories/KeyFiles.v\", line 29, characters 80-86:\nError: No interpretation for string \"hash\".\n\n", "m": {"edits": [["KeyFiles.v", "r E (su_pk r)) ++ y_field \"has", "r E (su_pk r)) ++ [] \"has"]], "definition": "yaml_pub", "desc": "KeyFiles: '++ y_field' -> '++ []' (auto)", "breaks": [], "mod": "KeyFiles", "id": "v079"}}
{"mid": "v081", "lemmas": ["OpenProofs.wkeys_sane_spec"], "hard": [], "failed": ["C01_encrypt_decrypt_round_trip", "C02_stream_round_trip", "C03_encrypted_file_streams", "C03_stream_file_decrypts", "C08_accepted_header", "C08_tampered_header", "C08_tampered_stream_header", "C09_truncated_file", "C09_truncated_stream", "C10_complete_partial", "C10_refuted_truncation", "C10_stream_complete_partial", "C11_released_data_genuine", "C12_authenticated_means_signed", "C13_content_signed_partial", "C13_refuted_recipient_forges", "C13_stream_signed_partial", "C14_refuted", "C14_signed_file_partial", "C15_not_a_recipient", "C16_recipients_agree", "C19_new_decryptor_total", "C20_every_history_partial", "C20_no_panic_partial", "C20_refuted", "C23_refuted", "C24_recipients_partial", "C24_refuted", "C28_read_discipline", "C29_refuted", "C29_single_reader_partial", "C46_sender_partial", "C51_encrypt_then_decrypt", "C56_decrypt_ends", "C60_authenticated_exactly", "C60_last_call_decides_partial", "C63_output_genuine", "C64_pipeline", "C65_generate_encrypt_decrypt", "C69_stream_and_decrypt_agree", "C70_one_file_per_encryptor", "C72_unverified_refuted", "C73_encrypt_words", "C76_origin_partial", "C76_stream_origin_partial", "C84_many_files_any_reader_partial", "C84_many_files_partial", "C84_next_file_untouched_partial", "C84_refuted", "C84_stream_next_file_untouched_partial", "C84_stream_refuted", "C87_follow_along", "C88_any_form", "C93_both_ends", "C95_set_key_midway_partial", "C96_failure_is_reported", "C96_no_sender_warning", "C96_success_is_silent", "C96_texts"], "secs": 49, "early": true, "m": {"edits": [["Decrypt.v", "if len (w_dkey k) <=? aes_key_size ", "if negb (len (w_dkey k) <=? aes_key_size) "]], "definition": "wkeys_sane", "desc": "Decrypt: 'if len (w_dkey k) <=? aes_key_size' -> 'if negb (len (w_dkey k) <=? aes_key_size)' (auto)", "breaks": [], "mod": "Decrypt", "id": "v081"}}
{"mid": "v082", "lemmas": ["Thm_Main.C55_dispatch"], "hard": [], "failed": ["C100_texts", "C55_dispatch", "C68_only_outputs", "C71_command", "C72_unverified_refuted", "C73_encrypt_words", "C73_sign_words", "C74_failure_changes_nothing_partial", "C75_permissions", "C77_concurrent_runs", "C78_history_partial", "C99_every_command_line", "C99_zero_partial"], "secs": 8, "early": true, "m": {"edits": [["Main.v", "if mo_help o ", "if negb (mo_help o) "]], "definition": "main", "desc": "Main: 'if mo_help o' -> 'if negb (mo_help o)' (auto)", "breaks": [], "mod": "Main", "id": "v082"}}
{"mid": "v080", "lemmas": ["SshKeyProofs.extract_ok"], "hard": [], "failed": ["C36_openssh_refuted", "C36_private_panics_exactly", "C39_container_exact", "C56_decrypt_ends", "C56_encrypt_ends", "C56_sign_ends", "C67_one_key", "C67_private_exact", "C88_any_form", "C98_rewritten_key"], "secs": 64, "early": true, "m": {"edits": [["Ssh.v", "e if (len salt =? 0) || ", "e if (len salt =? 1) || "]], "definition": "bcrypt_key", "desc": "Ssh: '=? 0' -> '=? 1' (auto)", "breaks": [], "mod": "Ssh", "id": "v080"}}
{"mid": "v083", "lemmas": ["TextProofs.is_blank_spec"], "hard": [], "failed": ["C33_openssh_line", "C33_public_round_trip", "C33_yaml_exact", "C35_public_partial", "C36_public_panics_exactly", "C37_bad_blob_rejected", "C37_comment_refuted", "C37_line_exact", "C37_line_partial", "C38_entries_partial", "C42_stored_objects", "C43_pair_usable_partial", "C47_verify_exact", "C52_sign_then_verify", "C53_crash_exactly_partial", "C54_refuted", "C54_round_trip_partial", "C54_string_exact", "C56_decrypt_ends", "C56_encrypt_ends", "C62_verify_report", "C65_generate_encrypt_decrypt", "C66_generate_sign_verify", "C67_public_exact", "C68_only_outputs", "C73_encrypt_words", "C73_sign_words", "C74_failure_changes_nothing_partial", "C75_permissions", "C77_concurrent_runs", "C78_history_partial", "C79_verify_command", "C88_any_form", "C92_printed_signature_verifies"], "secs": 6, "early": true, "m": {"edits": [["GoText.v", "||", "&&"]], "definition": "is_blank", "desc": "GoText: '||' -> '&&' (auto)", "breaks": [], "mod": "GoText", "id": "v083"}}
{"mid": "v085", "lemmas": ["Scene.session1"], "hard": [], "failed": ["C21_refuted"], "secs": 98, "early": true, "m": {"edits": [["Keys.v", "++ pkb", "++ []"]], "definition": "new_private_key", "desc": "Keys: '++ pkb' -> '++ []' (auto)", "breaks": [], "mod": "Keys", "id": "v085"}}
{"mid": "v086", "lemmas": ["Thm_Told.C96_same_outcome"], "hard": [], "failed": ["C96_same_outcome"], "secs": 8, "early": true, "m": {"edits": [["Told.v", "| None => quit 1 [(\"U", "| None => quit 2 [(\"U"]], "definition": "main_told", "desc": "Told: '1' -> '2' (auto)", "breaks": [], "mod": "Told", "id": "v086"}}
{"mid": "v087", "lemmas": ["EncryptProofs.block_size_chunk"], "hard": [], "failed": ["C04_stream_agrees_with_encrypt", "C05_file_format", "C05_stream_format", "C06_chunks", "C06_stream_chunks", "C07_nonces_distinct_partial", "C07_refuted_counter_wraps", "C07_refuted_second_encrypt", "C07_stream_nonces_distinct_partial", "C07_stream_refuted_counter_wraps", "C57_encrypt_size", "C57_stream_size", "C59_encrypt_against_stream", "C81_content_hidden", "C81_stream_content_hidden", "C84_many_files_any_reader_partial", "C84_many_files_partial", "C84_next_file_untouched_partial", "C84_refuted", "C84_stream_next_file_untouched_partial", "C84_stream_refuted", "C87_follow_along"], "secs": 10, "early": true, "m": {"edits": [["Encrypt.v", "default : Z := 4 * 10", "default : Z := 5 * 10"]], "definition": "chunk_default", "desc": "Encrypt: '4' -> '5' (auto)", "breaks": [], "mod": "Encrypt", "id": "v087"}}
{"mid": "v088", "lemmas": ["Thm_Flags.gen_same"], "hard": [], "failed": ["C100_texts", "C71_command", "C71_options", "C72_unverified_refuted", "C73_encrypt_words", "C73_sign_words", "C99_every_command_line", "C99_misspelt_refuted", "C99_zero_partial"], "secs": 9, "early": true, "m": {"edits": [["Flags.v", " fl \"env-password\" (Some x45) false; fl \"over", " fl \"env-password\" (Some x45) true; fl \"over"]], "definition": "gen_flags", "desc": "Flags: 'false' -> 'true' (auto)", "breaks": [], "mod": "Flags", "id": "v088"}}
{"mid": "v089", "lemmas": ["TextProofs.find_byte_app"], "hard": [], "failed": ["C38_entries_partial", "C38_sound", "C38_total_and_linewise", "C44_no_overwrite_partial", "C44_old_or_new_partial", "C48_encrypt_exact", "C48_unresolved", "C51_encrypt_then_decrypt", "C56_encrypt_ends", "C64_encrypt_to_stdout", "C64_pipeline", "C65_generate_encrypt_decrypt", "C68_only_outputs", "C73_encrypt_words", "C74_failure_changes_nothing_partial", "C75_permissions", "C77_concurrent_runs", "C78_history_partial", "C88_any_form", "C96_every_bad_recipient_named"], "secs": 6, "early": true, "m": {"edits": [["GoText.v", "te f l' with Some i => Some (i + 1) | None ", "te f l' with Some i => Some (i - 1) | None "]], "definition": "find_byte", "desc": "GoText: '+' -> '-' (auto)", "breaks": [], "mod": "GoText", "id": "v089"}}
{"mid": "v090", "lemmas": ["EncryptProofs.add_recipients_spec"], "hard": [], "failed": ["C01_encrypt_decrypt_round_trip", "C01_encrypt_succeeds", "C02_stream_round_trip", "C02_stream_writes_succeed", "C03_encrypted_file_streams", "C03_stream_file_decrypts", "C04_fragmentation_independent", "C04_stream_agrees_with_encrypt", "C04_stream_write_sizes_irrelevant", "C05_file_format", "C05_stream_format", "C06_chunks", "C06_stream_chunks", "C07_nonces_distinct_partial", "C07_refuted_counter_wraps", "C07_refuted_second_encrypt", "C07_stream_nonces_distinct_partial", "C07_stream_refuted_counter_wraps", "C08_tampered_header", "C08_tampered_stream_header", "C09_truncated_file", "C09_truncated_stream", "C10_complete_partial", "C10_refuted_truncation", "C10_stream_complete_partial", "C11_released_data_genuine", "C13_refuted_recipient_forges", "C14_refuted", "C16_own_entry_opens", "C16_recipients_agree", "C20_refuted", "C21_encrypt_errors_partial", "C23_chunk_size_partial", "C23_refuted", "C24_recipients_partial", "C24_refuted", "C27_writes", "C29_refuted", "C48_encrypt_succeeds", "C51_encrypt_then_decrypt", "C56_encrypt_ends", "C57_encrypt_size", "C57_stream_size", "C58_file_randomness", "C58_stream_randomness", "C59_encrypt_against_stream", "C61_rejected_exactly", "C63_output_genuine", "C64_encrypt_succeeds", "C64_pipeline", "C65_generate_encrypt_decrypt", "C72_unverified_refuted", "C73_encrypt_words", "C76_origin_partial", "C76_stream_origin_partial", "C81_content_hidden", "C81_stream_content_hidden", "C82_recipients_hidden", "C83_anonymous", "C83_sender_hidden", "C83_stream_anonymous", "C83_stream_sender_hidden", "C84_many_files_any_reader_partial", "C84_many_files_partial", "C84_next_file_untouched_partial", "C84_refuted", "C84_stream_next_file_untouched_partial", "C84_stream_refuted", "C87_follow_along", "C88_any_form", "C93_both_ends", "C93_discloses", "C95_set_key_midway_partial"], "secs": 10, "early": true, "m": {"edits": [["Encrypt.v", " res unit :=\n  if e_started e then ", " res unit :=\n  if negb (e_started e) then "]], "definition": "add_recipient", "desc": "Encrypt: 'if e_started e' -> 'if negb (e_started e)' (auto)", "breaks": [], "mod": "Encrypt", "id": "v090"}}
{"mid": "v091", "lemmas": ["EncryptProofs.add_sender_sig_spec"], "hard": [], "failed": ["C01_encrypt_decrypt_round_trip", "C01_encrypt_succeeds", "C02_stream_round_trip", "C02_stream_writes_succeed", "C03_encrypted_file_streams", "C03_stream_file_decrypts", "C04_fragmentation_independent", "C04_stream_agrees_with_encrypt", "C04_stream_write_sizes_irrelevant", "C05_file_format", "C05_stream_format", "C06_chunks", "C06_stream_chunks", "C07_nonces_distinct_partial", "C07_refuted_counter_wraps", "C07_refuted_second_encrypt", "C07_stream_nonces_distinct_partial", "C07_stream_refuted_counter_wraps", "C08_tampered_header", "C08_tampered_stream_header", "C09_truncated_file", "C09_truncated_stream", "C10_complete_partial", "C10_refuted_truncation", "C10_stream_complete_partial", "C11_released_data_genuine", "C13_refuted_recipient_forges", "C14_refuted", "C16_own_entry_opens", "C16_recipients_agree", "C20_refuted", "C21_encrypt_errors_partial", "C23_chunk_size_partial", "C23_refuted", "C24_recipients_partial", "C24_refuted", "C27_writes", "C29_refuted", "C48_encrypt_succeeds", "C51_encrypt_then_decrypt", "C56_encrypt_ends", "C57_encrypt_size", "C57_stream_size", "C58_file_randomness", "C58_stream_randomness", "C59_encrypt_against_stream", "C61_rejected_exactly", "C63_output_genuine", "C64_encrypt_succeeds", "C64_pipeline", "C65_generate_encrypt_decrypt", "C72_unverified_refuted", "C73_encrypt_words", "C76_origin_partial", "C76_stream_origin_partial", "C81_content_hidden", "C81_stream_content_hidden", "C82_recipients_hidden", "C83_anonymous", "C83_sender_hidden", "C83_stream_anonymous", "C83_stream_sender_hidden", "C84_many_files_any_reader_partial", "C84_many_files_partial", "C84_next_file_untouched_partial", "C84_refuted", "C84_stream_next_file_untouched_partial", "C84_stream_refuted", "C85_encryptor_never_panics", "C87_follow_along", "C88_any_form", "C93_both_ends", "C93_discloses", "C95_set_key_midway_partial"], "secs": 9, "early": true, "m": {"edits": [["Encrypt.v", "ig_size : Z := 64.\nDef", "ig_size : Z := 65.\nDef"]], "definition": "sig_size", "desc": "Encrypt: '64' -> '65' (auto)", "breaks": [], "mod": "Encrypt", "id": "v091"}}
{"mid": "v092", "lemmas": ["EncryptProofs.enc_block_spec"], "hard": [], "failed": ["C01_encrypt_decrypt_round_trip", "C01_encrypt_succeeds", "C02_stream_round_trip", "C02_stream_writes_succeed", "C03_encrypted_file_streams", "C03_stream_file_decrypts", "C04_fragmentation_independent", "C04_stream_agrees_with_encrypt", "C04_stream_write_sizes_irrelevant", "C05_file_format", "C05_stream_format", "C06_chunks", "C06_stream_chunks", "C07_nonces_distinct_partial", "C07_refuted_counter_wraps", "C07_refuted_second_encrypt", "C07_stream_nonces_distinct_partial", "C07_stream_refuted_counter_wraps", "C08_tampered_header", "C08_tampered_stream_header", "C09_truncated_file", "C09_truncated_stream", "C10_complete_partial", "C10_refuted_truncation", "C10_stream_complete_partial", "C11_released_data_genuine", "C13_refuted_recipient_forges", "C14_refuted", "C16_recipients_agree", "C20_refuted", "C21_encrypt_errors_partial", "C23_refuted", "C24_recipients_partial", "C24_refuted", "C27_writes", "C29_refuted", "C48_encrypt_succeeds", "C51_encrypt_then_decrypt", "C56_encrypt_ends", "C57_encrypt_size", "C57_stream_size", "C58_file_randomness", "C58_stream_randomness", "C59_encrypt_against_stream", "C63_output_genuine", "C64_encrypt_succeeds", "C64_pipeline", "C65_generate_encrypt_decrypt", "C72_unverified_refuted", "C73_encrypt_words", "C76_origin_partial", "C76_stream_origin_partial", "C81_content_hidden", "C81_stream_content_hidden", "C83_anonymous", "C83_sender_hidden", "C83_stream_anonymous", "C83_stream_sender_hidden", "C84_many_files_any_reader_partial", "C84_many_files_partial", "C84_next_file_untouched_partial", "C84_refuted", "C84_stream_next_file_untouched_partial", "C84_stream_refuted", "C85_encryptor_never_panics", "C87_follow_along", "C88_any_form", "C93_both_ends", "C93_discloses", "C95_set_key_midway_partial"], "secs": 5, "early": true, "m": {"edits": [["Encrypt.v", "if e_buflen e <? len ct + 4 ", "if negb (e_buflen e <? len ct + 4) "]], "definition": "enc_block", "desc": "Encrypt: 'if e_buflen e <? len ct + 4' -> 'if negb (e_buflen e <? len ct + 4)' (auto)", "breaks": [], "mod": "Encrypt", "id": "v092"}}
{"mid": "v093", "lemmas": ["Thm_Usage.calls_texts"], "hard": [], "failed": ["C100_texts"], "secs": 1, "early": true, "m": {"edits": [["Usage.v", "str \"version\") false then", "str \"version\") true then"]], "definition": "main_texts", "desc": "Usage: 'false' -> 'true' (auto)", "breaks": [], "mod": "Usage", "id": "v093"}}
{"mid": "v094", "lemmas": ["Thm_Race.wp_conv_pk"], "hard": [], "failed": ["C94_caches", "C94_goroutines_partial"], "secs": 1, "early": true, "m": {"edits": [["Race.v", "           | Ok (out, _) => Store (PkCache k 0) (Some out) (K", "           | Ok (out, _) => Store (PkCache k 1) (Some out) (K"]], "definition": "conv_pk", "desc": "Race: '0' -> '1' (auto)", "breaks": [], "mod": "Race", "id": "v094"}}
{"mid": "v084", "lemmas": ["Thm_Chain.c51_ops", "Thm_EndToEnd.gen_ops", "Thm_EndToEnd.enc_ops3"], "hard": [], "failed": [], "secs": 185, "m": {"edits": [["Fs.v", ") : Z := u * 64 + g * 8", ") : Z := u * 64 - g * 8"]], "definition": "oct", "desc": "Fs: '+' -> '-' (auto)", "breaks": [], "mod": "Fs", "id": "v084"}}
{"mid": "v095", "lemmas": ["StreamProofs.ew_write_spec"], "hard": [], "failed": ["C02_stream_round_trip", "C02_stream_writes_succeed", "C03_encrypted_file_streams", "C03_stream_file_decrypts", "C04_stream_agrees_with_encrypt", "C04_stream_write_sizes_irrelevant", "C05_stream_format", "C06_stream_chunks", "C07_stream_nonces_distinct_partial", "C07_stream_refuted_counter_wraps", "C08_tampered_stream_header", "C09_truncated_file", "C09_truncated_stream", "C10_complete_partial", "C10_refuted_truncation", "C10_stream_complete_partial", "C11_released_data_genuine", "C13_refuted_recipient_forges", "C14_refuted", "C20_refuted", "C27_writes", "C29_refuted", "C57_stream_size", "C58_stream_randomness", "C59_encrypt_against_stream", "C63_output_genuine", "C72_unverified_refuted", "C76_origin_partial", "C76_stream_origin_partial", "C81_stream_content_hidden", "C83_stream_anonymous", "C83_stream_sender_hidden", "C84_many_files_any_reader_partial", "C84_many_files_partial", "C84_next_file_untouched_partial", "C84_refuted", "C84_stream_next_file_untouched_partial", "C84_stream_refuted", "C87_follow_along", "C88_any_form", "C93_discloses", "C95_set_key_midway_partial"], "secs": 29, "early": true, "m": {"edits": [["Stream.v", "C (2 * length b + 2) e ", "C (2 * length b - 2) e "]], "definition": "ew_write", "desc": "Stream: '+' -> '-' (auto)", "breaks": [], "mod": "Stream", "id": "v095"}}
{"mid": "v096", "lemmas": ["Thm_Told.sprintf_filled"], "hard": [], "failed": ["C96_texts"], "secs": 9, "early": true, "m": {"edits": [["Told.v", "e s => Some (a ++ s) | N", "e s => Some (a ++ []) | N"]], "definition": "sprintf", "desc": "Told: '++ s' -> '++ []' (auto)", "breaks": [], "mod": "Told", "id": "v096"}}
{"mid": "v098", "lemmas": ["Thm_Debug.digit_hex"], "hard": [], "failed": ["C93_discloses", "C93_encryptor_messages"], "secs": 1, "early": true, "m": {"edits": [["Debug.v", "d <? 10 then 48 + d els", "d <? 10 then 48 - d els"]], "definition": "hex_digit", "desc": "Debug: '+' -> '-' (auto)", "breaks": [], "mod": "Debug", "id": "v098"}}
{"mid": "v099", "lemmas": ["Thm_Cli.cli_encrypt_any"], "hard": [], "failed": ["C44_no_overwrite_partial", "C44_old_or_new_partial", "C48_encrypt_exact", "C48_unresolved", "C51_encrypt_then_decrypt", "C64_encrypt_to_stdout", "C64_pipeline", "C65_generate_encrypt_decrypt", "C68_only_outputs", "C73_encrypt_words", "C74_failure_changes_nothing_partial", "C75_permissions", "C77_concurrent_runs", "C78_history_partial"], "secs": 13, "early": true, "m": {"edits": [["Cli.v", "=> true | _ => false end.", "=> true | _ => true end."]], "definition": "not_exist", "desc": "Cli: 'false' -> 'true' (auto)", "breaks": [], "mod": "Cli", "id": "v099"}}
{"mid": "v100", "lemmas": ["ToyExt.toyE_keeps", "Thm_KeyFiles.yaml_priv_marker"], "hard": [], "failed": ["C34_private_round_trip_partial", "C42_stored_objects", "C43_pair_usable_partial", "C65_generate_encrypt_decrypt", "C66_generate_sign_verify", "C73_encrypt_words", "C73_sign_words", "C98_rewritten_key"], "secs": 9, "early": true, "m": {"edits": [["KeyFiles.v", "if z =? 0 ", "if negb (z =? 0) "]], "definition": "y_optint", "desc": "KeyFiles: 'if z =? 0' -> 'if negb (z =? 0)' (auto)", "breaks": [], "mod": "KeyFiles", "id": "v100"}}
{"mid": "v101", "lemmas": ["Thm_KeyFiles.marshal_private_spec"], "hard": [], "failed": ["C34_comment_refuted", "C34_private_round_trip_partial", "C42_stored_objects", "C43_generate_exit_status", "C43_pair_usable_partial", "C65_generate_encrypt_decrypt", "C66_generate_sign_verify", "C73_encrypt_words", "C73_sign_words", "C80_generate", "C80_marshal", "C80_sign", "C92_sign_exit_status", "C92_sign_to_stdout", "C98_rewritten_key"], "secs": 8, "early": true, "m": {"edits": [["KeyFiles.v", "g) := rand_buf 32 g in", "g) := rand_buf 33 g in"]], "definition": "marshal_private", "desc": "KeyFiles: '32' -> '33' (auto)", "breaks": [], "mod": "KeyFiles", "id": "v101"}}
{"mid": "v102", "lemmas": ["FsProofs.sf_ops_trace"], "hard": [], "failed": ["C42_stored_objects", "C42_write_atomic", "C42_write_outcome", "C43_generate", "C43_generate_exit_status", "C44_old_or_new_partial", "C45_decrypt_to_file_partial", "C48_encrypt_exact", "C48_unresolved", "C49_sign_partial", "C50_new_pair_partial", "C51_encrypt_then_decrypt", "C52_sign_then_verify", "C65_generate_encrypt_decrypt", "C66_generate_sign_verify", "C68_only_outputs", "C73_encrypt_words", "C73_sign_words", "C74_failure_changes_nothing_partial", "C75_generated_pair", "C75_permissions", "C77_concurrent_runs", "C78_history_partial", "C80_generate", "C80_sign", "C97_generate"], "secs": 3, "early": true, "m": {"edits": [["Fs.v", "if (0 <? w_nclosed w) && negb (write_failed v w) ", "if negb ((0 <? w_nclosed w) && negb (write_failed v w)) "]], "definition": "sf_ops", "desc": "Fs: 'if (0 <? w_nclosed w) && negb (write_failed v w)' -> 'if negb ((0 <? w_nclosed w) && negb (write_failed v w))' (auto)", "breaks": [], "mod": "Fs", "id": "v102"}}
{"mid": "v097", "lemmas": ["Scene.session1"], "hard": [], "failed": ["C21_refuted"], "secs": 41, "early": true, "m": {"edits": [["GoIO.v", "(tape g) (pos g + Z.max", "(tape g) (pos g - Z.max"]], "definition": "rand_buf", "desc": "GoIO: '+' -> '-' (auto)", "breaks": [], "mod": "GoIO", "id": "v097"}}
{"mid": "v104", "lemmas": ["Base64Proofs.index_of_spec"], "hard": [], "failed": ["C32_signature_reading_exact", "C32_signature_round_trip", "C33_openssh_line", "C33_public_round_trip", "C33_yaml_exact", "C34_private_round_trip_partial", "C35_public_partial", "C36_private_panics_exactly", "C36_private_partial", "C36_private_refuted", "C36_public_panics_exactly", "C37_bad_blob_rejected", "C37_blob_exact", "C37_line_exact", "C37_line_partial", "C38_entries_partial", "C38_sound", "C40_decode_exact", "C40_refused", "C40_round_trip", "C42_stored_objects", "C43_pair_usable_partial", "C44_refuted", "C45_close_refuted", "C46_refuted", "C47_verify_exact", "C49_refuted", "C50_refuted", "C52_sign_then_verify", "C53_crash_exactly_partial", "C53_refuted", "C54_refuted", "C54_round_trip_partial", "C54_string_exact", "C56_decrypt_ends", "C56_encrypt_ends", "C56_sign_ends", "C62_verify_report", "C65_generate_encrypt_decrypt", "C66_generate_sign_verify", "C67_one_key", "C67_private_exact", "C67_public_exact", "C68_only_outputs", "C73_encrypt_words", "C73_sign_words", "C74_failure_changes_nothing_partial", "C74_generate_refuted", "C75_permissions", "C77_concurrent_runs", "C78_history_partial", "C79_verify_command", "C88_any_form", "C92_printed_signature_verifies", "C96_failure_is_reported", "C96_success_is_silent", "C96_texts", "C98_rewritten_key"], "secs": 1, "early": true, "m": {"edits": [["Base64.v", "x_of c l' (i + 1)\n  e", "x_of c l' (i + 2)\n  e"]], "definition": "index_of", "desc": "Base64: '1' -> '2' (auto)", "breaks": [], "mod": "Base64", "id": "v104"}}
{"mid": "v105", "lemmas": ["Thm_KeyFiles.unmarshal_yaml"], "hard": [], "failed": ["C34_private_round_trip_partial", "C42_stored_objects", "C43_pair_usable_partial", "C65_generate_encrypt_decrypt", "C66_generate_sign_verify", "C73_encrypt_words", "C73_sign_words", "C98_rewritten_key"], "secs": 10, "early": true, "m": {"edits": [["KeyFiles.v", ":= len s / 4 * 3 - le", ":= len s / 4 * 4 - le"]], "definition": "b64_spare", "desc": "KeyFiles: '3' -> '4' (auto)", "breaks": [], "mod": "KeyFiles", "id": "v105"}}
{"mid": "v103", "lemmas": ["Thm_Commands.C47_verify_exact"], "hard": [], "failed": ["C47_verify_exact", "C52_sign_then_verify", "C66_generate_sign_verify", "C73_sign_words", "C79_verify_command", "C92_printed_signature_verifies"], "secs": 21, "early": true, "m": {"edits": [["Cli.v", "            if negb (is_pk", "            if id (is_pk"]], "definition": "verify_with", "desc": "Cli: 'negb (' -> 'id (' (auto)", "breaks": [], "mod": "Cli", "id": "v103"}}
{"mid": "v107", "lemmas": ["Base64Proofs.b64_val_table"], "hard": [], "failed": ["C32_signature_reading_exact", "C32_signature_round_trip", "C33_openssh_line", "C33_public_round_trip", "C33_yaml_exact", "C34_private_round_trip_partial", "C35_public_partial", "C36_private_panics_exactly", "C36_private_partial", "C36_private_refuted", "C36_public_panics_exactly", "C37_bad_blob_rejected", "C37_blob_exact", "C37_line_exact", "C37_line_partial", "C38_entries_partial", "C38_sound", "C40_decode_exact", "C40_refused", "C40_round_trip", "C42_stored_objects", "C43_pair_usable_partial", "C44_refuted", "C45_close_refuted", "C46_refuted", "C47_verify_exact", "C49_refuted", "C50_refuted", "C52_sign_then_verify", "C53_crash_exactly_partial", "C53_refuted", "C54_refuted", "C54_round_trip_partial", "C54_string_exact", "C56_decrypt_ends", "C56_encrypt_ends", "C56_sign_ends", "C62_verify_report", "C65_generate_encrypt_decrypt", "C66_generate_sign_verify", "C67_one_key", "C67_private_exact", "C67_public_exact", "C68_only_outputs", "C73_encrypt_words", "C73_sign_words", "C74_failure_changes_nothing_partial", "C74_generate_refuted", "C75_permissions", "C77_concurrent_runs", "C78_history_partial", "C79_verify_command", "C88_any_form", "C92_printed_signature_verifies", "C96_failure_is_reported", "C96_success_is_silent", "C96_texts", "C98_rewritten_key"], "secs": 1, "early": true, "m": {"edits": [["Base64.v", "c b64_alphabet 0.\n\n(*", "c b64_alphabet 1.\n\n(*"]], "definition": "b64_val", "desc": "Base64: '0' -> '1' (auto)", "breaks": [], "mod": "Base64", "id": "v107"}}
{"mid": "v106", "lemmas": ["OpenProofs.set_private_key_spec"], "hard": [], "failed": ["C01_encrypt_decrypt_round_trip", "C02_stream_round_trip", "C03_encrypted_file_streams", "C03_stream_file_decrypts", "C09_truncated_file", "C09_truncated_stream", "C10_complete_partial", "C10_refuted_truncation", "C10_stream_complete_partial", "C11_released_data_genuine", "C12_authenticated_means_signed", "C13_content_signed_partial", "C13_refuted_recipient_forges", "C13_stream_signed_partial", "C14_refuted", "C14_signed_file_partial", "C16_recipients_agree", "C20_no_panic_partial", "C28_read_discipline", "C29_refuted", "C29_single_reader_partial", "C46_sender_partial", "C51_encrypt_then_decrypt", "C63_output_genuine", "C64_pipeline", "C65_generate_encrypt_decrypt", "C69_stream_and_decrypt_agree", "C73_encrypt_words", "C76_origin_partial", "C76_stream_origin_partial", "C84_many_files_any_reader_partial", "C84_many_files_partial", "C84_next_file_untouched_partial", "C84_refuted", "C84_stream_next_file_untouched_partial", "C84_stream_refuted", "C87_follow_along", "C88_any_form", "C93_both_ends", "C95_set_key_midway_partial"], "secs": 49, "early": true, "m": {"edits": [["Decrypt.v", "   let dkey := take aes_k", "   let dkey := drop aes_k"]], "definition": "set_private_key", "desc": "Decrypt: 'take' -> 'drop' (auto)", "breaks": [], "mod": "Decrypt", "id": "v106"}}
{"mid": "v109", "lemmas": ["SshKeyProofs.good_pad_inv"], "hard": [], "failed": ["C35_private_partial", "C39_container_exact", "C43_pair_usable_partial", "C52_sign_then_verify", "C56_encrypt_ends", "C56_sign_ends", "C65_generate_encrypt_decrypt", "C66_generate_sign_verify", "C67_one_key", "C67_private_exact", "C73_encrypt_words", "C73_sign_words", "C80_sign", "C88_any_form", "C92_printed_signature_verifies", "C92_sign_exit_status", "C92_sign_to_stdout", "C98_rewritten_key"], "secs": 61, "early": true, "m": {"edits": [["Ssh.v", "ood_pad pad' (i + 1) end", "ood_pad pad' (i + 2) end"]], "definition": "good_pad", "desc": "Ssh: '+ 1' -> '+ 2' (auto)", "breaks": [], "mod": "Ssh", "id": "v109"}}
{"mid": "v110", "lemmas": ["Thm_KeyFiles.yaml_priv_marker"], "hard": [], "failed": ["C34_private_round_trip_partial", "C42_stored_objects", "C43_pair_usable_partial", "C65_generate_encrypt_decrypt", "C66_generate_sign_verify", "C73_encrypt_words", "C73_sign_words", "C98_rewritten_key"], "secs": 8, "early": true, "m": {"edits": [["KeyFiles.v", "crypt_p : Z := 1.\nDef", "crypt_p : Z := 2.\nDef"]], "definition": "scrypt_p", "desc": "KeyFiles: '1' -> '2' (auto)", "breaks": [], "mod": "KeyFiles", "id": "v110"}}
{"mid": "v108", "lemmas": ["Thm_KeyFiles.priv_ok"], "hard": [], "failed": ["C35_private_partial", "C80_sign"], "secs": 117, "early": true, "m": {"edits": [["Keys.v", ":= clamp (take 32 (sha", ":= clamp (take 33 (sha"]], "definition": "to_curve_sk", "desc": "Keys: '32' -> '33' (auto)", "breaks": [], "mod": "Keys", "id": "v108"}}
{"mid": "v111", "lemmas": ["PbProofs.varint_tag_at"], "hard": [], "failed": ["C01_encrypt_decrypt_round_trip", "C02_stream_round_trip", "C03_encrypted_file_streams", "C03_stream_file_decrypts", "C05_file_format", "C05_stream_format", "C09_truncated_file", "C09_truncated_stream", "C10_complete_partial", "C10_refuted_truncation", "C10_stream_complete_partial", "C11_released_data_genuine", "C13_refuted_recipient_forges", "C14_refuted", "C16_recipients_agree", "C20_refuted", "C23_refuted", "C24_recipients_partial", "C24_refuted", "C29_refuted", "C51_encrypt_then_decrypt", "C63_output_genuine", "C64_pipeline", "C65_generate_encrypt_decrypt", "C72_unverified_refuted", "C73_encrypt_words", "C84_many_files_any_reader_partial", "C84_many_files_partial", "C84_next_file_untouched_partial", "C84_refuted", "C84_stream_next_file_untouched_partial", "C84_stream_refuted", "C87_follow_along", "C88_any_form", "C93_both_ends", "C95_set_key_midway_partial"], "secs": 12, "early": true, "m": {"edits": [["Pb.v", "  let wireType := Z.land wire 7 in\n  if w", "  let wireType := Z.land wire 8 in\n  if w"]], "definition": "get_tag", "desc": "Pb: '7' -> '8' (auto)", "breaks": [], "mod": "Pb", "id": "v111"}}
{"mid": "v112", "lemmas": ["PbProofs.slice_app"], "hard": [], "failed": ["C01_encrypt_decrypt_round_trip", "C02_stream_round_trip", "C03_encrypted_file_streams", "C03_stream_file_decrypts", "C05_file_format", "C05_stream_format", "C09_truncated_file", "C09_truncated_stream", "C10_complete_partial", "C10_refuted_truncation", "C10_stream_complete_partial", "C11_released_data_genuine", "C13_refuted_recipient_forges", "C14_refuted", "C16_recipients_agree", "C20_refuted", "C23_refuted", "C24_recipients_partial", "C24_refuted", "C29_refuted", "C51_encrypt_then_decrypt", "C63_output_genuine", "C64_pipeline", "C65_generate_encrypt_decrypt", "C72_unverified_refuted", "C73_encrypt_words", "C84_many_files_any_reader_partial", "C84_many_files_partial", "C84_next_file_untouched_partial", "C84_refuted", "C84_stream_next_file_untouched_partial", "C84_stream_refuted", "C87_follow_along", "C88_any_form", "C93_both_ends", "C95_set_key_midway_partial"], "secs": 15, "early": true, "m": {"edits": [["GoErr.v", "tes :=\n  if (0 <=? lo) ", "tes :=\n  if (0 <? lo) "]], "definition": "slice", "desc": "GoErr: '<=?' -> '<?' (auto)", "breaks": [], "mod": "GoErr", "id": "v112"}}
{"mid": "v113", "lemmas": ["Thm_Commands.C49_sign_partial"], "hard": [], "failed": ["C49_sign_partial", "C52_sign_then_verify", "C66_generate_sign_verify", "C73_sign_words", "C74_failure_changes_nothing_partial", "C80_sign"], "secs": 20, "early": true, "m": {"edits": [["Cli.v", "t 6 4 4) outf (negb (beq o", "t 6 4 4) outf (id (beq o"]], "definition": "cli_sign", "desc": "Cli: 'negb (' -> 'id (' (auto)", "breaks": [], "mod": "Cli", "id": "v113"}}
{"mid": "v115", "lemmas": ["Thm_Race.inv_step"], "hard": [], "failed": ["C94_caches", "C94_goroutines_partial"], "secs": 3, "early": true, "m": {"edits": [["Race.v", "&&", "||"]], "definition": "cell_eqb", "desc": "Race: '&&' -> '||' (auto)", "breaks": [], "mod": "Race", "id": "v115"}}
{"mid": "v116", "error": "edit does not compile: File \"./theories/Debug.v\", line 18, characters 41-54:\nError: No interpretation for string \"hdr-cksum: \".\n\n", "m": {"edits": [["Debug.v", " ++ [x0a; x09] ++ str \"hdr", " ++ [x0a; x09] ++ [] \"hdr"]], "definition": "debug_text", "desc": "Debug: '++ str' -> '++ []' (auto)", "breaks": [], "mod": "Debug", "id": "v116"}}
{"mid": "v117", "lemmas": ["Thm_KeyFiles.yaml_priv_marker"], "hard": [], "failed": ["C34_private_round_trip_partial", "C42_stored_objects", "C43_pair_usable_partial", "C65_generate_encrypt_decrypt", "C66_generate_sign_verify", "C73_encrypt_words", "C73_sign_words", "C98_rewritten_key"], "secs": 6, "early": true, "m": {"edits": [["KeyFiles.v", "crypt_r : Z := 8.\nDef", "crypt_r : Z := 9.\nDef"]], "definition": "scrypt_r", "desc": "KeyFiles: '8' -> '9' (auto)", "breaks": [], "mod": "KeyFiles", "id": "v117"}}
{"mid": "v118", "lemmas": ["PbProofs.wkey_step"], "hard": [], "failed": ["C01_encrypt_decrypt_round_trip", "C02_stream_round_trip", "C03_encrypted_file_streams", "C03_stream_file_decrypts", "C05_file_format", "C05_stream_format", "C09_truncated_file", "C09_truncated_stream", "C10_complete_partial", "C10_refuted_truncation", "C10_stream_complete_partial", "C11_released_data_genuine", "C13_refuted_recipient_forges", "C14_refuted", "C16_recipients_agree", "C20_refuted", "C23_refuted", "C24_recipients_partial", "C24_refuted", "C29_refuted", "C51_encrypt_then_decrypt", "C63_output_genuine", "C64_pipeline", "C65_generate_encrypt_decrypt", "C72_unverified_refuted", "C73_encrypt_words", "C84_many_files_any_reader_partial", "C84_many_files_partial", "C84_next_file_untouched_partial", "C84_refuted", "C84_stream_next_file_untouched_partial", "C84_stream_refuted", "C87_follow_along", "C88_any_form", "C93_both_ends", "C95_set_key_midway_partial"], "secs": 10, "early": true, "m": {"edits": [["Pb.v", "Num =? 1 then\n          if negb (wireType =? 2) then Fail (EM", "Num =? 1 then\n          if negb (wireType =? 3) then Fail (EM"]], "definition": "unmarshal_wkey_loop", "desc": "Pb: '2' -> '3' (auto)", "breaks": [], "mod": "Pb", "id": "v118"}}
{"mid": "v119", "error": "edit does not compile: File \"./theories/Encrypt.v\", line 166, characters 12-18:\nError: Illegal application (Non-functional construction): \nThe expression \"[]\" of type \"list ?A\" cannot be applied to the term\n \"4\" : \"Z\"\n\n", "m": {"edits": [["Encrypt.v", "++ drop", "++ []"]], "definition": "chunk_nonce", "desc": "Encrypt: '++ drop' -> '++ []' (auto)", "breaks": [], "mod": "Encrypt", "id": "v119"}}
{"mid": "v120", "lemmas": ["EncryptProofs.len_sender_box"], "hard": [], "failed": ["C01_encrypt_decrypt_round_trip", "C01_encrypt_succeeds", "C02_stream_round_trip", "C02_stream_writes_succeed", "C03_encrypted_file_streams", "C03_stream_file_decrypts", "C04_fragmentation_independent", "C04_stream_agrees_with_encrypt", "C04_stream_write_sizes_irrelevant", "C05_file_format", "C05_stream_format", "C06_chunks", "C06_stream_chunks", "C07_nonces_distinct_partial", "C07_refuted_counter_wraps", "C07_refuted_second_encrypt", "C07_stream_nonces_distinct_partial", "C07_stream_refuted_counter_wraps", "C08_tampered_header", "C08_tampered_stream_header", "C09_truncated_file", "C09_truncated_stream", "C10_complete_partial", "C10_refuted_truncation", "C10_stream_complete_partial", "C11_released_data_genuine", "C13_refuted_recipient_forges", "C14_refuted", "C16_recipients_agree", "C20_refuted", "C21_encrypt_errors_partial", "C23_refuted", "C24_recipients_partial", "C24_refuted", "C27_writes", "C29_refuted", "C48_encrypt_succeeds", "C51_encrypt_then_decrypt", "C56_encrypt_ends", "C57_encrypt_size", "C57_stream_size", "C58_file_randomness", "C58_stream_randomness", "C59_encrypt_against_stream", "C63_output_genuine", "C64_encrypt_succeeds", "C64_pipeline", "C65_generate_encrypt_decrypt", "C72_unverified_refuted", "C73_encrypt_words", "C76_origin_partial", "C76_stream_origin_partial", "C81_content_hidden", "C81_stream_content_hidden", "C83_anonymous", "C83_sender_hidden", "C83_stream_anonymous", "C83_stream_sender_hidden", "C84_many_files_any_reader_partial", "C84_many_files_partial", "C84_next_file_untouched_partial", "C84_refuted", "C84_stream_next_file_untouched_partial", "C84_stream_refuted", "C85_encryptor_never_panics", "C87_follow_along", "C88_any_form", "C93_both_ends", "C93_discloses", "C95_set_key_midway_partial"], "secs": 12, "early": true, "m": {"edits": [["Crypto.v", "verhead : Z := 16.\n\n(*", "verhead : Z := 17.\n\n(*"]], "definition": "gcm_overhead", "desc": "Crypto: '16' -> '17' (auto)", "breaks": [], "mod": "Crypto", "id": "v120"}}
{"mid": "v121", "lemmas": ["PbProofs.len_pb_wkey"], "hard": [], "failed": ["C01_encrypt_decrypt_round_trip", "C01_encrypt_succeeds", "C02_stream_round_trip", "C02_stream_writes_succeed", "C03_encrypted_file_streams", "C03_stream_file_decrypts", "C04_fragmentation_independent", "C04_stream_agrees_with_encrypt", "C04_stream_write_sizes_irrelevant", "C05_file_format", "C05_stream_format", "C06_chunks", "C06_stream_chunks", "C07_nonces_distinct_partial", "C07_refuted_counter_wraps", "C07_refuted_second_encrypt", "C07_stream_nonces_distinct_partial", "C07_stream_refuted_counter_wraps", "C08_tampered_header", "C08_tampered_stream_header", "C09_truncated_file", "C09_truncated_stream", "C10_complete_partial", "C10_refuted_truncation", "C10_stream_complete_partial", "C11_released_data_genuine", "C13_refuted_recipient_forges", "C14_refuted", "C16_recipients_agree", "C20_refuted", "C21_encrypt_errors_partial", "C23_refuted", "C24_recipients_partial", "C24_refuted", "C25_header_codec_round_trip", "C26_reencode", "C27_writes", "C29_refuted", "C48_encrypt_succeeds", "C51_encrypt_then_decrypt", "C56_encrypt_ends", "C57_encrypt_size", "C57_stream_size", "C58_file_randomness", "C58_stream_randomness", "C59_encrypt_against_stream", "C63_output_genuine", "C64_encrypt_succeeds", "C64_pipeline", "C65_generate_encrypt_decrypt", "C72_unverified_refuted", "C73_encrypt_words", "C76_origin_partial", "C76_stream_origin_partial", "C81_content_hidden", "C81_stream_content_hidden", "C83_anonymous", "C83_sender_hidden", "C83_stream_anonymous", "C83_stream_sender_hidden", "C84_many_files_any_reader_partial", "C84_many_files_partial", "C84_next_file_untouched_partial", "C84_refuted", "C84_stream_next_file_untouched_partial", "C84_stream_refuted", "C85_encryptor_never_panics", "C87_follow_along", "C88_any_form", "C93_both_ends", "C93_discloses", "C93_encryptor_messages", "C95_set_key_midway_partial"], "secs": 10, "early": true, "m": {"edits": [["Pb.v", "eld (w_nonce m) + len (", "eld (w_nonce m) - len ("]], "definition": "size_wkey", "desc": "Pb: '+' -> '-' (auto)", "breaks": [], "mod": "Pb", "id": "v121"}}
{"mid": "v122", "lemmas": ["Thm_Cli.cli_encrypt_any"], "hard": [], "failed": ["C44_no_overwrite_partial", "C44_old_or_new_partial", "C48_encrypt_exact", "C48_unresolved", "C51_encrypt_then_decrypt", "C64_encrypt_to_stdout", "C64_pipeline", "C65_generate_encrypt_decrypt", "C68_only_outputs", "C73_encrypt_words", "C74_failure_changes_nothing_partial", "C75_permissions", "C77_concurrent_runs", "C78_history_partial"], "secs": 14, "early": true, "m": {"edits": [["Store.v", " goerr := EExt 2.\nDef", " goerr := EExt 3.\nDef"]], "definition": "enoent", "desc": "Store: '2' -> '3' (auto)", "breaks": [], "mod": "Store", "id": "v122"}}
{"mid": "v123", "lemmas": ["IOProofs.fullwrite_loop_spec"], "hard": [], "failed": ["C01_encrypt_decrypt_round_trip", "C01_encrypt_succeeds", "C02_stream_round_trip", "C02_stream_writes_succeed", "C03_encrypted_file_streams", "C03_stream_file_decrypts", "C04_fragmentation_independent", "C04_stream_agrees_with_encrypt", "C04_stream_write_sizes_irrelevant", "C05_file_format", "C05_stream_format", "C06_chunks", "C06_stream_chunks", "C07_nonces_distinct_partial", "C07_refuted_counter_wraps", "C07_refuted_second_encrypt", "C07_stream_nonces_distinct_partial", "C07_stream_refuted_counter_wraps", "C08_tampered_header", "C08_tampered_stream_header", "C09_truncated_file", "C09_truncated_stream", "C100_options_missing_refuted", "C100_texts", "C10_complete_partial", "C10_refuted_truncation", "C10_stream_complete_partial", "C11_released_data_genuine", "C13_content_signed_partial", "C13_refuted_recipient_forges", "C14_refuted", "C16_recipients_agree", "C20_refuted", "C21_encrypt_errors_partial", "C22_fullwrite_all_or_error", "C23_refuted", "C24_recipients_partial", "C24_refuted", "C27_writes", "C29_refuted", "C42_stored_objects", "C42_write_atomic", "C42_write_outcome", "C43_generate", "C43_generate_exit_status", "C44_old_or_new_partial", "C45_decrypt_succeeds", "C45_decrypt_to_file_partial", "C46_sender_partial", "C48_encrypt_exact", "C48_encrypt_succeeds", "C48_unresolved", "C49_sign_partial", "C50_new_pair_partial", "C51_encrypt_then_decrypt", "C52_sign_then_verify", "C56_encrypt_ends", "C57_encrypt_size", "C57_stream_size", "C58_file_randomness", "C58_stream_randomness", "C59_encrypt_against_stream", "C62_verify_report", "C63_decrypt_to_stdout", "C63_output_genuine", "C64_encrypt_succeeds", "C64_encrypt_to_stdout", "C64_pipeline", "C65_generate_encrypt_decrypt", "C66_generate_sign_verify", "C68_only_outputs", "C69_stream_and_decrypt_agree", "C70_one_file_per_encryptor", "C72_unverified_refuted", "C73_encrypt_words", "C73_sign_words", "C74_failure_changes_nothing_partial", "C75_generated_pair", "C75_permissions", "C76_origin_partial", "C76_stream_origin_partial", "C77_concurrent_runs", "C78_history_partial", "C80_generate", "C80_sign", "C81_content_hidden", "C81_stream_content_hidden", "C83_anonymous", "C83_sender_hidden", "C83_stream_anonymous", "C83_stream_sender_hidden", "C84_many_files_any_reader_partial", "C84_many_files_partial", "C84_next_file_untouched_partial", "C84_refuted", "C84_stream_next_file_untouched_partial", "C84_stream_refuted", "C85_encryptor_never_panics", "C86_no_amplification", "C87_follow_along", "C88_any_form", "C92_printed_signature_verifies", "C92_sign_to_stdout", "C93_both_ends", "C93_discloses", "C93_encryptor_messages", "C95_set_key_midway_partial", "C97_generate"], "secs": 5, "early": true, "m": {"edits": [["GoIO.v", "n a) buf) (out ++ a)\n   ", "n a) buf) (out ++ [])\n   "]], "definition": "fullwrite_loop", "desc": "GoIO: '++ a' -> '++ []' (auto)", "breaks": [], "mod": "GoIO", "id": "v123"}}
{"mid": "v124", "lemmas": ["BytesLemmas.take_firstn"], "hard": [], "failed": ["C01_encrypt_decrypt_round_trip", "C01_encrypt_succeeds", "C02_stream_round_trip", "C02_stream_writes_succeed", "C03_encrypted_file_streams", "C03_stream_file_decrypts", "C04_fragmentation_independent", "C04_stream_agrees_with_encrypt", "C04_stream_write_sizes_irrelevant", "C05_file_format", "C05_stream_format", "C06_chunks", "C06_stream_chunks", "C07_nonces_distinct_partial", "C07_refuted_counter_wraps", "C07_refuted_second_encrypt", "C07_stream_nonces_distinct_partial", "C07_stream_refuted_counter_wraps", "C08_accepted_header", "C08_tampered_header", "C08_tampered_stream_header", "C09_truncated_file", "C09_truncated_stream", "C100_options_missing_refuted", "C100_texts", "C10_complete_partial", "C10_refuted_truncation", "C10_stream_complete_partial", "C11_released_data_genuine", "C12_authenticated_means_signed", "C13_content_signed_partial", "C13_refuted_recipient_forges", "C13_stream_signed_partial", "C14_refuted", "C14_signed_file_partial", "C15_not_a_recipient", "C16_own_entry_opens", "C16_recipients_agree", "C19_new_decryptor_total", "C20_every_history_partial", "C20_no_panic_partial", "C20_refuted", "C21_encrypt_errors_partial", "C21_refuted", "C22_fullwrite_all_or_error", "C23_chunk_size_partial", "C23_refuted", "C24_recipients_partial", "C24_refuted", "C25_header_codec_round_trip", "C26_decoder_total_and_exact", "C26_reencode", "C27_writes", "C28_read_discipline", "C29_refuted", "C29_single_reader_partial", "C31_file_signature_binds", "C31_hash_input_injective", "C33_openssh_line", "C33_public_round_trip", "C34_private_round_trip_partial", "C35_private_partial", "C35_public_partial", "C36_openssh_refuted", "C36_private_panics_exactly", "C36_private_partial", "C36_public_panics_exactly", "C37_bad_blob_rejected", "C37_blob_exact", "C37_line_exact", "C37_line_partial", "C38_entries_partial", "C38_sound", "C38_total_and_linewise", "C39_container_exact", "C39_section_unique", "C41_conversions_agree", "C41_private_key_conversion", "C42_stored_objects", "C42_write_atomic", "C42_write_outcome", "C43_generate", "C43_generate_exit_status", "C43_pair_usable_partial", "C44_no_overwrite_partial", "C44_old_or_new_partial", "C44_refuted", "C45_close_refuted", "C45_decrypt_succeeds", "C45_decrypt_to_file_partial", "C46_refuted", "C46_sender_partial", "C47_verify_exact", "C48_encrypt_exact", "C48_encrypt_succeeds", "C48_unresolved", "C49_refuted", "C49_sign_partial", "C50_new_pair_partial", "C50_refuted", "C51_encrypt_then_decrypt", "C52_sign_then_verify", "C53_crash_exactly_partial", "C53_refuted", "C54_refuted", "C54_round_trip_partial", "C54_string_exact", "C56_decrypt_ends", "C56_encrypt_ends", "C56_sign_ends", "C57_encrypt_size", "C57_stream_size", "C58_file_randomness", "C58_stream_randomness", "C59_encrypt_against_stream", "C60_authenticated_exactly", "C60_last_call_decides_partial", "C60_refuted", "C61_rejected_exactly", "C61_rejected_recipients_leave_no_trace", "C62_verify_report", "C63_decrypt_to_stdout", "C63_output_genuine", "C64_encrypt_succeeds", "C64_encrypt_to_stdout", "C64_pipeline", "C65_generate_encrypt_decrypt", "C66_generate_sign_verify", "C67_one_key", "C67_private_exact", "C67_public_exact", "C68_only_outputs", "C69_stream_and_decrypt_agree", "C70_one_file_per_encryptor", "C72_unverified_refuted", "C73_encrypt_words", "C73_sign_words", "C74_failure_changes_nothing_partial", "C74_generate_refuted", "C75_generated_pair", "C75_permissions", "C76_origin_partial", "C76_stream_origin_partial", "C77_concurrent_runs", "C78_history_partial", "C79_verified_file", "C79_verify_command", "C80_generate", "C80_marshal", "C80_sign", "C81_content_hidden", "C81_stream_content_hidden", "C82_recipients_hidden", "C83_anonymous", "C83_sender_hidden", "C83_stream_anonymous", "C83_stream_sender_hidden", "C84_many_files_any_reader_partial", "C84_many_files_partial", "C84_next_file_untouched_partial", "C84_refuted", "C84_stream_next_file_untouched_partial", "C84_stream_refuted", "C85_encryptor_never_panics", "C86_no_amplification", "C87_follow_along", "C88_any_form", "C92_printed_signature_verifies", "C92_sign_exit_status", "C92_sign_to_stdout", "C93_both_ends", "C93_discloses", "C93_encryptor_messages", "C95_no_panic_refuted", "C95_repeated_call_refuted", "C95_set_key_midway_partial", "C96_every_bad_recipient_named", "C96_failure_is_reported", "C96_no_sender_warning", "C96_success_is_silent", "C96_texts", "C97_generate", "C98_rewritten_key"], "secs": 1, "early": true, "m": {"edits": [["Bytes.v", "h\n  | [] => []\n  | x :: l' => if n <=? 0 then [] el", "h\n  | [] => []\n  | x :: l' => if negb (n <=? 0) then [] el"]], "definition": "take", "desc": "Bytes: 'if n <=? 0' -> 'if negb (n <=? 0)' (auto)", "breaks": [], "mod": "Bytes", "id": "v124"}}
{"mid": "v125", "lemmas": ["Thm_Flags.verify_same"], "hard": [], "failed": ["C100_texts", "C71_command", "C71_options", "C72_unverified_refuted", "C73_encrypt_words", "C73_sign_words", "C96_same_outcome", "C99_every_command_line", "C99_misspelt_refuted", "C99_zero_partial"], "secs": 8, "early": true, "m": {"edits": [["Flags.v", "flag := [fl \"help\" (Some x68) true; fl \"quie", "flag := [fl \"help\" (Some x68) false; fl \"quie"]], "definition": "verify_flags", "desc": "Flags: 'true' -> 'false' (auto)", "breaks": [], "mod": "Flags", "id": "v125"}}
{"mid": "v126", "lemmas": ["Thm_Race.inv_step"], "hard": [], "failed": ["C94_caches", "C94_goroutines_partial"], "secs": 4, "early": true, "m": {"edits": [["Race.v", "if cell_eqb y x ", "if negb (cell_eqb y x) "]], "definition": "step", "desc": "Race: 'if cell_eqb y x' -> 'if negb (cell_eqb y x)' (auto)", "breaks": [], "mod": "Race", "id": "v126"}}
{"mid": "v127", "lemmas": ["PbProofs.size_varint_small"], "hard": [], "failed": ["C01_encrypt_decrypt_round_trip", "C01_encrypt_succeeds", "C02_stream_round_trip", "C02_stream_writes_succeed", "C03_encrypted_file_streams", "C03_stream_file_decrypts", "C04_fragmentation_independent", "C04_stream_agrees_with_encrypt", "C04_stream_write_sizes_irrelevant", "C05_file_format", "C05_stream_format", "C06_chunks", "C06_stream_chunks", "C07_nonces_distinct_partial", "C07_refuted_counter_wraps", "C07_refuted_second_encrypt", "C07_stream_nonces_distinct_partial", "C07_stream_refuted_counter_wraps", "C08_tampered_header", "C08_tampered_stream_header", "C09_truncated_file", "C09_truncated_stream", "C10_complete_partial", "C10_refuted_truncation", "C10_stream_complete_partial", "C11_released_data_genuine", "C13_refuted_recipient_forges", "C14_refuted", "C16_recipients_agree", "C20_refuted", "C21_encrypt_errors_partial", "C23_refuted", "C24_recipients_partial", "C24_refuted", "C25_header_codec_round_trip", "C26_reencode", "C27_writes", "C29_refuted", "C48_encrypt_succeeds", "C51_encrypt_then_decrypt", "C56_encrypt_ends", "C57_encrypt_size", "C57_stream_size", "C58_file_randomness", "C58_stream_randomness", "C59_encrypt_against_stream", "C63_output_genuine", "C64_encrypt_succeeds", "C64_pipeline", "C65_generate_encrypt_decrypt", "C72_unverified_refuted", "C73_encrypt_words", "C76_origin_partial", "C76_stream_origin_partial", "C81_content_hidden", "C81_stream_content_hidden", "C83_anonymous", "C83_sender_hidden", "C83_stream_anonymous", "C83_stream_sender_hidden", "C84_many_files_any_reader_partial", "C84_many_files_partial", "C84_next_file_untouched_partial", "C84_refuted", "C84_stream_next_file_untouched_partial", "C84_stream_refuted", "C85_encryptor_never_panics", "C87_follow_along", "C88_any_form", "C93_both_ends", "C93_discloses", "C93_encryptor_messages", "C95_set_key_midway_partial"], "secs": 7, "early": true, "m": {"edits": [["Pb.v", " (Z.lor x 1) + 1 + 6)", " (Z.lor x 1) + 2 + 6)"]], "definition": "size_varint", "desc": "Pb: '1' -> '2' (auto)", "breaks": [], "mod": "Pb", "id": "v127"}}
{"mid": "v128", "error": "edit does not compile: File \"./theories/KeyFiles.v\", line 22, characters 67-71:\nError: No interpretation for string \": \".\n\n", "m": {"edits": [["KeyFiles.v", "++ str", "++ []"]], "definition": "y_field", "desc": "KeyFiles: '++ str' -> '++ []' (auto)", "breaks": [], "mod": "KeyFiles", "id": "v128"}}
{"mid": "v114", "lemmas": ["Thm_Modes.C75_permissions"], "hard": [], "failed": ["C75_permissions"], "secs": 108, "early": true, "m": {"edits": [["Fs.v", " : option Z :=\n  match follow 40 f s with ", " : option Z :=\n  match follow 41 f s with "]], "definition": "mode", "desc": "Fs: '40' -> '41' (auto)", "breaks": [], "mod": "Fs", "id": "v114"}}
{"mid": "v129", "lemmas": ["EncryptProofs.wrap_key_spec"], "hard": [], "failed": ["C01_encrypt_decrypt_round_trip", "C01_encrypt_succeeds", "C02_stream_round_trip", "C02_stream_writes_succeed", "C03_encrypted_file_streams", "C03_stream_file_decrypts", "C04_fragmentation_independent", "C04_stream_agrees_with_encrypt", "C04_stream_write_sizes_irrelevant", "C05_file_format", "C05_stream_format", "C06_chunks", "C06_stream_chunks", "C07_nonces_distinct_partial", "C07_refuted_counter_wraps", "C07_refuted_second_encrypt", "C07_stream_nonces_distinct_partial", "C07_stream_refuted_counter_wraps", "C08_tampered_header", "C08_tampered_stream_header", "C09_truncated_file", "C09_truncated_stream", "C10_complete_partial", "C10_refuted_truncation", "C10_stream_complete_partial", "C11_released_data_genuine", "C13_refuted_recipient_forges", "C14_refuted", "C16_own_entry_opens", "C16_recipients_agree", "C20_refuted", "C21_encrypt_errors_partial", "C23_chunk_size_partial", "C23_refuted", "C24_recipients_partial", "C24_refuted", "C27_writes", "C29_refuted", "C48_encrypt_succeeds", "C51_encrypt_then_decrypt", "C56_encrypt_ends", "C57_encrypt_size", "C57_stream_size", "C58_file_randomness", "C58_stream_randomness", "C59_encrypt_against_stream", "C61_rejected_exactly", "C63_output_genuine", "C64_encrypt_succeeds", "C64_pipeline", "C65_generate_encrypt_decrypt", "C72_unverified_refuted", "C73_encrypt_words", "C76_origin_partial", "C76_stream_origin_partial", "C81_content_hidden", "C81_stream_content_hidden", "C82_recipients_hidden", "C83_anonymous", "C83_sender_hidden", "C83_stream_anonymous", "C83_stream_sender_hidden", "C84_many_files_any_reader_partial", "C84_many_files_partial", "C84_next_file_untouched_partial", "C84_refuted", "C84_stream_next_file_untouched_partial", "C84_stream_refuted", "C85_encryptor_never_panics", "C87_follow_along", "C88_any_form", "C93_both_ends", "C93_discloses", "C95_set_key_midway_partial"], "secs": 9, "early": true, "m": {"edits": [["Encrypt.v", "++ rbuf", "++ []"]], "definition": "wrap_key", "desc": "Encrypt: '++ rbuf' -> '++ []' (auto)", "breaks": [], "mod": "Encrypt", "id": "v129"}}
{"mid": "v131", "lemmas": ["TextProofs.strip_space"], "hard": [], "failed": ["C37_line_partial", "C38_entries_partial", "C88_any_form"], "secs": 7, "early": true, "m": {"edits": [["GoText.v", "drop ", "take "]], "definition": "strip", "desc": "GoText: 'drop' -> 'take' (auto)", "breaks": [], "mod": "GoText", "id": "v131"}}
{"mid": "v132", "lemmas": ["EncryptProofs.add_sender_sig_spec"], "hard": [], "failed": ["C01_encrypt_decrypt_round_trip", "C01_encrypt_succeeds", "C02_stream_round_trip", "C02_stream_writes_succeed", "C03_encrypted_file_streams", "C03_stream_file_decrypts", "C04_fragmentation_independent", "C04_stream_agrees_with_encrypt", "C04_stream_write_sizes_irrelevant", "C05_file_format", "C05_stream_format", "C06_chunks", "C06_stream_chunks", "C07_nonces_distinct_partial", "C07_refuted_counter_wraps", "C07_refuted_second_encrypt", "C07_stream_nonces_distinct_partial", "C07_stream_refuted_counter_wraps", "C08_tampered_header", "C08_tampered_stream_header", "C09_truncated_file", "C09_truncated_stream", "C10_complete_partial", "C10_refuted_truncation", "C10_stream_complete_partial", "C11_released_data_genuine", "C13_refuted_recipient_forges", "C14_refuted", "C16_own_entry_opens", "C16_recipients_agree", "C20_refuted", "C21_encrypt_errors_partial", "C23_chunk_size_partial", "C23_refuted", "C24_recipients_partial", "C24_refuted", "C27_writes", "C29_refuted", "C48_encrypt_succeeds", "C51_encrypt_then_decrypt", "C56_encrypt_ends", "C57_encrypt_size", "C57_stream_size", "C58_file_randomness", "C58_stream_randomness", "C59_encrypt_against_stream", "C61_rejected_exactly", "C63_output_genuine", "C64_encrypt_succeeds", "C64_pipeline", "C65_generate_encrypt_decrypt", "C72_unverified_refuted", "C73_encrypt_words", "C76_origin_partial", "C76_stream_origin_partial", "C81_content_hidden", "C81_stream_content_hidden", "C82_recipients_hidden", "C83_anonymous", "C83_sender_hidden", "C83_stream_anonymous", "C83_stream_sender_hidden", "C84_many_files_any_reader_partial", "C84_many_files_partial", "C84_next_file_untouched_partial", "C84_refuted", "C84_stream_next_file_untouched_partial", "C84_stream_refuted", "C85_encryptor_never_panics", "C87_follow_along", "C88_any_form", "C93_both_ends", "C93_discloses", "C95_set_key_midway_partial"], "secs": 10, "early": true, "m": {"edits": [["Encrypt.v", "Ok (sig_Sig s, true)\n   ", "Ok (sig_Sig s, false)\n   "]], "definition": "add_sender_sig", "desc": "Encrypt: 'true' -> 'false' (auto)", "breaks": [], "mod": "Encrypt", "id": "v132"}}
{"mid": "v133", "lemmas": ["EncryptProofs.enc_loop_S"], "hard": [], "failed": ["C01_encrypt_decrypt_round_trip", "C01_encrypt_succeeds", "C02_stream_round_trip", "C03_encrypted_file_streams", "C03_stream_file_decrypts", "C04_fragmentation_independent", "C04_stream_agrees_with_encrypt", "C05_file_format", "C06_chunks", "C07_nonces_distinct_partial", "C07_refuted_counter_wraps", "C07_refuted_second_encrypt", "C08_tampered_header", "C09_truncated_file", "C09_truncated_stream", "C10_complete_partial", "C10_refuted_truncation", "C10_stream_complete_partial", "C11_released_data_genuine", "C13_refuted_recipient_forges", "C14_refuted", "C16_recipients_agree", "C17_every_history", "C17_no_recipient_after_start", "C18_encrypt_every_history", "C20_refuted", "C21_encrypt_errors_partial", "C23_refuted", "C24_recipients_partial", "C24_refuted", "C29_refuted", "C44_old_or_new_partial", "C48_encrypt_exact", "C48_encrypt_succeeds", "C48_unresolved", "C51_encrypt_then_decrypt", "C57_encrypt_size", "C58_file_randomness", "C59_encrypt_against_stream", "C63_output_genuine", "C64_encrypt_succeeds", "C64_encrypt_to_stdout", "C64_pipeline", "C65_generate_encrypt_decrypt", "C70_one_file_per_encryptor", "C72_unverified_refuted", "C73_encrypt_words", "C74_failure_changes_nothing_partial", "C76_origin_partial", "C76_stream_origin_partial", "C81_content_hidden", "C83_anonymous", "C83_sender_hidden", "C84_many_files_any_reader_partial", "C84_many_files_partial", "C84_next_file_untouched_partial", "C84_refuted", "C84_stream_next_file_untouched_partial", "C84_stream_refuted", "C85_encryptor_never_panics", "C88_any_form", "C93_both_ends", "C93_discloses", "C93_encryptor_messages", "C95_set_key_midway_partial"], "secs": 7, "early": true, "m": {"edits": [["Encrypt.v", "f e r w (u32 (i + 1)) g", "f e r w (u32 (i - 1)) g"]], "definition": "enc_loop", "desc": "Encrypt: '+' -> '-' (auto)", "breaks": [], "mod": "Encrypt", "id": "v133"}}
{"mid": "v134", "lemmas": ["SshKeyProofs.container_ok"], "hard": [], "failed": ["C39_container_exact", "C67_one_key", "C67_private_exact", "C88_any_form", "C98_rewritten_key"], "secs": 53, "early": true, "m": {"edits": [["Ssh.v", "(len block mod 16 =? 0", "(len block mod 17 =? 0"]], "definition": "parse_openssh_private", "desc": "Ssh: '16' -> '17' (auto)", "breaks": [], "mod": "Ssh", "id": "v134"}}
{"mid": "v135", "lemmas": ["FlagsProofs.by_short_in"], "hard": [], "failed": ["C100_texts", "C71_command", "C71_options", "C72_unverified_refuted", "C73_encrypt_words", "C73_sign_words", "C99_every_command_line", "C99_misspelt_refuted", "C99_zero_partial"], "secs": 4, "early": true, "m": {"edits": [["Flags.v", " d c | None => false end)", " d c | None => true end)"]], "definition": "by_short", "desc": "Flags: 'false' -> 'true' (auto)", "breaks": [], "mod": "Flags", "id": "v135"}}
{"mid": "v136", "lemmas": ["EncryptProofs.add_sender_sig_spec"], "hard": [], "failed": ["C01_encrypt_decrypt_round_trip", "C01_encrypt_succeeds", "C02_stream_round_trip", "C02_stream_writes_succeed", "C03_encrypted_file_streams", "C03_stream_file_decrypts", "C04_fragmentation_independent", "C04_stream_agrees_with_encrypt", "C04_stream_write_sizes_irrelevant", "C05_file_format", "C05_stream_format", "C06_chunks", "C06_stream_chunks", "C07_nonces_distinct_partial", "C07_refuted_counter_wraps", "C07_refuted_second_encrypt", "C07_stream_nonces_distinct_partial", "C07_stream_refuted_counter_wraps", "C08_tampered_header", "C08_tampered_stream_header", "C09_truncated_file", "C09_truncated_stream", "C10_complete_partial", "C10_refuted_truncation", "C10_stream_complete_partial", "C11_released_data_genuine", "C13_refuted_recipient_forges", "C14_refuted", "C16_own_entry_opens", "C16_recipients_agree", "C20_refuted", "C21_encrypt_errors_partial", "C23_chunk_size_partial", "C23_refuted", "C24_recipients_partial", "C24_refuted", "C27_writes", "C29_refuted", "C48_encrypt_succeeds", "C51_encrypt_then_decrypt", "C56_encrypt_ends", "C57_encrypt_size", "C57_stream_size", "C58_file_randomness", "C58_stream_randomness", "C59_encrypt_against_stream", "C61_rejected_exactly", "C63_output_genuine", "C64_encrypt_succeeds", "C64_pipeline", "C65_generate_encrypt_decrypt", "C72_unverified_refuted", "C73_encrypt_words", "C76_origin_partial", "C76_stream_origin_partial", "C81_content_hidden", "C81_stream_content_hidden", "C82_recipients_hidden", "C83_anonymous", "C83_sender_hidden", "C83_stream_anonymous", "C83_stream_sender_hidden", "C84_many_files_any_reader_partial", "C84_many_files_partial", "C84_next_file_untouched_partial", "C84_refuted", "C84_stream_next_file_untouched_partial", "C84_stream_refuted", "C85_encryptor_never_panics", "C87_follow_along", "C88_any_form", "C93_both_ends", "C93_discloses", "C95_set_key_midway_partial"], "secs": 10, "early": true, "m": {"edits": [["Encrypt.v", "ey_size : Z := 32.\nDef", "ey_size : Z := 33.\nDef"]], "definition": "aes_key_size", "desc": "Encrypt: '32' -> '33' (auto)", "breaks": [], "mod": "Encrypt", "id": "v136"}}
{"mid": "v130", "lemmas": ["Thm_Amplify.sane_keep"], "hard": [], "failed": ["C86_no_amplification"], "secs": 99, "early": true, "m": {"edits": [["Stream.v", "s, None) => if 0 <? e", "s, None) => if 1 <? e"]], "definition": "er_keep", "desc": "Stream: '0' -> '1' (auto)", "breaks": [], "mod": "Stream", "id": "v130"}}
{"mid": "v137", "lemmas": ["Thm_Told.sign_same"], "hard": [], "failed": ["C100_texts", "C71_command", "C71_options", "C72_unverified_refuted", "C73_encrypt_words", "C73_sign_words", "C96_same_outcome", "C99_every_command_line", "C99_misspelt_refuted", "C99_zero_partial"], "secs": 7, "early": true, "m": {"edits": [["Told.v", " ++ fn)) w in (0, snd", " ++ fn)) w in (1, snd"]], "definition": "sign_body_told", "desc": "Told: '0' -> '1' (auto)", "breaks": [], "mod": "Told", "id": "v137"}}
{"mid": "v138", "lemmas": ["Thm_Told.verify_same"], "hard": [], "failed": ["C100_texts", "C71_command", "C71_options", "C72_unverified_refuted", "C73_encrypt_words", "C73_sign_words", "C96_same_outcome", "C99_every_command_line", "C99_misspelt_refuted", "C99_zero_partial"], "secs": 7, "early": true, "m": {"edits": [["Told.v", "if ok ", "if negb (ok) "]], "definition": "verify_told", "desc": "Told: 'if ok' -> 'if negb (ok)' (auto)", "breaks": [], "mod": "Told", "id": "v138"}}
{"mid": "v139", "lemmas": ["FsProofs.upd_same"], "hard": [], "failed": ["C04_stream_agrees_with_encrypt", "C04_stream_write_sizes_irrelevant", "C05_stream_format", "C06_stream_chunks", "C07_stream_nonces_distinct_partial", "C07_stream_refuted_counter_wraps", "C08_tampered_stream_header", "C100_usage_is_true", "C42_stored_objects", "C42_write_atomic", "C42_write_outcome", "C43_generate", "C43_generate_exit_status", "C44_old_or_new_partial", "C45_decrypt_to_file_partial", "C48_encrypt_exact", "C48_unresolved", "C49_sign_partial", "C50_new_pair_partial", "C51_encrypt_then_decrypt", "C52_sign_then_verify", "C58_stream_randomness", "C62_verify_report", "C63_decrypt_to_stdout", "C63_output_genuine", "C64_pipeline", "C65_generate_encrypt_decrypt", "C66_generate_sign_verify", "C68_only_outputs", "C73_encrypt_words", "C73_sign_words", "C74_failure_changes_nothing_partial", "C75_generated_pair", "C75_permissions", "C77_concurrent_runs", "C78_history_partial", "C80_generate", "C80_sign", "C85_encryptor_never_panics", "C86_no_amplification", "C93_encryptor_messages", "C94_caches", "C94_goroutines_partial", "C97_generate"], "secs": 3, "early": true, "m": {"edits": [["Fs.v", "if x =? k ", "if negb (x =? k) "]], "definition": "upd_at", "desc": "Fs: 'if x =? k' -> 'if negb (x =? k)' (auto)", "breaks": [], "mod": "Fs", "id": "v139"}}
{"mid": "v141", "lemmas": ["Base64Proofs.b64_encode_text"], "hard": [], "failed": ["C32_signature_round_trip", "C33_public_round_trip", "C34_private_round_trip_partial", "C36_private_refuted", "C37_comment_refuted", "C37_line_partial", "C40_round_trip", "C42_stored_objects", "C43_pair_usable_partial", "C44_refuted", "C45_close_refuted", "C46_refuted", "C49_refuted", "C50_refuted", "C52_sign_then_verify", "C53_refuted", "C54_refuted", "C54_round_trip_partial", "C65_generate_encrypt_decrypt", "C66_generate_sign_verify", "C73_encrypt_words", "C73_sign_words", "C74_generate_refuted", "C92_printed_signature_verifies", "C96_failure_is_reported", "C96_success_is_silent", "C96_texts", "C98_rewritten_key"], "secs": 3, "early": true, "m": {"edits": [["Base64.v", "* 2^8 in\n      [b64_char (v / 2^18 mod 64); b64_char (v / 2^12 mod 64); b64_char (", "* 2^8 in\n      [b64_char (v / 2^18 mod 64); b64_char (v / 2^13 mod 64); b64_char ("]], "definition": "b64_encode", "desc": "Base64: '12' -> '13' (auto)", "breaks": [], "mod": "Base64", "id": "v141"}}
{"mid": "v142", "lemmas": ["Base64Proofs.skip_nl_unbroken"], "hard": [], "failed": ["C32_signature_reading_exact", "C32_signature_round_trip", "C33_openssh_line", "C33_public_round_trip", "C33_yaml_exact", "C34_private_round_trip_partial", "C35_public_partial", "C36_private_panics_exactly", "C36_private_partial", "C36_private_refuted", "C36_public_panics_exactly", "C37_bad_blob_rejected", "C37_blob_exact", "C37_line_exact", "C37_line_partial", "C38_entries_partial", "C38_sound", "C40_decode_exact", "C40_refused", "C40_round_trip", "C42_stored_objects", "C43_pair_usable_partial", "C47_verify_exact", "C52_sign_then_verify", "C53_crash_exactly_partial", "C54_refuted", "C54_round_trip_partial", "C54_string_exact", "C56_decrypt_ends", "C56_encrypt_ends", "C56_sign_ends", "C62_verify_report", "C65_generate_encrypt_decrypt", "C66_generate_sign_verify", "C67_one_key", "C67_private_exact", "C67_public_exact", "C68_only_outputs", "C73_encrypt_words", "C73_sign_words", "C74_failure_changes_nothing_partial", "C75_permissions", "C77_concurrent_runs", "C78_history_partial", "C79_verify_command", "C88_any_form", "C92_printed_signature_verifies", "C98_rewritten_key"], "secs": 1, "early": true, "m": {"edits": [["Base64.v", "ith c :: s' => if is_crlf c then ", "ith c :: s' => if negb (is_crlf c) then "]], "definition": "skip_nl", "desc": "Base64: 'if is_crlf c' -> 'if negb (is_crlf c)' (auto)", "breaks": [], "mod": "Base64", "id": "v142"}}
{"mid": "v143", "lemmas": ["Thm_Told.enc_body_same"], "hard": [], "failed": ["C82_recipients_hidden", "C96_same_outcome"], "secs": 6, "early": true, "m": {"edits": [["Told.v", "if 0 <? errs ", "if negb (0 <? errs) "]], "definition": "enc_body_told", "desc": "Told: 'if 0 <? errs' -> 'if negb (0 <? errs)' (auto)", "breaks": [], "mod": "Told", "id": "v143"}}
{"mid": "v144", "lemmas": ["Thm_Told.encrypt_same"], "hard": [], "failed": ["C82_recipients_hidden", "C96_same_outcome"], "secs": 6, "early": true, "m": {"edits": [["Told.v", "<? 2 then done 1 [(\"I", "<? 2 then done 2 [(\"I"]], "definition": "encrypt_told", "desc": "Told: '1' -> '2' (auto)", "breaks": [], "mod": "Told", "id": "v144"}}
{"mid": "v140", "lemmas": ["SshKeyProofs.extract_ok"], "hard": [], "failed": ["C36_openssh_refuted", "C36_private_panics_exactly", "C39_container_exact", "C56_decrypt_ends", "C56_encrypt_ends", "C56_sign_ends", "C67_one_key", "C67_private_exact", "C88_any_form", "C98_rewritten_key"], "secs": 49, "early": true, "m": {"edits": [["Ssh.v", "(take 16 (drop 32 k), ", "(take 16 (drop 33 k), "]], "definition": "extract_bcrypt", "desc": "Ssh: '32' -> '33' (auto)", "breaks": [], "mod": "Ssh", "id": "v140"}}
{"mid": "v146", "lemmas": ["Thm_Pipe.C62_verify_report"], "hard": [], "failed": ["C62_verify_report", "C68_only_outputs", "C73_sign_words", "C74_failure_changes_nothing_partial", "C75_permissions", "C77_concurrent_runs", "C78_history_partial"], "secs": 63, "early": true, "m": {"edits": [["Cli.v", "n ok => mkOut (if ok then ", "n ok => mkOut (if negb (ok) then "]], "definition": "cli_verify_cmd", "desc": "Cli: 'if ok' -> 'if negb (ok)' (auto)", "breaks": [], "mod": "Cli", "id": "v146"}}
{"mid": "v147", "lemmas": ["Thm_Reads.with_same_out"], "hard": [], "failed": ["C97_decrypt", "C97_encrypt", "C97_sign"], "secs": 2, "early": true, "m": {"edits": [["Told.v", "if tofile ", "if negb (tofile) "]], "definition": "with_output_told", "desc": "Told: 'if tofile' -> 'if negb (tofile)' (auto)", "breaks": [], "mod": "Told", "id": "v147"}}
{"mid": "v148", "lemmas": ["Thm_Debug.debug_message"], "hard": [], "failed": ["C93_discloses", "C93_encryptor_messages"], "secs": 1, "early": true, "m": {"edits": [["Debug.v", "  if level <=? 0 then", "  if level <=? 1 then"]], "definition": "debug", "desc": "Debug: '0' -> '1' (auto)", "breaks": [], "mod": "Debug", "id": "v148"}}
{"mid": "v145", "lemmas": ["LocalProofs.local_new_encryptor"], "hard": [], "failed": ["C91_objects_independent"], "secs": 102, "early": true, "m": {"edits": [["Encrypt.v", " [] []) key [] 0 None", " [] []) key [] 1 None"]], "definition": "new_encryptor", "desc": "Encrypt: '0' -> '1' (auto)", "breaks": [], "mod": "Encrypt", "id": "v145"}}
{"mid": "v149", "lemmas": ["PbProofs.marshal_wkey_spec"], "hard": [], "failed": ["C01_encrypt_decrypt_round_trip", "C01_encrypt_succeeds", "C02_stream_round_trip", "C02_stream_writes_succeed", "C03_encrypted_file_streams", "C03_stream_file_decrypts", "C04_fragmentation_independent", "C04_stream_agrees_with_encrypt", "C04_stream_write_sizes_irrelevant", "C05_file_format", "C05_stream_format", "C06_chunks", "C06_stream_chunks", "C07_nonces_distinct_partial", "C07_refuted_counter_wraps", "C07_refuted_second_encrypt", "C07_stream_nonces_distinct_partial", "C07_stream_refuted_counter_wraps", "C08_tampered_header", "C08_tampered_stream_header", "C09_truncated_file", "C09_truncated_stream", "C10_complete_partial", "C10_refuted_truncation", "C10_stream_complete_partial", "C11_released_data_genuine", "C13_refuted_recipient_forges", "C14_refuted", "C16_recipients_agree", "C20_refuted", "C21_encrypt_errors_partial", "C23_refuted", "C24_recipients_partial", "C24_refuted", "C25_header_codec_round_trip", "C26_reencode", "C27_writes", "C29_refuted", "C48_encrypt_succeeds", "C51_encrypt_then_decrypt", "C56_encrypt_ends", "C57_encrypt_size", "C57_stream_size", "C58_file_randomness", "C58_stream_randomness", "C59_encrypt_against_stream", "C63_output_genuine", "C64_encrypt_succeeds", "C64_pipeline", "C65_generate_encrypt_decrypt", "C72_unverified_refuted", "C73_encrypt_words", "C76_origin_partial", "C76_stream_origin_partial", "C81_content_hidden", "C81_stream_content_hidden", "C83_anonymous", "C83_sender_hidden", "C83_stream_anonymous", "C83_stream_sender_hidden", "C84_many_files_any_reader_partial", "C84_many_files_partial", "C84_next_file_untouched_partial", "C84_refuted", "C84_stream_next_file_untouched_partial", "C84_stream_refuted", "C85_encryptor_never_panics", "C87_follow_along", "C88_any_form", "C93_both_ends", "C93_discloses", "C93_encryptor_messages", "C95_set_key_midway_partial"], "secs": 9, "early": true, "m": {"edits": [["Pb.v", "=\n  push_field 10 (w_d", "=\n  push_field 11 (w_d"]], "definition": "marshal_wkey", "desc": "Pb: '10' -> '11' (auto)", "breaks": [], "mod": "Pb", "id": "v149"}}
{"mid": "v151", "lemmas": ["EncryptProofs.be32_u32"], "hard": [], "failed": ["C01_encrypt_decrypt_round_trip", "C01_encrypt_succeeds", "C02_stream_round_trip", "C02_stream_writes_succeed", "C03_encrypted_file_streams", "C03_stream_file_decrypts", "C04_fragmentation_independent", "C04_stream_agrees_with_encrypt", "C04_stream_write_sizes_irrelevant", "C05_file_format", "C05_stream_format", "C06_chunks", "C06_stream_chunks", "C07_nonces_distinct_partial", "C07_refuted_counter_wraps", "C07_refuted_second_encrypt", "C07_stream_nonces_distinct_partial", "C07_stream_refuted_counter_wraps", "C08_tampered_header", "C08_tampered_stream_header", "C09_truncated_file", "C09_truncated_stream", "C10_complete_partial", "C10_refuted_truncation", "C10_stream_complete_partial", "C11_released_data_genuine", "C13_content_signed_partial", "C13_refuted_recipient_forges", "C13_stream_signed_partial", "C14_refuted", "C16_recipients_agree", "C20_refuted", "C21_encrypt_errors_partial", "C23_refuted", "C24_recipients_partial", "C24_refuted", "C27_writes", "C29_refuted", "C29_single_reader_partial", "C48_encrypt_succeeds", "C51_encrypt_then_decrypt", "C56_encrypt_ends", "C57_encrypt_size", "C57_stream_size", "C58_file_randomness", "C58_stream_randomness", "C59_encrypt_against_stream", "C63_output_genuine", "C64_encrypt_succeeds", "C64_pipeline", "C65_generate_encrypt_decrypt", "C69_stream_and_decrypt_agree", "C72_unverified_refuted", "C73_encrypt_words", "C76_origin_partial", "C76_stream_origin_partial", "C81_content_hidden", "C81_stream_content_hidden", "C83_anonymous", "C83_sender_hidden", "C83_stream_anonymous", "C83_stream_sender_hidden", "C84_many_files_any_reader_partial", "C84_many_files_partial", "C84_next_file_untouched_partial", "C84_refuted", "C84_stream_next_file_untouched_partial", "C84_stream_refuted", "C85_encryptor_never_panics", "C87_follow_along", "C88_any_form", "C93_both_ends", "C93_discloses", "C93_encryptor_messages", "C95_set_key_midway_partial"], "secs": 24, "early": true, "m": {"edits": [["Bytes.v", ") : Z := z mod 2^32.\n", ") : Z := z mod 3^32.\n"]], "definition": "u32", "desc": "Bytes: '2' -> '3' (auto)", "breaks": [], "mod": "Bytes", "id": "v151"}}
{"mid": "v152", "lemmas": ["Thm_Main.abbrev_prefix"], "hard": [], "failed": ["C100_texts", "C100_usage_is_true", "C55_dispatch", "C68_only_outputs", "C71_command", "C72_unverified_refuted", "C73_encrypt_words", "C73_sign_words", "C74_failure_changes_nothing_partial", "C75_permissions", "C77_concurrent_runs", "C78_history_partial", "C99_every_command_line", "C99_zero_partial"], "secs": 7, "early": true, "m": {"edits": [["Main.v", "if existsb (beq a) words ", "if negb (existsb (beq a) words) "]], "definition": "abbrev", "desc": "Main: 'if existsb (beq a) words' -> 'if negb (existsb (beq a) words)' (auto)", "breaks": [], "mod": "Main", "id": "v152"}}
{"mid": "v153", "lemmas": [], "hard": [], "failed": [], "secs": 226, "m": {"edits": [["Fs.v", "then match se_open v with Some e => Fail e | None => Ok tt end\n       ", "then match se_open v with Some e => Fail e | None => id Ok tt end\n       "]], "definition": "safe_open", "desc": "Fs: 'None => Ok' -> 'None => id Ok' (auto)", "breaks": [], "mod": "Fs", "id": "v153"}}
{"mid": "v154", "lemmas": ["Thm_KeyFiles.C36_private_refuted"], "hard": [], "failed": ["C36_private_refuted"], "secs": 245, "early": true, "m": {"edits": [["Crypto.v", " Z.land n (n - 1) =? ", " Z.land n (n - 2) =? "]], "definition": "is_pow2", "desc": "Crypto: '1' -> '2' (auto)", "breaks": [], "mod": "Crypto", "id": "v154"}}
{"mid": "v155", "lemmas": ["Thm_Debug.hex_hexed"], "hard": [], "failed": ["C93_discloses", "C93_encryptor_messages"], "secs": 3, "early": true, "m": {"edits": [["Debug.v", "digit (b2z b / 16) :: ", "digit (b2z b / 17) :: "]], "definition": "hex", "desc": "Debug: '16' -> '17' (auto)", "breaks": [], "mod": "Debug", "id": "v155"}}
{"mid": "v150", "lemmas": ["Thm_Midway.sim"], "hard": [], "failed": ["C95_set_key_midway_partial"], "secs": 669, "early": true, "m": {"edits": [["GoErr.v", "false", "true"]], "definition": "is_panic", "desc": "GoErr: 'false' -> 'true' (auto)", "breaks": [], "mod": "GoErr", "id": "v150"}}
{"mid": "v157", "lemmas": ["PbProofs.size_keys_spec"], "hard": [], "failed": ["C01_encrypt_decrypt_round_trip", "C01_encrypt_succeeds", "C02_stream_round_trip", "C02_stream_writes_succeed", "C03_encrypted_file_streams", "C03_stream_file_decrypts", "C04_fragmentation_independent", "C04_stream_agrees_with_encrypt", "C04_stream_write_sizes_irrelevant", "C05_file_format", "C05_stream_format", "C06_chunks", "C06_stream_chunks", "C07_nonces_distinct_partial", "C07_refuted_counter_wraps", "C07_refuted_second_encrypt", "C07_stream_nonces_distinct_partial", "C07_stream_refuted_counter_wraps", "C08_tampered_header", "C08_tampered_stream_header", "C09_truncated_file", "C09_truncated_stream", "C10_complete_partial", "C10_refuted_truncation", "C10_stream_complete_partial", "C11_released_data_genuine", "C13_refuted_recipient_forges", "C14_refuted", "C16_recipients_agree", "C20_refuted", "C21_encrypt_errors_partial", "C23_refuted", "C24_recipients_partial", "C24_refuted", "C25_header_codec_round_trip", "C26_reencode", "C27_writes", "C29_refuted", "C48_encrypt_succeeds", "C51_encrypt_then_decrypt", "C56_encrypt_ends", "C57_encrypt_size", "C57_stream_size", "C58_file_randomness", "C58_stream_randomness", "C59_encrypt_against_stream", "C63_output_genuine", "C64_encrypt_succeeds", "C64_pipeline", "C65_generate_encrypt_decrypt", "C72_unverified_refuted", "C73_encrypt_words", "C76_origin_partial", "C76_stream_origin_partial", "C81_content_hidden", "C81_stream_content_hidden", "C83_anonymous", "C83_sender_hidden", "C83_stream_anonymous", "C83_stream_sender_hidden", "C84_many_files_any_reader_partial", "C84_many_files_partial", "C84_next_file_untouched_partial", "C84_refuted", "C84_stream_next_file_untouched_partial", "C84_stream_refuted", "C85_encryptor_never_panics", "C87_follow_along", "C88_any_form", "C93_both_ends", "C93_discloses", "C93_encryptor_messages", "C95_set_key_midway_partial"], "secs": 24, "early": true, "m": {"edits": [["Pb.v", "1 + size_wkey k + size_", "1 + size_wkey k - size_"]], "definition": "size_keys", "desc": "Pb: '+' -> '-' (auto)", "breaks": [], "mod": "Pb", "id": "v157"}}
{"mid": "v156", "lemmas": ["Thm_Sign.file_cksum_holds"], "hard": [], "failed": ["C30_generated_keys", "C30_signatures_verify", "C31_file_signature_binds", "C47_verify_exact", "C49_sign_partial", "C52_sign_then_verify", "C53_crash_exactly_partial", "C62_verify_report", "C66_generate_sign_verify", "C68_only_outputs", "C73_sign_words", "C74_failure_changes_nothing_partial", "C75_permissions", "C77_concurrent_runs", "C78_history_partial", "C79_verified_file", "C79_verify_command", "C80_sign", "C88_any_form", "C92_printed_signature_verifies", "C92_sign_exit_status", "C92_sign_to_stdout"], "secs": 300, "early": true, "m": {"edits": [["Sign.v", "len b) windows 0 in\n ", "len b) windows 1 in\n "]], "definition": "file_cksum", "desc": "Sign: '0' -> '1' (auto)", "breaks": [], "mod": "Sign", "id": "v156"}}
{"mid": "v159", "lemmas": ["PbProofs.encode_varint_spec"], "hard": [], "failed": ["C01_encrypt_decrypt_round_trip", "C01_encrypt_succeeds", "C02_stream_round_trip", "C02_stream_writes_succeed", "C03_encrypted_file_streams", "C03_stream_file_decrypts", "C04_fragmentation_independent", "C04_stream_agrees_with_encrypt", "C04_stream_write_sizes_irrelevant", "C05_file_format", "C05_stream_format", "C06_chunks", "C06_stream_chunks", "C07_nonces_distinct_partial", "C07_refuted_counter_wraps", "C07_refuted_second_encrypt", "C07_stream_nonces_distinct_partial", "C07_stream_refuted_counter_wraps", "C08_tampered_header", "C08_tampered_stream_header", "C09_truncated_file", "C09_truncated_stream", "C10_complete_partial", "C10_refuted_truncation", "C10_stream_complete_partial", "C11_released_data_genuine", "C13_refuted_recipient_forges", "C14_refuted", "C16_recipients_agree", "C20_refuted", "C21_encrypt_errors_partial", "C23_refuted", "C24_recipients_partial", "C24_refuted", "C25_header_codec_round_trip", "C26_reencode", "C27_writes", "C29_refuted", "C48_encrypt_succeeds", "C51_encrypt_then_decrypt", "C56_encrypt_ends", "C57_encrypt_size", "C57_stream_size", "C58_file_randomness", "C58_stream_randomness", "C59_encrypt_against_stream", "C63_output_genuine", "C64_encrypt_succeeds", "C64_pipeline", "C65_generate_encrypt_decrypt", "C72_unverified_refuted", "C73_encrypt_words", "C76_origin_partial", "C76_stream_origin_partial", "C81_content_hidden", "C81_stream_content_hidden", "C83_anonymous", "C83_sender_hidden", "C83_stream_anonymous", "C83_stream_sender_hidden", "C84_many_files_any_reader_partial", "C84_many_files_partial", "C84_next_file_untouched_partial", "C84_refuted", "C84_stream_next_file_untouched_partial", "C84_stream_refuted", "C85_encryptor_never_panics", "C87_follow_along", "C88_any_form", "C93_both_ends", "C93_discloses", "C93_encryptor_messages", "C95_set_key_midway_partial"], "secs": 12, "early": true, "m": {"edits": [["Pb.v", " := put_varint 10 (u64", " := put_varint 11 (u64"]], "definition": "encode_varint", "desc": "Pb: '10' -> '11' (auto)", "breaks": [], "mod": "Pb", "id": "v159"}}
{"mid": "v160", "lemmas": ["EncryptProofs.wrap_key_spec"], "hard": [], "failed": ["C01_encrypt_decrypt_round_trip", "C01_encrypt_succeeds", "C02_stream_round_trip", "C02_stream_writes_succeed", "C03_encrypted_file_streams", "C03_stream_file_decrypts", "C04_fragmentation_independent", "C04_stream_agrees_with_encrypt", "C04_stream_write_sizes_irrelevant", "C05_file_format", "C05_stream_format", "C06_chunks", "C06_stream_chunks", "C07_nonces_distinct_partial", "C07_refuted_counter_wraps", "C07_refuted_second_encrypt", "C07_stream_nonces_distinct_partial", "C07_stream_refuted_counter_wraps", "C08_tampered_header", "C08_tampered_stream_header", "C09_truncated_file", "C09_truncated_stream", "C10_complete_partial", "C10_refuted_truncation", "C10_stream_complete_partial", "C11_released_data_genuine", "C13_refuted_recipient_forges", "C14_refuted", "C16_own_entry_opens", "C16_recipients_agree", "C20_refuted", "C21_encrypt_errors_partial", "C23_chunk_size_partial", "C23_refuted", "C24_recipients_partial", "C24_refuted", "C27_writes", "C29_refuted", "C48_encrypt_succeeds", "C51_encrypt_then_decrypt", "C56_encrypt_ends", "C57_encrypt_size", "C57_stream_size", "C58_file_randomness", "C58_stream_randomness", "C59_encrypt_against_stream", "C61_rejected_exactly", "C63_output_genuine", "C64_encrypt_succeeds", "C64_pipeline", "C65_generate_encrypt_decrypt", "C72_unverified_refuted", "C73_encrypt_words", "C76_origin_partial", "C76_stream_origin_partial", "C81_content_hidden", "C81_stream_content_hidden", "C82_recipients_hidden", "C83_anonymous", "C83_sender_hidden", "C83_stream_anonymous", "C83_stream_sender_hidden", "C84_many_files_any_reader_partial", "C84_many_files_partial", "C84_next_file_untouched_partial", "C84_refuted", "C84_stream_next_file_untouched_partial", "C84_stream_refuted", "C85_encryptor_never_panics", "C87_follow_along", "C88_any_form", "C93_both_ends", "C93_discloses", "C95_set_key_midway_partial"], "secs": 23, "early": true, "m": {"edits": [["Crypto.v", "if negb (len point =? 32) ", "if negb (negb (len point =? 32)) "]], "definition": "X25519", "desc": "Crypto: 'if negb (len point =? 32)' -> 'if negb (negb (len point =? 32))' (auto)", "breaks": [], "mod": "Crypto", "id": "v160"}}
{"mid": "v161", "lemmas": ["Thm_Main.to_lower_spells"], "hard": [], "failed": ["C100_texts", "C100_usage_is_true", "C55_dispatch", "C68_only_outputs", "C71_command", "C72_unverified_refuted", "C73_encrypt_words", "C73_sign_words", "C74_failure_changes_nothing_partial", "C74_generate_refuted", "C75_permissions", "C77_concurrent_runs", "C78_history_partial", "C78_refuted_race", "C99_every_command_line", "C99_misspelt_refuted", "C99_zero_partial"], "secs": 14, "early": true, "m": {"edits": [["Main.v", "Byte.eqb d x84 && Byte", "Byte.eqb d x84 || Byte"]], "definition": "to_lower", "desc": "Main: '&&' -> '||' (auto)", "breaks": [], "mod": "Main", "id": "v161"}}
{"mid": "v158", "lemmas": [], "hard": [], "failed": [], "secs": 284, "m": {"edits": [["Store.v", "te : bool)\n  : list fop * res unit := write_file v (oct 6 4 4) f dst (marshal_sig", "te : bool)\n  : list fop * res unit := write_file v (oct 6 4 5) f dst (marshal_sig"]], "definition": "serialize_signature", "desc": "Store: '4' -> '5' (auto)", "breaks": [], "mod": "Store", "id": "v158"}}
{"mid": "v162", "lemmas": ["Thm_KeyFiles.C35_private_partial"], "hard": [], "failed": ["C35_private_partial", "C80_sign"], "secs": 123, "early": true, "m": {"edits": [["Ssh.v", "if beq (pem_type b) (str \"OPENSSH PRIVATE KEY\") ", "if negb (beq (pem_type b) (str \"OPENSSH PRIVATE KEY\")) "]], "definition": "parse_ssh_private", "desc": "Ssh: 'if beq (pem_type b) (str \"OPENSSH PRIVATE KEY\")' -> 'if negb (beq (pem_type b) (str \"OPENSSH PRIVATE KEY\"))' (auto)", "breaks": [], "mod": "Ssh", "id": "v162"}}
{"mid": "v164", "lemmas": ["OpenProofs.verify_sender_spec"], "hard": [], "failed": ["C01_encrypt_decrypt_round_trip", "C02_stream_round_trip", "C03_encrypted_file_streams", "C03_stream_file_decrypts", "C09_truncated_file", "C09_truncated_stream", "C10_complete_partial", "C10_refuted_truncation", "C10_stream_complete_partial", "C11_released_data_genuine", "C12_authenticated_means_signed", "C13_content_signed_partial", "C13_refuted_recipient_forges", "C13_stream_signed_partial", "C14_refuted", "C14_signed_file_partial", "C16_recipients_agree", "C20_every_history_partial", "C20_no_panic_partial", "C20_refuted", "C28_read_discipline", "C29_refuted", "C29_single_reader_partial", "C46_sender_partial", "C51_encrypt_then_decrypt", "C56_decrypt_ends", "C60_authenticated_exactly", "C60_last_call_decides_partial", "C63_output_genuine", "C64_pipeline", "C65_generate_encrypt_decrypt", "C69_stream_and_decrypt_agree", "C72_unverified_refuted", "C73_encrypt_words", "C76_origin_partial", "C76_stream_origin_partial", "C84_many_files_any_reader_partial", "C84_many_files_partial", "C84_next_file_untouched_partial", "C84_refuted", "C84_stream_next_file_untouched_partial", "C84_stream_refuted", "C87_follow_along", "C88_any_form", "C93_both_ends", "C95_set_key_midway_partial"], "secs": 99, "early": true, "m": {"edits": [["Encrypt.v", "++ salt", "++ []"]], "definition": "sender_cksum", "desc": "Encrypt: '++ salt' -> '++ []' (auto)", "breaks": [], "mod": "Encrypt", "id": "v164"}}
{"mid": "v165", "lemmas": ["FsProofs.write_file_spec"], "hard": [], "failed": ["C42_stored_objects", "C42_write_atomic", "C42_write_outcome", "C43_generate", "C43_generate_exit_status", "C50_new_pair_partial", "C65_generate_encrypt_decrypt", "C66_generate_sign_verify", "C68_only_outputs", "C73_encrypt_words", "C73_sign_words", "C75_generated_pair", "C75_permissions", "C77_concurrent_runs", "C78_history_partial", "C80_generate", "C97_generate"], "secs": 8, "early": true, "m": {"edits": [["Fs.v", "ome ErrClosed] 0.\n(**", "ome ErrClosed] 1.\n(**"]], "definition": "sf_sink", "desc": "Fs: '0' -> '1' (auto)", "breaks": [], "mod": "Fs", "id": "v165"}}
{"mid": "v163", "lemmas": ["Thm_Session.C18_decrypt_after_stream_reader"], "hard": [], "failed": ["C18_decrypt_after_stream_reader"], "secs": 171, "early": true, "m": {"edits": [["Stream.v", "h d) (d_eof d) true.\n\n(*", "h d) (d_eof d) false.\n\n(*"]], "definition": "d_set_stream", "desc": "Stream: 'true' -> 'false' (auto)", "breaks": [], "mod": "Stream", "id": "v163"}}
{"mid": "v166", "lemmas": ["Thm_Crash.C56_generate_ends"], "hard": [], "failed": ["C56_generate_ends"], "secs": 54, "early": true, "m": {"edits": [["Cli.v", "r with Ok _ => 0 | Fa", "r with Ok _ => 1 | Fa"]], "definition": "code_of", "desc": "Cli: '0' -> '1' (auto)", "breaks": [], "mod": "Cli", "id": "v166"}}
{"mid": "v167", "lemmas": ["Thm_Flags.enc_same"], "hard": [], "failed": ["C100_texts", "C71_command", "C71_options", "C72_unverified_refuted", "C73_encrypt_words", "C73_sign_words", "C99_every_command_line", "C99_misspelt_refuted", "C99_zero_partial"], "secs": 18, "early": true, "m": {"edits": [["Flags.v", "ze\" (Some x42) false; fl ", "ze\" (Some x42) true; fl "]], "definition": "enc_flags", "desc": "Flags: 'false' -> 'true' (auto)", "breaks": [], "mod": "Flags", "id": "v167"}}
{"mid": "v168", "lemmas": ["PbProofs.get_bytes_spec"], "hard": [], "failed": ["C01_encrypt_decrypt_round_trip", "C02_stream_round_trip", "C03_encrypted_file_streams", "C03_stream_file_decrypts", "C05_file_format", "C05_stream_format", "C09_truncated_file", "C09_truncated_stream", "C10_complete_partial", "C10_refuted_truncation", "C10_stream_complete_partial", "C11_released_data_genuine", "C13_refuted_recipient_forges", "C14_refuted", "C16_recipients_agree", "C20_refuted", "C23_refuted", "C24_recipients_partial", "C24_refuted", "C29_refuted", "C51_encrypt_then_decrypt", "C63_output_genuine", "C64_pipeline", "C65_generate_encrypt_decrypt", "C72_unverified_refuted", "C73_encrypt_words", "C84_many_files_any_reader_partial", "C84_many_files_partial", "C84_next_file_untouched_partial", "C84_refuted", "C84_stream_next_file_untouched_partial", "C84_stream_refuted", "C87_follow_along", "C88_any_form", "C93_both_ends", "C95_set_key_midway_partial"], "secs": 25, "early": true, "m": {"edits": [["Pb.v", " if byteLen <? 0 then", " if byteLen <? 1 then"]], "definition": "get_bytes", "desc": "Pb: '0' -> '1' (auto)", "breaks": [], "mod": "Pb", "id": "v168"}}
{"mid": "v169", "lemmas": ["PbProofs.at_app"], "hard": [], "failed": ["C01_encrypt_decrypt_round_trip", "C02_stream_round_trip", "C03_encrypted_file_streams", "C03_stream_file_decrypts", "C05_file_format", "C05_stream_format", "C09_truncated_file", "C09_truncated_stream", "C10_complete_partial", "C10_refuted_truncation", "C10_stream_complete_partial", "C11_released_data_genuine", "C13_refuted_recipient_forges", "C14_refuted", "C16_recipients_agree", "C20_refuted", "C23_refuted", "C24_recipients_partial", "C24_refuted", "C29_refuted", "C51_encrypt_then_decrypt", "C63_output_genuine", "C64_pipeline", "C65_generate_encrypt_decrypt", "C72_unverified_refuted", "C73_encrypt_words", "C84_many_files_any_reader_partial", "C84_many_files_partial", "C84_next_file_untouched_partial", "C84_refuted", "C84_stream_next_file_untouched_partial", "C84_stream_refuted", "C87_follow_along", "C88_any_form", "C93_both_ends", "C95_set_key_midway_partial"], "secs": 26, "early": true, "m": {"edits": [["GoErr.v", "<?", "<=?"]], "definition": "at_", "desc": "GoErr: '<?' -> '<=?' (auto)", "breaks": [], "mod": "GoErr", "id": "v169"}}
{"mid": "v171", "lemmas": ["Thm_Debug.started_silent"], "hard": [], "failed": ["C93_encryptor_messages"], "secs": 7, "early": true, "m": {"edits": [["Debug.v", " EStream wr => if e_started e then ", " EStream wr => if negb (e_started e) then "]], "definition": "estep_debug", "desc": "Debug: 'if e_started e' -> 'if negb (e_started e)' (auto)", "breaks": [], "mod": "Debug", "id": "v171"}}
{"mid": "v172", "lemmas": ["SshProofs.parse_auth_key"], "hard": [], "failed": ["C38_entries_partial", "C88_any_form"], "secs": 18, "early": true, "m": {"edits": [["Ssh.v", "_enc_pubkey C (take i inp", "_enc_pubkey C (drop i inp"]], "definition": "parse_authorized_key", "desc": "Ssh: 'take' -> 'drop' (auto)", "breaks": [], "mod": "Ssh", "id": "v172"}}
{"mid": "v173", "lemmas": ["EncryptProofs.block_size_chunk"], "hard": [], "failed": ["C04_stream_agrees_with_encrypt", "C05_file_format", "C05_stream_format", "C06_chunks", "C06_stream_chunks", "C07_nonces_distinct_partial", "C07_refuted_counter_wraps", "C07_refuted_second_encrypt", "C07_stream_nonces_distinct_partial", "C07_stream_refuted_counter_wraps", "C57_encrypt_size", "C57_stream_size", "C59_encrypt_against_stream", "C81_content_hidden", "C81_stream_content_hidden", "C84_many_files_any_reader_partial", "C84_many_files_partial", "C84_next_file_untouched_partial", "C84_refuted", "C84_stream_next_file_untouched_partial", "C84_stream_refuted", "C87_follow_along"], "secs": 21, "early": true, "m": {"edits": [["Encrypt.v", "chunk : Z := 2^30.\nDef", "chunk : Z := 2^31.\nDef"]], "definition": "max_chunk", "desc": "Encrypt: '30' -> '31' (auto)", "breaks": [], "mod": "Encrypt", "id": "v173"}}
{"mid": "v174", "error": "edit does not compile: File \"./theories/Encrypt.v\", line 130, characters 36-52:\nError: Illegal application (Non-functional construction): \nThe expression \"[]\" of type \"list ?A\"\ncannot be applied to the term\n \"u32 varSize\" : \"Z\"\n\n", "m": {"edits": [["Encrypt.v", "++ be32", "++ []"]], "definition": "fixed_header", "desc": "Encrypt: '++ be32' -> '++ []' (auto)", "breaks": [], "mod": "Encrypt", "id": "v174"}}
{"mid": "v170", "lemmas": ["Thm_Ssh.line_exact"], "hard": [], "failed": ["C33_openssh_line", "C35_public_partial", "C37_bad_blob_rejected", "C37_line_exact", "C37_line_partial", "C43_pair_usable_partial", "C47_verify_exact", "C52_sign_then_verify", "C53_crash_exactly_partial", "C56_decrypt_ends", "C56_encrypt_ends", "C62_verify_report", "C65_generate_encrypt_decrypt", "C66_generate_sign_verify", "C67_public_exact", "C68_only_outputs", "C73_encrypt_words", "C73_sign_words", "C74_failure_changes_nothing_partial", "C75_permissions", "C77_concurrent_runs", "C78_history_partial", "C79_verify_command", "C88_any_form", "C92_printed_signature_verifies"], "secs": 127, "early": true, "m": {"edits": [["Ssh.v", "_blanks inp [] false with", "_blanks inp [] true with"]], "definition": "parse_ssh_pubkey", "desc": "Ssh: 'false' -> 'true' (auto)", "breaks": [], "mod": "Ssh", "id": "v170"}}
{"mid": "v176", "lemmas": ["PbProofs.varint_at_spec"], "hard": [], "failed": ["C01_encrypt_decrypt_round_trip", "C02_stream_round_trip", "C03_encrypted_file_streams", "C03_stream_file_decrypts", "C05_file_format", "C05_stream_format", "C09_truncated_file", "C09_truncated_stream", "C10_complete_partial", "C10_refuted_truncation", "C10_stream_complete_partial", "C11_released_data_genuine", "C13_refuted_recipient_forges", "C14_refuted", "C16_recipients_agree", "C20_refuted", "C23_refuted", "C24_recipients_partial", "C24_refuted", "C29_refuted", "C51_encrypt_then_decrypt", "C63_output_genuine", "C64_pipeline", "C65_generate_encrypt_decrypt", "C72_unverified_refuted", "C73_encrypt_words", "C84_many_files_any_reader_partial", "C84_many_files_partial", "C84_next_file_untouched_partial", "C84_refuted", "C84_stream_next_file_untouched_partial", "C84_stream_refuted", "C87_follow_along", "C88_any_form", "C93_both_ends", "C95_set_key_midway_partial"], "secs": 18, "early": true, "m": {"edits": [["Pb.v", " d (len d) idx 0 0.\n\n", " d (len d) idx 1 0.\n\n"]], "definition": "varint_at", "desc": "Pb: '0' -> '1' (auto)", "breaks": [], "mod": "Pb", "id": "v176"}}
{"mid": "v175", "lemmas": ["StreamRead.er_deliver_spec"], "hard": [], "failed": ["C02_stream_round_trip", "C03_encrypted_file_streams", "C03_stream_file_decrypts", "C09_truncated_stream", "C10_stream_complete_partial", "C11_released_data_genuine", "C13_stream_signed_partial", "C29_refuted", "C29_single_reader_partial", "C63_output_genuine", "C69_stream_and_decrypt_agree", "C76_stream_origin_partial", "C84_many_files_any_reader_partial", "C84_stream_next_file_untouched_partial", "C84_stream_refuted", "C87_follow_along", "C88_any_form", "C95_set_key_midway_partial"], "secs": 114, "early": true, "m": {"edits": [["Stream.v", " unit) :=\n  if 0 <? e", " unit) :=\n  if 1 <? e"]], "definition": "er_deliver", "desc": "Stream: '0' -> '1' (auto)", "breaks": [], "mod": "Stream", "id": "v175"}}
{"mid": "v178", "lemmas": ["EncryptProofs.add_sender_sig_spec"], "hard": [], "failed": ["C01_encrypt_decrypt_round_trip", "C01_encrypt_succeeds", "C02_stream_round_trip", "C02_stream_writes_succeed", "C03_encrypted_file_streams", "C03_stream_file_decrypts", "C04_fragmentation_independent", "C04_stream_agrees_with_encrypt", "C04_stream_write_sizes_irrelevant", "C05_file_format", "C05_stream_format", "C06_chunks", "C06_stream_chunks", "C07_nonces_distinct_partial", "C07_refuted_counter_wraps", "C07_refuted_second_encrypt", "C07_stream_nonces_distinct_partial", "C07_stream_refuted_counter_wraps", "C08_tampered_header", "C08_tampered_stream_header", "C09_truncated_file", "C09_truncated_stream", "C10_complete_partial", "C10_refuted_truncation", "C10_stream_complete_partial", "C11_released_data_genuine", "C13_refuted_recipient_forges", "C14_refuted", "C16_own_entry_opens", "C16_recipients_agree", "C20_refuted", "C21_encrypt_errors_partial", "C23_chunk_size_partial", "C23_refuted", "C24_recipients_partial", "C24_refuted", "C27_writes", "C29_refuted", "C48_encrypt_succeeds", "C51_encrypt_then_decrypt", "C56_encrypt_ends", "C57_encrypt_size", "C57_stream_size", "C58_file_randomness", "C58_stream_randomness", "C59_encrypt_against_stream", "C61_rejected_exactly", "C63_output_genuine", "C64_encrypt_succeeds", "C64_pipeline", "C65_generate_encrypt_decrypt", "C72_unverified_refuted", "C73_encrypt_words", "C76_origin_partial", "C76_stream_origin_partial", "C81_content_hidden", "C81_stream_content_hidden", "C82_recipients_hidden", "C83_anonymous", "C83_sender_hidden", "C83_stream_anonymous", "C83_stream_sender_hidden", "C84_many_files_any_reader_partial", "C84_many_files_partial", "C84_next_file_untouched_partial", "C84_refuted", "C84_stream_next_file_untouched_partial", "C84_stream_refuted", "C85_encryptor_never_panics", "C87_follow_along", "C88_any_form", "C93_both_ends", "C93_discloses", "C95_set_key_midway_partial"], "secs": 20, "early": true, "m": {"edits": [["Encrypt.v", "nition aead_nonce_size : Z := 12.\nDefiniti", "nition aead_nonce_size : Z := 13.\nDefiniti"]], "definition": "aead_nonce_size", "desc": "Encrypt: '12' -> '13' (auto)", "breaks": [], "mod": "Encrypt", "id": "v178"}}
{"mid": "v179", "lemmas": ["RoundTrip.decrypt_spec"], "hard": [], "failed": ["C01_encrypt_decrypt_round_trip", "C02_stream_round_trip", "C03_encrypted_file_streams", "C03_stream_file_decrypts", "C09_truncated_file", "C10_complete_partial", "C10_refuted_truncation", "C11_released_data_genuine", "C13_content_signed_partial", "C13_refuted_recipient_forges", "C14_refuted", "C51_encrypt_then_decrypt", "C63_output_genuine", "C64_pipeline", "C65_generate_encrypt_decrypt", "C69_stream_and_decrypt_agree", "C73_encrypt_words", "C76_origin_partial", "C84_many_files_any_reader_partial", "C84_many_files_partial", "C84_next_file_untouched_partial", "C84_refuted", "C88_any_form"], "secs": 89, "early": true, "m": {"edits": [["Decrypt.v", "if d_eof d ", "if negb (d_eof d) "]], "definition": "decrypt", "desc": "Decrypt: 'if d_eof d' -> 'if negb (d_eof d)' (auto)", "breaks": [], "mod": "Decrypt", "id": "v179"}}
{"mid": "v180", "lemmas": ["CliProofs.get_pass_ok"], "hard": [], "failed": ["C43_generate", "C43_generate_exit_status", "C44_no_overwrite_partial", "C44_old_or_new_partial", "C45_decrypt_succeeds", "C45_decrypt_to_file_partial", "C45_test_mode", "C46_refuted", "C46_sender_partial", "C48_encrypt_exact", "C48_encrypt_succeeds", "C48_unresolved", "C49_sign_partial", "C50_new_pair_partial", "C51_encrypt_then_decrypt", "C52_sign_then_verify", "C56_decrypt_ends", "C56_encrypt_ends", "C56_sign_ends", "C63_decrypt_to_stdout", "C63_output_genuine", "C64_encrypt_succeeds", "C64_encrypt_to_stdout", "C64_pipeline", "C65_generate_encrypt_decrypt", "C66_generate_sign_verify", "C68_only_outputs", "C72_unverified_refuted", "C73_encrypt_words", "C73_sign_words", "C74_failure_changes_nothing_partial", "C75_permissions", "C77_concurrent_runs", "C78_history_partial", "C80_generate", "C80_sign", "C92_printed_signature_verifies", "C92_sign_exit_status", "C92_sign_to_stdout"], "secs": 6, "early": true, "m": {"edits": [["Cli.v", "[]\n  else if 0 <? len ", "[]\n  else if 0 <=? len "]], "definition": "get_pass", "desc": "Cli: '<?' -> '<=?' (auto)", "breaks": [], "mod": "Cli", "id": "v180"}}
{"mid": "v181", "lemmas": ["Thm_Debug.C93_option"], "hard": [], "failed": ["C93_option"], "secs": 9, "early": true, "m": {"edits": [["Debug.v", "rgs main_flags false argv", "rgs main_flags true argv"]], "definition": "debug_level", "desc": "Debug: 'false' -> 'true' (auto)", "breaks": [], "mod": "Debug", "id": "v181"}}
{"mid": "v177", "lemmas": ["Thm_Amplify.er_read_kept_left"], "hard": [], "failed": ["C86_no_amplification"], "secs": 194, "early": true, "m": {"edits": [["Stream.v", ") else None), (take m b, ", ") else None), (drop m b, "]], "definition": "er_read_kept", "desc": "Stream: 'take' -> 'drop' (auto)", "breaks": [], "mod": "Stream", "id": "v177"}}
{"mid": "v182", "lemmas": ["Thm_Commands.fullwrite_failed"], "hard": [], "failed": ["C49_sign_partial", "C52_sign_then_verify", "C66_generate_sign_verify", "C73_sign_words", "C74_failure_changes_nothing_partial", "C80_sign"], "secs": 42, "early": true, "m": {"edits": [["Fs.v", "true", "false"]], "definition": "write_failed", "desc": "Fs: 'true' -> 'false' (auto)", "breaks": [], "mod": "Fs", "id": "v182"}}
{"mid": "v183", "lemmas": ["Thm_KeyFiles.marshal_private_spec"], "hard": [], "failed": ["C34_comment_refuted", "C34_private_round_trip_partial", "C42_stored_objects", "C43_generate_exit_status", "C43_pair_usable_partial", "C65_generate_encrypt_decrypt", "C66_generate_sign_verify", "C73_encrypt_words", "C73_sign_words", "C80_generate", "C80_marshal", "C80_sign", "C92_sign_exit_status", "C92_sign_to_stdout", "C98_rewritten_key"], "secs": 14, "early": true, "m": {"edits": [["KeyFiles.v", "ce_size : Z := 12.\n\n(*", "ce_size : Z := 13.\n\n(*"]], "definition": "gcm_nonce_size", "desc": "KeyFiles: '12' -> '13' (auto)", "breaks": [], "mod": "KeyFiles", "id": "v183"}}
{"mid": "v185", "lemmas": ["PbProofs.skip_varint_safe"], "hard": [], "failed": ["C01_encrypt_decrypt_round_trip", "C02_stream_round_trip", "C03_encrypted_file_streams", "C03_stream_file_decrypts", "C05_file_format", "C05_stream_format", "C08_accepted_header", "C08_tampered_header", "C08_tampered_stream_header", "C09_truncated_file", "C09_truncated_stream", "C10_complete_partial", "C10_refuted_truncation", "C10_stream_complete_partial", "C11_released_data_genuine", "C12_authenticated_means_signed", "C13_content_signed_partial", "C13_refuted_recipient_forges", "C13_stream_signed_partial", "C14_refuted", "C14_signed_file_partial", "C15_not_a_recipient", "C16_recipients_agree", "C19_new_decryptor_total", "C20_every_history_partial", "C20_no_panic_partial", "C20_refuted", "C23_refuted", "C24_recipients_partial", "C24_refuted", "C26_decoder_total_and_exact", "C26_reencode", "C28_read_discipline", "C29_refuted", "C29_single_reader_partial", "C46_sender_partial", "C51_encrypt_then_decrypt", "C56_decrypt_ends", "C60_authenticated_exactly", "C60_last_call_decides_partial", "C63_output_genuine", "C64_pipeline", "C65_generate_encrypt_decrypt", "C69_stream_and_decrypt_agree", "C70_one_file_per_encryptor", "C72_unverified_refuted", "C73_encrypt_words", "C76_origin_partial", "C76_stream_origin_partial", "C84_many_files_any_reader_partial", "C84_many_files_partial", "C84_next_file_untouched_partial", "C84_refuted", "C84_stream_next_file_untouched_partial", "C84_stream_refuted", "C87_follow_along", "C88_any_form", "C93_both_ends", "C95_set_key_midway_partial", "C96_failure_is_reported", "C96_no_sender_warning", "C96_success_is_silent", "C96_texts"], "secs": 21, "early": true, "m": {"edits": [["Pb.v", " Z) : res Z :=\n  match fuel with\n  | O => Panic \"varint: out of fuel\"\n  | S f =>\n      if 64 <=? shift then Fail (EMsg \"pr", " Z) : res Z :=\n  match fuel with\n  | O => Panic \"varint: out of fuel\"\n  | S f =>\n      if 65 <=? shift then Fail (EMsg \"pr"]], "definition": "skip_varint", "desc": "Pb: '64' -> '65' (auto)", "breaks": [], "mod": "Pb", "id": "v185"}}
{"mid": "v184", "lemmas": ["Thm_Flags.C71_command"], "hard": [], "failed": ["C100_texts", "C71_command", "C72_unverified_refuted", "C73_encrypt_words", "C73_sign_words", "C99_every_command_line", "C99_zero_partial"], "secs": 25, "early": true, "m": {"edits": [["Main.v", "| Help => quit 0\n  en", "| Help => quit 1\n  en"]], "definition": "run_command", "desc": "Main: '0' -> '1' (auto)", "breaks": [], "mod": "Main", "id": "v184"}}
{"mid": "v186", "lemmas": ["PbProofs.unmarshal_wkey_spec"], "hard": [], "failed": ["C01_encrypt_decrypt_round_trip", "C02_stream_round_trip", "C03_encrypted_file_streams", "C03_stream_file_decrypts", "C05_file_format", "C05_stream_format", "C09_truncated_file", "C09_truncated_stream", "C10_complete_partial", "C10_refuted_truncation", "C10_stream_complete_partial", "C11_released_data_genuine", "C13_refuted_recipient_forges", "C14_refuted", "C16_recipients_agree", "C20_refuted", "C23_refuted", "C24_recipients_partial", "C24_refuted", "C29_refuted", "C51_encrypt_then_decrypt", "C63_output_genuine", "C64_pipeline", "C65_generate_encrypt_decrypt", "C72_unverified_refuted", "C73_encrypt_words", "C84_many_files_any_reader_partial", "C84_many_files_partial", "C84_next_file_untouched_partial", "C84_refuted", "C84_stream_next_file_untouched_partial", "C84_stream_refuted", "C87_follow_along", "C88_any_form", "C93_both_ends", "C95_set_key_midway_partial"], "secs": 18, "early": true, "m": {"edits": [["Pb.v", "arshal_wkey_loop (length d) d 0 empty_wke", "arshal_wkey_loop (length d) d 1 empty_wke"]], "definition": "unmarshal_wkey", "desc": "Pb: '0' -> '1' (auto)", "breaks": [], "mod": "Pb", "id": "v186"}}
{"mid": "v188", "lemmas": ["Thm_Told.dec_body_talk"], "hard": [], "failed": ["C96_failure_is_reported", "C96_success_is_silent", "C96_texts"], "secs": 19, "early": true, "m": {"edits": [["Told.v", "(len infile =? 0) || ", "(len infile =? 1) || "]], "definition": "dec_body_told", "desc": "Told: '0' -> '1' (auto)", "breaks": [], "mod": "Told", "id": "v188"}}
{"mid": "v189", "lemmas": ["Thm_Crash.C56_generate_ends"], "hard": [], "failed": ["C56_generate_ends"], "secs": 49, "early": true, "m": {"edits": [["Cli.v", "skn) then done 1 []\n ", "skn) then done 2 []\n "]], "definition": "cli_generate", "desc": "Cli: '1' -> '2' (auto)", "breaks": [], "mod": "Cli", "id": "v189"}}
{"mid": "v190", "lemmas": [], "hard": [], "failed": [], "secs": 663, "m": {"edits": [["Crypto.v", "31", "32"]], "definition": "basepoint", "desc": "Crypto: '31' -> '32' (auto)", "breaks": [], "mod": "Crypto", "id": "v190"}}
{"mid": "v191", "error": "edit does not compile: File \"./theories/Encrypt.v\", line 169, characters 0-832:\nError: Non exhaustive pattern-matching: no clause found for pattern false\n\n", "m": {"edits": [["Encrypt.v", " end, g)\n    | false => l", " end, g)\n    | true => l"]], "definition": "write_trailer", "desc": "Encrypt: 'false' -> 'true' (auto)", "breaks": [], "mod": "Encrypt", "id": "v191"}}
{"mid": "v192", "error": "edit does not compile: File \"./theories/KeyFiles.v\", line 31, characters 75-86:\nError: No interpretation for string \"signature\".\n\n", "m": {"edits": [["KeyFiles.v", " (ss_pkhash r) ++ y_field \"sig", " (ss_pkhash r) ++ [] \"sig"]], "definition": "yaml_sig", "desc": "KeyFiles: '++ y_field' -> '++ []' (auto)", "breaks": [], "mod": "KeyFiles", "id": "v192"}}
{"mid": "v193", "lemmas": ["FlagsProofs.split_eq_spec"], "hard": [], "failed": ["C100_texts", "C71_command", "C71_options", "C72_unverified_refuted", "C73_encrypt_words", "C73_sign_words", "C99_every_command_line", "C99_misspelt_refuted", "C99_zero_partial"], "secs": 8, "early": true, "m": {"edits": [["Flags.v", "if Byte.eqb c x3d ", "if negb (Byte.eqb c x3d) "]], "definition": "split_eq", "desc": "Flags: 'if Byte.eqb c x3d' -> 'if negb (Byte.eqb c x3d)' (auto)", "breaks": [], "mod": "Flags", "id": "v193"}}
{"mid": "v194", "lemmas": ["PbProofs.put_varint_leb"], "hard": [], "failed": ["C01_encrypt_decrypt_round_trip", "C01_encrypt_succeeds", "C02_stream_round_trip", "C02_stream_writes_succeed", "C03_encrypted_file_streams", "C03_stream_file_decrypts", "C04_fragmentation_independent", "C04_stream_agrees_with_encrypt", "C04_stream_write_sizes_irrelevant", "C05_file_format", "C05_stream_format", "C06_chunks", "C06_stream_chunks", "C07_nonces_distinct_partial", "C07_refuted_counter_wraps", "C07_refuted_second_encrypt", "C07_stream_nonces_distinct_partial", "C07_stream_refuted_counter_wraps", "C08_tampered_header", "C08_tampered_stream_header", "C09_truncated_file", "C09_truncated_stream", "C10_complete_partial", "C10_refuted_truncation", "C10_stream_complete_partial", "C11_released_data_genuine", "C13_refuted_recipient_forges", "C14_refuted", "C16_recipients_agree", "C20_refuted", "C21_encrypt_errors_partial", "C23_refuted", "C24_recipients_partial", "C24_refuted", "C25_header_codec_round_trip", "C26_reencode", "C27_writes", "C29_refuted", "C48_encrypt_succeeds", "C51_encrypt_then_decrypt", "C56_encrypt_ends", "C57_encrypt_size", "C57_stream_size", "C58_file_randomness", "C58_stream_randomness", "C59_encrypt_against_stream", "C63_output_genuine", "C64_encrypt_succeeds", "C64_pipeline", "C65_generate_encrypt_decrypt", "C72_unverified_refuted", "C73_encrypt_words", "C76_origin_partial", "C76_stream_origin_partial", "C81_content_hidden", "C81_stream_content_hidden", "C83_anonymous", "C83_sender_hidden", "C83_stream_anonymous", "C83_stream_sender_hidden", "C84_many_files_any_reader_partial", "C84_many_files_partial", "C84_next_file_untouched_partial", "C84_refuted", "C84_stream_next_file_untouched_partial", "C84_stream_refuted", "C85_encryptor_never_panics", "C87_follow_along", "C88_any_form", "C93_both_ends", "C93_discloses", "C93_encryptor_messages", "C95_set_key_midway_partial"], "secs": 15, "early": true, "m": {"edits": [["Pb.v", "\n  | S f => if 128 <=? ", "\n  | S f => if 129 <=? "]], "definition": "put_varint", "desc": "Pb: '128' -> '129' (auto)", "breaks": [], "mod": "Pb", "id": "v194"}}
{"mid": "v195", "lemmas": ["Thm_Cli.cli_decrypt_any"], "hard": [], "failed": ["C44_no_overwrite_partial", "C44_old_or_new_partial", "C45_decrypt_to_file_partial", "C51_encrypt_then_decrypt", "C63_decrypt_to_stdout", "C63_output_genuine", "C64_pipeline", "C65_generate_encrypt_decrypt", "C68_only_outputs", "C72_unverified_refuted", "C73_encrypt_words", "C74_failure_changes_nothing_partial", "C75_permissions", "C77_concurrent_runs", "C78_history_partial"], "secs": 33, "early": true, "m": {"edits": [["Cli.v", "infile :: _ => if beq infile (str \"-\") then ", "infile :: _ => if negb (beq infile (str \"-\")) then "]], "definition": "cli_decrypt", "desc": "Cli: 'if beq infile (str \"-\")' -> 'if negb (beq infile (str \"-\"))' (auto)", "breaks": [], "mod": "Cli", "id": "v195"}}
{"mid": "v196", "lemmas": ["IOProofs.w_close_accepts", "EncryptProofs.encrypt_spec"], "hard": [], "failed": ["C01_encrypt_decrypt_round_trip", "C01_encrypt_succeeds", "C02_stream_round_trip", "C03_encrypted_file_streams", "C03_stream_file_decrypts", "C04_fragmentation_independent", "C04_stream_agrees_with_encrypt", "C05_file_format", "C06_chunks", "C07_nonces_distinct_partial", "C07_refuted_counter_wraps", "C07_refuted_second_encrypt", "C08_tampered_header", "C09_truncated_file", "C09_truncated_stream", "C10_complete_partial", "C10_refuted_truncation", "C10_stream_complete_partial", "C11_released_data_genuine", "C13_refuted_recipient_forges", "C14_refuted", "C16_recipients_agree", "C20_refuted", "C21_encrypt_errors_partial", "C23_refuted", "C24_recipients_partial", "C24_refuted", "C29_refuted", "C48_encrypt_succeeds", "C51_encrypt_then_decrypt", "C57_encrypt_size", "C58_file_randomness", "C59_encrypt_against_stream", "C63_output_genuine", "C64_encrypt_succeeds", "C64_pipeline", "C65_generate_encrypt_decrypt", "C72_unverified_refuted", "C73_encrypt_words", "C76_origin_partial", "C76_stream_origin_partial", "C81_content_hidden", "C83_anonymous", "C83_sender_hidden", "C84_many_files_any_reader_partial", "C84_many_files_partial", "C84_next_file_untouched_partial", "C84_refuted", "C84_stream_next_file_untouched_partial", "C84_stream_refuted", "C88_any_form", "C93_both_ends", "C93_discloses", "C95_set_key_midway_partial"], "secs": 28, "early": true, "m": {"edits": [["GoIO.v", "(w_sched w) [] (w_nclosed w + 1))\n  | e :", "(w_sched w) [] (w_nclosed w + 2))\n  | e :"]], "definition": "w_close", "desc": "GoIO: '1' -> '2' (auto)", "breaks": [], "mod": "GoIO", "id": "v196"}}
{"mid": "v197", "error": "edit does not compile: File \"./theories/KeyFiles.v\", line 27, characters 91-94:\nError: No interpretation for string \"p\".\n\n", "m": {"edits": [["KeyFiles.v", "E \"r\" (sp_R r) ++ y_optint E \"p", "E \"r\" (sp_R r) ++ [] E \"p"]], "definition": "yaml_priv", "desc": "KeyFiles: '++ y_optint' -> '++ []' (auto)", "breaks": [], "mod": "KeyFiles", "id": "v197"}}
{"mid": "v198", "lemmas": ["Thm_Flags.C71_options"], "hard": [], "failed": ["C100_texts", "C71_command", "C71_options", "C72_unverified_refuted", "C73_encrypt_words", "C73_sign_words", "C99_every_command_line", "C99_misspelt_refuted", "C99_zero_partial"], "secs": 18, "early": true, "m": {"edits": [["Flags.v", "_args sign_flags true argv) (fun s a =>\n     if get_bool s (str \"help\") false then Quit 0\n   ", "_args sign_flags true argv) (fun s a =>\n     if negb (get_bool s (str \"help\") false) then Quit 0\n   "]], "definition": "declared", "desc": "Flags: 'if get_bool s (str \"help\") false' -> 'if negb (get_bool s (str \"help\") false)' (auto)", "breaks": [], "mod": "Flags", "id": "v198"}}
{"mid": "v199", "lemmas": ["Thm_Told.recipients_same"], "hard": [], "failed": ["C82_recipients_hidden", "C96_same_outcome"], "secs": 190, "early": true, "m": {"edits": [["Cli.v", "s' e g (errs + 1)\n   ", "s' e g (errs + 2)\n   "]], "definition": "enc_recipients", "desc": "Cli: '1' -> '2' (auto)", "breaks": [], "mod": "Cli", "id": "v199"}}
{"mid": "v200", "lemmas": ["OpenProofs.new_decryptor_spec"], "hard": [], "failed": ["C01_encrypt_decrypt_round_trip", "C02_stream_round_trip", "C03_encrypted_file_streams", "C03_stream_file_decrypts", "C08_accepted_header", "C08_tampered_header", "C08_tampered_stream_header", "C09_truncated_file", "C09_truncated_stream", "C10_complete_partial", "C10_refuted_truncation", "C10_stream_complete_partial", "C11_released_data_genuine", "C13_content_signed_partial", "C13_refuted_recipient_forges", "C13_stream_signed_partial", "C14_refuted", "C16_recipients_agree", "C20_refuted", "C23_refuted", "C24_recipients_partial", "C24_refuted", "C29_refuted", "C29_single_reader_partial", "C51_encrypt_then_decrypt", "C63_output_genuine", "C64_pipeline", "C65_generate_encrypt_decrypt", "C69_stream_and_decrypt_agree", "C70_one_file_per_encryptor", "C72_unverified_refuted", "C73_encrypt_words", "C76_origin_partial", "C76_stream_origin_partial", "C84_many_files_any_reader_partial", "C84_many_files_partial", "C84_next_file_untouched_partial", "C84_refuted", "C84_stream_next_file_untouched_partial", "C84_stream_refuted", "C87_follow_along", "C88_any_form", "C93_both_ends", "C95_set_key_midway_partial"], "secs": 66, "early": true, "m": {"edits": [["Encrypt.v", "hdr_len : Z := 12.\nDef", "hdr_len : Z := 13.\nDef"]], "definition": "fixed_hdr_len", "desc": "Encrypt: '12' -> '13' (auto)", "breaks": [], "mod": "Encrypt", "id": "v200"}}
{"mid": "v201", "lemmas": ["Thm_Cli.cli_encrypt_any"], "hard": [], "failed": ["C44_no_overwrite_partial", "C44_old_or_new_partial", "C48_encrypt_exact", "C48_unresolved", "C51_encrypt_then_decrypt", "C64_encrypt_to_stdout", "C64_pipeline", "C65_generate_encrypt_decrypt", "C68_only_outputs", "C73_encrypt_words", "C74_failure_changes_nothing_partial", "C75_permissions", "C77_concurrent_runs", "C78_history_partial"], "secs": 21, "early": true, "m": {"edits": [["Cli.v", "       with_output W v (oct 6 0 0) (eo_ou", "       with_output W v (oct 6 1 0) (eo_ou"]], "definition": "cli_encrypt", "desc": "Cli: '0' -> '1' (auto)", "breaks": [], "mod": "Cli", "id": "v201"}}
{"mid": "v202", "lemmas": ["SshProofs.parse_key_bytes"], "hard": [], "failed": ["C33_openssh_line", "C35_public_partial", "C37_bad_blob_rejected", "C37_blob_exact", "C37_line_exact", "C37_line_partial", "C38_entries_partial", "C43_pair_usable_partial", "C47_verify_exact", "C52_sign_then_verify", "C53_crash_exactly_partial", "C54_round_trip_partial", "C54_string_exact", "C56_decrypt_ends", "C56_encrypt_ends", "C62_verify_report", "C65_generate_encrypt_decrypt", "C66_generate_sign_verify", "C67_public_exact", "C68_only_outputs", "C73_encrypt_words", "C73_sign_words", "C74_failure_changes_nothing_partial", "C75_permissions", "C77_concurrent_runs", "C78_history_partial", "C79_verify_command", "C88_any_form", "C92_printed_signature_verifies"], "secs": 42, "early": true, "m": {"edits": [["Keys.v", " bytes := take 16 (sha", " bytes := take 17 (sha"]], "definition": "pkhash", "desc": "Keys: '16' -> '17' (auto)", "breaks": [], "mod": "Keys", "id": "v202"}}
{"mid": "v203", "lemmas": ["CliProofs.with_output_file"], "hard": [], "failed": ["C44_no_overwrite_partial", "C44_old_or_new_partial", "C45_decrypt_succeeds", "C45_decrypt_to_file_partial", "C48_encrypt_exact", "C48_encrypt_succeeds", "C48_unresolved", "C49_sign_partial", "C51_encrypt_then_decrypt", "C52_sign_then_verify", "C65_generate_encrypt_decrypt", "C66_generate_sign_verify", "C73_encrypt_words", "C73_sign_words", "C74_failure_changes_nothing_partial", "C80_sign"], "secs": 6, "early": true, "m": {"edits": [["Cli.v", "if tofile ", "if negb (tofile) "]], "definition": "with_output", "desc": "Cli: 'if tofile' -> 'if negb (tofile)' (auto)", "breaks": [], "mod": "Cli", "id": "v203"}}
{"mid": "v204", "lemmas": ["Toy.toy_ys_ok"], "hard": [], "failed": ["C21_refuted", "C44_refuted", "C45_close_refuted", "C46_refuted", "C49_refuted", "C50_refuted", "C53_refuted", "C60_refuted", "C74_generate_refuted", "C95_no_panic_refuted", "C95_repeated_call_refuted"], "secs": 107, "early": true, "m": {"edits": [["Keys.v", ": Z := 2^255 - 19.\n\n(*", ": Z := 2^255 - 20.\n\n(*"]], "definition": "curve_p", "desc": "Keys: '19' -> '20' (auto)", "breaks": [], "mod": "Keys", "id": "v204"}}
{"mid": "v205", "lemmas": ["Base64Proofs.dec_cons4"], "hard": [], "failed": ["C32_signature_reading_exact", "C32_signature_round_trip", "C33_openssh_line", "C33_public_round_trip", "C33_yaml_exact", "C34_private_round_trip_partial", "C35_public_partial", "C36_private_panics_exactly", "C36_private_partial", "C36_private_refuted", "C36_public_panics_exactly", "C37_bad_blob_rejected", "C37_blob_exact", "C37_line_exact", "C37_line_partial", "C38_entries_partial", "C38_sound", "C40_decode_exact", "C40_refused", "C40_round_trip", "C42_stored_objects", "C43_pair_usable_partial", "C47_verify_exact", "C52_sign_then_verify", "C53_crash_exactly_partial", "C54_refuted", "C54_round_trip_partial", "C54_string_exact", "C56_decrypt_ends", "C56_encrypt_ends", "C56_sign_ends", "C62_verify_report", "C65_generate_encrypt_decrypt", "C66_generate_sign_verify", "C67_one_key", "C67_private_exact", "C67_public_exact", "C68_only_outputs", "C73_encrypt_words", "C73_sign_words", "C74_failure_changes_nothing_partial", "C75_permissions", "C77_concurrent_runs", "C78_history_partial", "C79_verify_command", "C88_any_form", "C92_printed_signature_verifies", "C98_rewritten_key"], "secs": 2, "early": true, "m": {"edits": [["Base64.v", "2^12 + d2 * 2^6 + d in\n", "2^12 + d2 * 2^6 - d in\n"]], "definition": "b64_dec", "desc": "Base64: '+' -> '-' (auto)", "breaks": [], "mod": "Base64", "id": "v205"}}
{"mid": "v206", "lemmas": ["EncryptProofs.full_header_code"], "hard": [], "failed": ["C01_encrypt_decrypt_round_trip", "C01_encrypt_succeeds", "C02_stream_round_trip", "C02_stream_writes_succeed", "C03_encrypted_file_streams", "C03_stream_file_decrypts", "C04_fragmentation_independent", "C04_stream_agrees_with_encrypt", "C04_stream_write_sizes_irrelevant", "C05_file_format", "C05_stream_format", "C06_chunks", "C06_stream_chunks", "C07_nonces_distinct_partial", "C07_refuted_counter_wraps", "C07_refuted_second_encrypt", "C07_stream_nonces_distinct_partial", "C07_stream_refuted_counter_wraps", "C08_tampered_header", "C08_tampered_stream_header", "C09_truncated_file", "C09_truncated_stream", "C10_complete_partial", "C10_refuted_truncation", "C10_stream_complete_partial", "C11_released_data_genuine", "C13_refuted_recipient_forges", "C14_refuted", "C16_recipients_agree", "C20_refuted", "C21_encrypt_errors_partial", "C23_refuted", "C24_recipients_partial", "C24_refuted", "C27_writes", "C29_refuted", "C48_encrypt_succeeds", "C51_encrypt_then_decrypt", "C56_encrypt_ends", "C57_encrypt_size", "C57_stream_size", "C58_file_randomness", "C58_stream_randomness", "C59_encrypt_against_stream", "C63_output_genuine", "C64_encrypt_succeeds", "C64_pipeline", "C65_generate_encrypt_decrypt", "C72_unverified_refuted", "C73_encrypt_words", "C76_origin_partial", "C76_stream_origin_partial", "C81_content_hidden", "C81_stream_content_hidden", "C83_anonymous", "C83_sender_hidden", "C83_stream_anonymous", "C83_stream_sender_hidden", "C84_many_files_any_reader_partial", "C84_many_files_partial", "C84_next_file_untouched_partial", "C84_refuted", "C84_stream_next_file_untouched_partial", "C84_stream_refuted", "C85_encryptor_never_panics", "C87_follow_along", "C88_any_form", "C93_both_ends", "C93_discloses", "C93_encryptor_messages", "C95_set_key_midway_partial"], "secs": 15, "early": true, "m": {"edits": [["Encrypt.v", "version : Z := 3.\nDef", "version : Z := 4.\nDef"]], "definition": "sigtool_version", "desc": "Encrypt: '3' -> '4' (auto)", "breaks": [], "mod": "Encrypt", "id": "v206"}}
{"mid": "v187", "lemmas": ["BytesLemmas.be64_inj"], "hard": ["Thm_Sign(timeout/mem)", "Thm_Cli", "Thm_Commands", "Thm_Chain", "Thm_Crash", "Thm_Flags", "Thm_Debug", "Thm_Dest", "Thm_EndToEnd", "Thm_Pipe", "Thm_Touch", "Thm_Texts", "Thm_Exit", "Thm_Fail", "Thm_Forms", "Thm_Modes", "Thm_Parallel", "Thm_Reads", "Thm_SignOut", "Thm_Signed", "Thm_Told", "Thm_Words", "Thm_Zero", "Thm_Usage"], "failed": ["C100_options_missing_refuted", "C100_texts", "C100_usage_is_true", "C30_generated_keys", "C30_key_objects_named", "C30_signatures_verify", "C30_verify_exact", "C31_file_signature_binds", "C31_hash_input_injective", "C41_conversions_agree", "C41_private_key_conversion", "C41_public_key_conversion", "C42_write_outcome", "C43_generate_exit_status", "C44_no_overwrite_partial", "C44_old_or_new_partial", "C44_refuted", "C45_close_refuted", "C45_decrypt_succeeds", "C45_decrypt_to_file_partial", "C45_test_mode", "C46_refuted", "C46_sender_partial", "C47_verify_exact", "C48_encrypt_exact", "C48_encrypt_succeeds", "C48_unresolved", "C49_refuted", "C49_sign_partial", "C51_encrypt_then_decrypt", "C52_sign_then_verify", "C53_crash_exactly_partial", "C53_refuted", "C54_refuted", "C54_round_trip_partial", "C54_string_exact", "C56_decrypt_ends", "C56_encrypt_ends", "C56_generate_ends", "C56_sign_ends", "C62_verify_report", "C63_decrypt_to_stdout", "C63_output_genuine", "C64_encrypt_succeeds", "C64_encrypt_to_stdout", "C64_pipeline", "C65_generate_encrypt_decrypt", "C66_generate_sign_verify", "C68_only_outputs", "C71_command", "C71_options", "C71_own_help", "C72_gen_p_refuted", "C72_readme_partial", "C72_sign_stdout_refuted", "C72_unverified_refuted", "C73_encrypt_words", "C73_sign_words", "C74_failure_changes_nothing_partial", "C74_generate_refuted", "C75_generated_pair", "C75_permissions", "C77_concurrent_runs", "C78_history_partial", "C78_refuted_race", "C79_verified_file", "C79_verify_command", "C80_generate", "C80_marshal", "C80_sign", "C88_any_form", "C90_one_destination", "C92_printed_signature_verifies", "C92_sign_exit_status", "C92_sign_to_stdout", "C93_both_ends", "C93_decryptor_messages", "C93_discloses", "C93_encryptor_messages", "C93_option", "C93_silent", "C96_every_bad_recipient_named", "C96_failure_is_reported", "C96_no_sender_warning", "C96_program_name_refuted", "C96_same_outcome", "C96_success_is_silent", "C96_texts", "C96_truthful", "C97_decrypt", "C97_encrypt", "C97_generate", "C97_sign", "C97_verify", "C99_every_command_line", "C99_misspelt_refuted", "C99_zero_partial"], "secs": 1427, "m": {"edits": [["Bytes.v", "s := be32 (z / 2^32) ", "s := be32 (z / 3^32) "]], "definition": "be64", "desc": "Bytes: '2' -> '3' (auto)", "breaks": [], "mod": "Bytes", "id": "v187"}}
{"mid": "v208", "lemmas": ["CliProofs.keymap_spec"], "hard": [], "failed": ["C44_old_or_new_partial", "C48_encrypt_exact", "C48_encrypt_succeeds", "C48_unresolved", "C51_encrypt_then_decrypt", "C64_encrypt_succeeds", "C64_encrypt_to_stdout", "C64_pipeline", "C65_generate_encrypt_decrypt", "C73_encrypt_words", "C74_failure_changes_nothing_partial", "C96_every_bad_recipient_named"], "secs": 6, "early": true, "m": {"edits": [["Cli.v", "if beq (pk_comment pk) fn ", "if negb (beq (pk_comment pk) fn) "]], "definition": "keymap_get", "desc": "Cli: 'if beq (pk_comment pk) fn' -> 'if negb (beq (pk_comment pk) fn)' (auto)", "breaks": [], "mod": "Cli", "id": "v208"}}
{"mid": "v207", "lemmas": ["Scene.keys_differ", "KeysProofs.clamp_value"], "hard": [], "failed": ["C41_private_key_conversion"], "secs": 244, "early": true, "m": {"edits": [["Keys.v", "  let k := upd 0 (fun", "  let k := upd 1 (fun"]], "definition": "clamp", "desc": "Keys: '0' -> '1' (auto)", "breaks": [], "mod": "Keys", "id": "v207"}}
{"mid": "v210", "lemmas": ["Thm_KeyFiles.C35_private_partial"], "hard": [], "failed": ["C35_private_partial", "C80_sign"], "secs": 13, "early": true, "m": {"edits": [["KeyFiles.v", "||", "&&"]], "definition": "unmarshal_private", "desc": "KeyFiles: '||' -> '&&' (auto)", "breaks": [], "mod": "KeyFiles", "id": "v210"}}
{"mid": "v209", "lemmas": ["Thm_KeyFiles.C36_private_refuted"], "hard": [], "failed": ["C36_private_refuted"], "secs": 175, "early": true, "m": {"edits": [["Bytes.v", ": Z := z mod 2^64.\nDef", ": Z := z mod 2^65.\nDef"]], "definition": "u64", "desc": "Bytes: '64' -> '65' (auto)", "breaks": [], "mod": "Bytes", "id": "v209"}}
{"mid": "v211", "lemmas": ["Thm_KeyFiles.marshal_private_spec"], "hard": [], "failed": ["C34_comment_refuted", "C34_private_round_trip_partial", "C42_stored_objects", "C43_generate_exit_status", "C43_pair_usable_partial", "C65_generate_encrypt_decrypt", "C66_generate_sign_verify", "C73_encrypt_words", "C73_sign_words", "C80_generate", "C80_marshal", "C80_sign", "C92_sign_exit_status", "C92_sign_to_stdout", "C98_rewritten_key"], "secs": 169, "early": true, "m": {"edits": [["Crypto.v", "\")\n  else if 2^48 <? 1", "\")\n  else if 2^49 <? 1"]], "definition": "scrypt_key", "desc": "Crypto: '48' -> '49' (auto)", "breaks": [], "mod": "Crypto", "id": "v211"}}
{"mid": "v212", "lemmas": ["CrashProofs.scrypt_cases"], "hard": [], "failed": ["C36_private_panics_exactly", "C56_decrypt_ends", "C56_encrypt_ends", "C56_generate_ends", "C56_sign_ends", "C67_one_key", "C67_private_exact", "C88_any_form", "C98_rewritten_key"], "secs": 214, "early": true, "m": {"edits": [["Crypto.v", "int : Z := 2^63 - 1.\nDe", "int : Z := 2^63 + 1.\nDe"]], "definition": "max_int", "desc": "Crypto: '-' -> '+' (auto)", "breaks": [], "mod": "Crypto", "id": "v212"}}
{"mid": "v214", "lemmas": ["CliProofs.dec_body_spec"], "hard": [], "failed": ["C44_old_or_new_partial", "C45_decrypt_to_file_partial", "C51_encrypt_then_decrypt", "C65_generate_encrypt_decrypt", "C73_encrypt_words", "C74_failure_changes_nothing_partial"], "secs": 5, "early": true, "m": {"edits": [["Cli.v", ", w, Ok _) => (0, snd", ", w, Ok _) => (1, snd"]], "definition": "dec_body", "desc": "Cli: '0' -> '1' (auto)", "breaks": [], "mod": "Cli", "id": "v214"}}
{"mid": "v215", "lemmas": ["PbProofs.unmarshal_spec"], "hard": [], "failed": ["C01_encrypt_decrypt_round_trip", "C02_stream_round_trip", "C03_encrypted_file_streams", "C03_stream_file_decrypts", "C05_file_format", "C05_stream_format", "C09_truncated_file", "C09_truncated_stream", "C10_complete_partial", "C10_refuted_truncation", "C10_stream_complete_partial", "C11_released_data_genuine", "C13_refuted_recipient_forges", "C14_refuted", "C16_recipients_agree", "C20_refuted", "C23_refuted", "C24_recipients_partial", "C24_refuted", "C29_refuted", "C51_encrypt_then_decrypt", "C63_output_genuine", "C64_pipeline", "C65_generate_encrypt_decrypt", "C72_unverified_refuted", "C73_encrypt_words", "C84_many_files_any_reader_partial", "C84_many_files_partial", "C84_next_file_untouched_partial", "C84_refuted", "C84_stream_next_file_untouched_partial", "C84_stream_refuted", "C87_follow_along", "C88_any_form", "C93_both_ends", "C95_set_key_midway_partial"], "secs": 19, "early": true, "m": {"edits": [["Pb.v", "shal_header_loop (length d) d 0 empty_hea", "shal_header_loop (length d) d 1 empty_hea"]], "definition": "unmarshal_header", "desc": "Pb: '0' -> '1' (auto)", "breaks": [], "mod": "Pb", "id": "v215"}}
{"mid": "v216", "lemmas": ["Thm_Race.inv_begin"], "hard": [], "failed": ["C94_caches", "C94_goroutines_partial"], "secs": 6, "early": true, "m": {"edits": [["Race.v", "\n  | SkCache k 0 => m", "\n  | SkCache k 1 => m"]], "definition": "cells_of", "desc": "Race: '0' -> '1' (auto)", "breaks": [], "mod": "Race", "id": "v216"}}
{"mid": "v217", "lemmas": ["FlagsProofs.parse_bool_cases"], "hard": [], "failed": ["C100_texts", "C71_command", "C71_options", "C72_unverified_refuted", "C73_encrypt_words", "C73_sign_words", "C93_option", "C99_every_command_line", "C99_misspelt_refuted", "C99_zero_partial"], "secs": 4, "early": true, "m": {"edits": [["Flags.v", "ue\"] then Some true\n  el", "ue\"] then Some false\n  el"]], "definition": "parse_bool", "desc": "Flags: 'true' -> 'false' (auto)", "breaks": [], "mod": "Flags", "id": "v217"}}
{"mid": "v218", "lemmas": ["FlagsProofs.set_value_says"], "hard": [], "failed": ["C100_texts", "C71_command", "C71_options", "C72_unverified_refuted", "C73_encrypt_words", "C73_sign_words", "C93_option", "C99_every_command_line", "C99_misspelt_refuted", "C99_zero_partial"], "secs": 5, "early": true, "m": {"edits": [["Flags.v", "tion fval :=\n  if fg_bool f then ", "tion fval :=\n  if negb (fg_bool f) then "]], "definition": "set_value", "desc": "Flags: 'if fg_bool f' -> 'if negb (fg_bool f)' (auto)", "breaks": [], "mod": "Flags", "id": "v218"}}
{"mid": "v219", "lemmas": ["Thm_KeyFiles.C33_public_round_trip"], "hard": [], "failed": ["C33_public_round_trip", "C42_stored_objects", "C43_pair_usable_partial", "C65_generate_encrypt_decrypt", "C66_generate_sign_verify", "C73_encrypt_words", "C73_sign_words"], "secs": 8, "early": true, "m": {"edits": [["KeyFiles.v", "if len (su_pk spk) =? 0 ", "if negb (len (su_pk spk) =? 0) "]], "definition": "unmarshal_public", "desc": "KeyFiles: 'if len (su_pk spk) =? 0' -> 'if negb (len (su_pk spk) =? 0)' (auto)", "breaks": [], "mod": "KeyFiles", "id": "v219"}}
{"mid": "v213", "lemmas": ["PbGrammar.skip_loop_unfold"], "hard": [], "failed": ["C25_header_codec_round_trip", "C26_decoder_total_and_exact", "C26_reencode"], "secs": 160, "early": true, "m": {"edits": [["Pb.v", " - 1", " - 0"]], "definition": "skip_loop", "desc": "Pb: '- 1' -> '- 0' (auto)", "breaks": [], "mod": "Pb", "id": "v213"}}
{"mid": "v221", "lemmas": ["CliProofs.enc_body_spec"], "hard": [], "failed": ["C44_old_or_new_partial", "C48_encrypt_exact", "C48_unresolved", "C51_encrypt_then_decrypt", "C65_generate_encrypt_decrypt", "C73_encrypt_words", "C74_failure_changes_nothing_partial"], "secs": 8, "early": true, "m": {"edits": [["Cli.v", ">\n          if 0 <? e", ">\n          if 1 <? e"]], "definition": "enc_body", "desc": "Cli: '0' -> '1' (auto)", "breaks": [], "mod": "Cli", "id": "v221"}}
{"mid": "v220", "lemmas": ["SshProofs.parse_key_bytes"], "hard": [], "failed": ["C33_openssh_line", "C35_public_partial", "C37_bad_blob_rejected", "C37_blob_exact", "C37_line_exact", "C37_line_partial", "C38_entries_partial", "C43_pair_usable_partial", "C47_verify_exact", "C52_sign_then_verify", "C53_crash_exactly_partial", "C54_round_trip_partial", "C54_string_exact", "C56_decrypt_ends", "C56_encrypt_ends", "C62_verify_report", "C65_generate_encrypt_decrypt", "C66_generate_sign_verify", "C67_public_exact", "C68_only_outputs", "C73_encrypt_words", "C73_sign_words", "C74_failure_changes_nothing_partial", "C75_permissions", "C77_concurrent_runs", "C78_history_partial", "C79_verify_command", "C88_any_form", "C92_printed_signature_verifies"], "secs": 42, "early": true, "m": {"edits": [["Keys.v", "negb (len b =? 32) the", "negb (len b =? 33) the"]], "definition": "make_public_from_bytes", "desc": "Keys: '32' -> '33' (auto)", "breaks": [], "mod": "Keys", "id": "v220"}}
{"mid": "v223", "lemmas": ["BytesLemmas.unbe32_be32"], "hard": [], "failed": ["C01_encrypt_decrypt_round_trip", "C01_encrypt_succeeds", "C02_stream_round_trip", "C02_stream_writes_succeed", "C03_encrypted_file_streams", "C03_stream_file_decrypts", "C04_fragmentation_independent", "C04_stream_agrees_with_encrypt", "C04_stream_write_sizes_irrelevant", "C05_file_format", "C05_stream_format", "C06_chunks", "C06_stream_chunks", "C07_nonces_distinct_partial", "C07_refuted_counter_wraps", "C07_refuted_second_encrypt", "C07_stream_nonces_distinct_partial", "C07_stream_refuted_counter_wraps", "C08_accepted_header", "C08_tampered_header", "C08_tampered_stream_header", "C09_truncated_file", "C09_truncated_stream", "C10_complete_partial", "C10_refuted_truncation", "C10_stream_complete_partial", "C11_released_data_genuine", "C13_content_signed_partial", "C13_refuted_recipient_forges", "C13_stream_signed_partial", "C14_refuted", "C16_recipients_agree", "C20_refuted", "C21_encrypt_errors_partial", "C23_refuted", "C24_recipients_partial", "C24_refuted", "C27_writes", "C29_refuted", "C29_single_reader_partial", "C33_openssh_line", "C35_public_partial", "C36_openssh_refuted", "C36_private_panics_exactly", "C36_public_panics_exactly", "C37_bad_blob_rejected", "C37_blob_exact", "C37_line_exact", "C37_line_partial", "C38_entries_partial", "C39_container_exact", "C39_section_unique", "C43_pair_usable_partial", "C47_verify_exact", "C48_encrypt_succeeds", "C51_encrypt_then_decrypt", "C52_sign_then_verify", "C53_crash_exactly_partial", "C54_refuted", "C54_round_trip_partial", "C54_string_exact", "C56_decrypt_ends", "C56_encrypt_ends", "C56_sign_ends", "C57_encrypt_size", "C57_stream_size", "C58_file_randomness", "C58_stream_randomness", "C59_encrypt_against_stream", "C62_verify_report", "C63_output_genuine", "C64_encrypt_succeeds", "C64_pipeline", "C65_generate_encrypt_decrypt", "C66_generate_sign_verify", "C67_one_key", "C67_private_exact", "C67_public_exact", "C68_only_outputs", "C69_stream_and_decrypt_agree", "C70_one_file_per_encryptor", "C72_unverified_refuted", "C73_encrypt_words", "C73_sign_words", "C74_failure_changes_nothing_partial", "C75_permissions", "C76_origin_partial", "C76_stream_origin_partial", "C77_concurrent_runs", "C78_history_partial", "C79_verify_command", "C81_content_hidden", "C81_stream_content_hidden", "C83_anonymous", "C83_sender_hidden", "C83_stream_anonymous", "C83_stream_sender_hidden", "C84_many_files_any_reader_partial", "C84_many_files_partial", "C84_next_file_untouched_partial", "C84_refuted", "C84_stream_next_file_untouched_partial", "C84_stream_refuted", "C85_encryptor_never_panics", "C87_follow_along", "C88_any_form", "C92_printed_signature_verifies", "C93_both_ends", "C93_discloses", "C93_encryptor_messages", "C95_set_key_midway_partial", "C98_rewritten_key"], "secs": 3, "early": true, "m": {"edits": [["Bytes.v", "=> b2z a * 2^24 + b2z b", "=> b2z a * 2^24 - b2z b"]], "definition": "unbe32", "desc": "Bytes: '+' -> '-' (auto)", "breaks": [], "mod": "Bytes", "id": "v223"}}
{"mid": "v222", "lemmas": ["PbProofs.get_varint_leb"], "hard": [], "failed": ["C01_encrypt_decrypt_round_trip", "C02_stream_round_trip", "C03_encrypted_file_streams", "C03_stream_file_decrypts", "C05_file_format", "C05_stream_format", "C09_truncated_file", "C09_truncated_stream", "C10_complete_partial", "C10_refuted_truncation", "C10_stream_complete_partial", "C11_released_data_genuine", "C13_refuted_recipient_forges", "C14_refuted", "C16_recipients_agree", "C20_refuted", "C23_refuted", "C24_recipients_partial", "C24_refuted", "C29_refuted", "C51_encrypt_then_decrypt", "C63_output_genuine", "C64_pipeline", "C65_generate_encrypt_decrypt", "C72_unverified_refuted", "C73_encrypt_words", "C84_many_files_any_reader_partial", "C84_many_files_partial", "C84_next_file_untouched_partial", "C84_refuted", "C84_stream_next_file_untouched_partial", "C84_stream_refuted", "C87_follow_along", "C88_any_form", "C93_both_ends", "C95_set_key_midway_partial"], "secs": 18, "early": true, "m": {"edits": [["Pb.v", "f bits d l (idx + 1) (sh", "f bits d l (idx + 2) (sh"]], "definition": "get_varint", "desc": "Pb: '+ 1' -> '+ 2' (auto)", "breaks": [], "mod": "Pb", "id": "v222"}}
{"mid": "v224", "lemmas": ["DecryptProofs.dec_loop_S"], "hard": [], "failed": ["C01_encrypt_decrypt_round_trip", "C02_stream_round_trip", "C03_encrypted_file_streams", "C03_stream_file_decrypts", "C09_truncated_file", "C10_complete_partial", "C10_refuted_truncation", "C11_released_data_genuine", "C13_content_signed_partial", "C13_refuted_recipient_forges", "C14_refuted", "C18_nothing_after_decrypt", "C18_nothing_after_decrypt_every_history", "C20_every_history_partial", "C20_no_panic_partial", "C21_decrypt_write_errors", "C44_old_or_new_partial", "C45_decrypt_succeeds", "C45_decrypt_to_file_partial", "C46_sender_partial", "C51_encrypt_then_decrypt", "C56_decrypt_ends", "C63_decrypt_to_stdout", "C63_output_genuine", "C64_pipeline", "C65_generate_encrypt_decrypt", "C69_stream_and_decrypt_agree", "C73_encrypt_words", "C74_failure_changes_nothing_partial", "C76_origin_partial", "C84_many_files_any_reader_partial", "C84_many_files_partial", "C84_next_file_untouched_partial", "C84_refuted", "C86_no_amplification", "C88_any_form"], "secs": 22, "early": true, "m": {"edits": [["Decrypt.v", "     | None => if eof then ", "     | None => if negb (eof) then "]], "definition": "dec_loop", "desc": "Decrypt: 'if eof' -> 'if negb (eof)' (auto)", "breaks": [], "mod": "Decrypt", "id": "v224"}}
{"mid": "v225", "lemmas": ["CliProofs.is_user_iff"], "hard": [], "failed": ["C44_old_or_new_partial", "C48_encrypt_exact", "C48_encrypt_succeeds", "C48_unresolved", "C51_encrypt_then_decrypt", "C56_encrypt_ends", "C64_encrypt_succeeds", "C64_encrypt_to_stdout", "C64_pipeline", "C65_generate_encrypt_decrypt", "C73_encrypt_words", "C74_failure_changes_nothing_partial", "C96_every_bad_recipient_named", "C96_failure_is_reported", "C96_success_is_silent", "C96_texts", "C97_encrypt"], "secs": 12, "early": true, "m": {"edits": [["Cli.v", "with Some i => 0 <? i", "with Some i => 1 <? i"]], "definition": "is_user", "desc": "Cli: '0' -> '1' (auto)", "breaks": [], "mod": "Cli", "id": "v225"}}
{"mid": "v226", "lemmas": ["IOProofs.delivers_nil_inv"], "hard": [], "failed": ["C01_encrypt_decrypt_round_trip", "C01_encrypt_succeeds", "C02_stream_round_trip", "C03_encrypted_file_streams", "C03_stream_file_decrypts", "C04_fragmentation_independent", "C04_stream_agrees_with_encrypt", "C05_file_format", "C06_chunks", "C07_nonces_distinct_partial", "C07_refuted_counter_wraps", "C07_refuted_second_encrypt", "C08_accepted_header", "C08_tampered_header", "C08_tampered_stream_header", "C09_truncated_file", "C09_truncated_stream", "C10_complete_partial", "C10_refuted_truncation", "C10_stream_complete_partial", "C11_released_data_genuine", "C13_content_signed_partial", "C13_refuted_recipient_forges", "C13_stream_signed_partial", "C14_refuted", "C16_recipients_agree", "C20_refuted", "C21_encrypt_errors_partial", "C23_refuted", "C24_recipients_partial", "C24_refuted", "C29_refuted", "C29_single_reader_partial", "C48_encrypt_succeeds", "C51_encrypt_then_decrypt", "C57_encrypt_size", "C58_file_randomness", "C59_encrypt_against_stream", "C63_output_genuine", "C64_encrypt_succeeds", "C64_pipeline", "C65_generate_encrypt_decrypt", "C69_stream_and_decrypt_agree", "C70_one_file_per_encryptor", "C72_unverified_refuted", "C73_encrypt_words", "C76_origin_partial", "C76_stream_origin_partial", "C81_content_hidden", "C83_anonymous", "C83_sender_hidden", "C84_many_files_any_reader_partial", "C84_many_files_partial", "C84_next_file_untouched_partial", "C84_refuted", "C84_stream_next_file_untouched_partial", "C84_stream_refuted", "C87_follow_along", "C88_any_form", "C93_both_ends", "C93_discloses", "C95_set_key_midway_partial"], "secs": 11, "early": true, "m": {"edits": [["GoIO.v", "=? 0", "=? 1"]], "definition": "read_loop", "desc": "GoIO: '=? 0' -> '=? 1' (auto)", "breaks": [], "mod": "GoIO", "id": "v226"}}
{"mid": "v228", "lemmas": ["BytesLemmas.unle_le"], "hard": [], "failed": ["C21_refuted", "C41_public_key_conversion", "C44_refuted", "C45_close_refuted", "C46_refuted", "C49_refuted", "C50_refuted", "C53_refuted", "C60_refuted", "C74_generate_refuted", "C95_no_panic_refuted", "C95_repeated_call_refuted"], "secs": 6, "early": true, "m": {"edits": [["Bytes.v", " :: l' => b2z b + 256 *", " :: l' => b2z b - 256 *"]], "definition": "unle", "desc": "Bytes: '+' -> '-' (auto)", "breaks": [], "mod": "Bytes", "id": "v228"}}
{"mid": "v227", "lemmas": ["SshProofs.parse_enc_ok"], "hard": [], "failed": ["C33_openssh_line", "C35_public_partial", "C37_bad_blob_rejected", "C37_blob_exact", "C37_line_exact", "C37_line_partial", "C38_entries_partial", "C43_pair_usable_partial", "C47_verify_exact", "C52_sign_then_verify", "C53_crash_exactly_partial", "C54_round_trip_partial", "C54_string_exact", "C56_decrypt_ends", "C56_encrypt_ends", "C62_verify_report", "C65_generate_encrypt_decrypt", "C66_generate_sign_verify", "C67_public_exact", "C68_only_outputs", "C73_encrypt_words", "C73_sign_words", "C74_failure_changes_nothing_partial", "C75_permissions", "C77_concurrent_runs", "C78_history_partial", "C79_verify_command", "C88_any_form", "C92_printed_signature_verifies"], "secs": 21, "early": true, "m": {"edits": [["Ssh.v", "          if 0 <? len ", "          if 0 <=? len "]], "definition": "parse_enc_pubkey", "desc": "Ssh: '<?' -> '<=?' (auto)", "breaks": [], "mod": "Ssh", "id": "v227"}}
{"mid": "v229", "lemmas": ["DecryptProofs.dec_chunk_spec"], "hard": [], "failed": ["C01_encrypt_decrypt_round_trip", "C02_stream_round_trip", "C03_encrypted_file_streams", "C03_stream_file_decrypts", "C09_truncated_file", "C09_truncated_stream", "C10_complete_partial", "C10_refuted_truncation", "C10_stream_complete_partial", "C11_released_data_genuine", "C13_content_signed_partial", "C13_refuted_recipient_forges", "C13_stream_signed_partial", "C14_refuted", "C29_refuted", "C29_single_reader_partial", "C51_encrypt_then_decrypt", "C63_output_genuine", "C64_pipeline", "C65_generate_encrypt_decrypt", "C69_stream_and_decrypt_agree", "C73_encrypt_words", "C76_origin_partial", "C76_stream_origin_partial", "C84_many_files_any_reader_partial", "C84_many_files_partial", "C84_next_file_untouched_partial", "C84_refuted", "C84_stream_next_file_untouched_partial", "C84_stream_refuted", "C87_follow_along", "C88_any_form", "C95_set_key_midway_partial"], "secs": 42, "early": true, "m": {"edits": [["Decrypt.v", "se (d3, Ok (m, false))\n  ", "se (d3, Ok (m, true))\n  "]], "definition": "dec_chunk", "desc": "Decrypt: 'false' -> 'true' (auto)", "breaks": [], "mod": "Decrypt", "id": "v229"}}
{"mid": "v230", "lemmas": ["StreamProofs.ew_loop_spec"], "hard": [], "failed": ["C02_stream_round_trip", "C02_stream_writes_succeed", "C03_encrypted_file_streams", "C03_stream_file_decrypts", "C04_stream_agrees_with_encrypt", "C04_stream_write_sizes_irrelevant", "C05_stream_format", "C06_stream_chunks", "C07_stream_nonces_distinct_partial", "C07_stream_refuted_counter_wraps", "C08_tampered_stream_header", "C09_truncated_file", "C09_truncated_stream", "C10_complete_partial", "C10_refuted_truncation", "C10_stream_complete_partial", "C11_released_data_genuine", "C13_refuted_recipient_forges", "C14_refuted", "C20_refuted", "C27_writes", "C29_refuted", "C57_stream_size", "C58_stream_randomness", "C59_encrypt_against_stream", "C63_output_genuine", "C72_unverified_refuted", "C76_origin_partial", "C76_stream_origin_partial", "C81_stream_content_hidden", "C83_stream_anonymous", "C83_stream_sender_hidden", "C84_many_files_any_reader_partial", "C84_many_files_partial", "C84_next_file_untouched_partial", "C84_refuted", "C84_stream_next_file_untouched_partial", "C84_stream_refuted", "C87_follow_along", "C88_any_form", "C93_discloses", "C95_set_key_midway_partial"], "secs": 77, "early": true, "m": {"edits": [["Stream.v", " =? max) && (0 <? len ", " =? max) && (0 <=? len "]], "definition": "ew_loop", "desc": "Stream: '<?' -> '<=?' (auto)", "breaks": [], "mod": "Stream", "id": "v230"}}
{"mid": "v232", "lemmas": ["BytesLemmas.beq_eq"], "hard": [], "failed": ["C01_encrypt_decrypt_round_trip", "C01_encrypt_succeeds", "C02_stream_round_trip", "C03_encrypted_file_streams", "C03_stream_file_decrypts", "C08_accepted_header", "C08_tampered_header", "C08_tampered_stream_header", "C09_truncated_file", "C09_truncated_stream", "C100_texts", "C10_complete_partial", "C10_refuted_truncation", "C10_stream_complete_partial", "C11_released_data_genuine", "C12_authenticated_means_signed", "C13_content_signed_partial", "C13_refuted_recipient_forges", "C13_stream_signed_partial", "C14_refuted", "C14_signed_file_partial", "C15_not_a_recipient", "C16_recipients_agree", "C20_every_history_partial", "C20_no_panic_partial", "C20_refuted", "C21_refuted", "C23_refuted", "C24_recipients_partial", "C24_refuted", "C28_read_discipline", "C29_refuted", "C29_single_reader_partial", "C30_verify_exact", "C31_file_signature_binds", "C33_openssh_line", "C35_private_partial", "C35_public_partial", "C36_private_panics_exactly", "C36_private_partial", "C36_public_panics_exactly", "C37_bad_blob_rejected", "C37_blob_exact", "C37_line_exact", "C37_line_partial", "C38_entries_partial", "C38_sound", "C39_container_exact", "C43_pair_usable_partial", "C44_no_overwrite_partial", "C44_old_or_new_partial", "C44_refuted", "C45_close_refuted", "C45_decrypt_succeeds", "C45_decrypt_to_file_partial", "C45_test_mode", "C46_refuted", "C46_sender_partial", "C47_verify_exact", "C48_encrypt_exact", "C48_encrypt_succeeds", "C48_unresolved", "C49_refuted", "C49_sign_partial", "C50_refuted", "C51_encrypt_then_decrypt", "C52_sign_then_verify", "C53_crash_exactly_partial", "C53_refuted", "C54_refuted", "C54_round_trip_partial", "C54_string_exact", "C55_dispatch", "C56_decrypt_ends", "C56_encrypt_ends", "C56_sign_ends", "C60_authenticated_exactly", "C60_last_call_decides_partial", "C60_refuted", "C61_rejected_exactly", "C62_verify_report", "C63_decrypt_to_stdout", "C63_output_genuine", "C64_encrypt_succeeds", "C64_encrypt_to_stdout", "C64_pipeline", "C65_generate_encrypt_decrypt", "C66_generate_sign_verify", "C67_one_key", "C67_private_exact", "C67_public_exact", "C68_only_outputs", "C69_stream_and_decrypt_agree", "C70_one_file_per_encryptor", "C71_command", "C71_options", "C71_own_help", "C72_sign_stdout_refuted", "C72_unverified_refuted", "C73_encrypt_words", "C73_sign_words", "C74_failure_changes_nothing_partial", "C74_generate_refuted", "C75_permissions", "C76_origin_partial", "C76_stream_origin_partial", "C77_concurrent_runs", "C78_history_partial", "C79_verified_file", "C79_verify_command", "C80_sign", "C81_content_hidden", "C81_stream_content_hidden", "C82_recipients_hidden", "C83_anonymous", "C83_sender_hidden", "C83_stream_anonymous", "C83_stream_sender_hidden", "C84_many_files_any_reader_partial", "C84_many_files_partial", "C84_next_file_untouched_partial", "C84_refuted", "C84_stream_next_file_untouched_partial", "C84_stream_refuted", "C87_follow_along", "C88_any_form", "C89_key_file_hides", "C90_one_destination", "C92_printed_signature_verifies", "C92_sign_exit_status", "C92_sign_to_stdout", "C93_both_ends", "C93_option", "C95_no_panic_refuted", "C95_repeated_call_refuted", "C95_set_key_midway_partial", "C96_every_bad_recipient_named", "C96_failure_is_reported", "C97_decrypt", "C97_encrypt", "C98_rewritten_key", "C99_every_command_line", "C99_misspelt_refuted", "C99_zero_partial"], "secs": 1, "early": true, "m": {"edits": [["Bytes.v", "&&", "||"]], "definition": "beq", "desc": "Bytes: '&&' -> '||' (auto)", "breaks": [], "mod": "Bytes", "id": "v232"}}
{"mid": "v233", "lemmas": ["Thm_KeyFiles.looks_iff"], "hard": [], "failed": ["C34_comment_refuted", "C34_private_round_trip_partial", "C35_private_partial", "C35_stale_refuted", "C36_openssh_refuted", "C36_private_panics_exactly", "C36_private_refuted", "C42_stored_objects", "C43_pair_usable_partial", "C56_decrypt_ends", "C56_encrypt_ends", "C56_sign_ends", "C65_generate_encrypt_decrypt", "C66_generate_sign_verify", "C67_one_key", "C67_private_exact", "C73_encrypt_words", "C73_sign_words", "C80_sign", "C88_any_form", "C98_rewritten_key"], "secs": 13, "early": true, "m": {"edits": [["KeyFiles.v", "false", "true"]], "definition": "looks_openssh", "desc": "KeyFiles: 'false' -> 'true' (auto)", "breaks": [], "mod": "KeyFiles", "id": "v233"}}
{"mid": "v234", "lemmas": ["Thm_Files.C42_stored_objects"], "hard": [], "failed": ["C42_stored_objects"], "secs": 77, "early": true, "m": {"edits": [["Store.v", "ile v (oct 6 0 0) f d", "ile v (oct 6 0 1) f d"]], "definition": "serialize_private", "desc": "Store: '0' -> '1' (auto)", "breaks": [], "mod": "Store", "id": "v234"}}
{"mid": "v235", "lemmas": ["Thm_Race.wp_call"], "hard": [], "failed": ["C94_caches", "C94_goroutines_partial"], "secs": 3, "early": true, "m": {"edits": [["Race.v", "if e_started e ", "if negb (e_started e) "]], "definition": "add_prog", "desc": "Race: 'if e_started e' -> 'if negb (e_started e)' (auto)", "breaks": [], "mod": "Race", "id": "v235"}}
{"mid": "v236", "lemmas": ["BytesLemmas.unbe32_be32"], "hard": [], "failed": ["C01_encrypt_decrypt_round_trip", "C01_encrypt_succeeds", "C02_stream_round_trip", "C02_stream_writes_succeed", "C03_encrypted_file_streams", "C03_stream_file_decrypts", "C04_fragmentation_independent", "C04_stream_agrees_with_encrypt", "C04_stream_write_sizes_irrelevant", "C05_file_format", "C05_stream_format", "C06_chunks", "C06_stream_chunks", "C07_nonces_distinct_partial", "C07_refuted_counter_wraps", "C07_refuted_second_encrypt", "C07_stream_nonces_distinct_partial", "C07_stream_refuted_counter_wraps", "C08_accepted_header", "C08_tampered_header", "C08_tampered_stream_header", "C09_truncated_file", "C09_truncated_stream", "C10_complete_partial", "C10_refuted_truncation", "C10_stream_complete_partial", "C11_released_data_genuine", "C13_content_signed_partial", "C13_refuted_recipient_forges", "C13_stream_signed_partial", "C14_refuted", "C16_recipients_agree", "C20_refuted", "C21_encrypt_errors_partial", "C23_refuted", "C24_recipients_partial", "C24_refuted", "C27_writes", "C29_refuted", "C29_single_reader_partial", "C33_openssh_line", "C35_public_partial", "C36_openssh_refuted", "C36_private_panics_exactly", "C36_public_panics_exactly", "C37_bad_blob_rejected", "C37_blob_exact", "C37_line_exact", "C37_line_partial", "C38_entries_partial", "C39_container_exact", "C39_section_unique", "C43_pair_usable_partial", "C47_verify_exact", "C48_encrypt_succeeds", "C51_encrypt_then_decrypt", "C52_sign_then_verify", "C53_crash_exactly_partial", "C54_refuted", "C54_round_trip_partial", "C54_string_exact", "C56_decrypt_ends", "C56_encrypt_ends", "C56_sign_ends", "C57_encrypt_size", "C57_stream_size", "C58_file_randomness", "C58_stream_randomness", "C59_encrypt_against_stream", "C62_verify_report", "C63_output_genuine", "C64_encrypt_succeeds", "C64_pipeline", "C65_generate_encrypt_decrypt", "C66_generate_sign_verify", "C67_one_key", "C67_private_exact", "C67_public_exact", "C68_only_outputs", "C69_stream_and_decrypt_agree", "C70_one_file_per_encryptor", "C72_unverified_refuted", "C73_encrypt_words", "C73_sign_words", "C74_failure_changes_nothing_partial", "C75_permissions", "C76_origin_partial", "C76_stream_origin_partial", "C77_concurrent_runs", "C78_history_partial", "C79_verify_command", "C81_content_hidden", "C81_stream_content_hidden", "C83_anonymous", "C83_sender_hidden", "C83_stream_anonymous", "C83_stream_sender_hidden", "C84_many_files_any_reader_partial", "C84_many_files_partial", "C84_next_file_untouched_partial", "C84_refuted", "C84_stream_next_file_untouched_partial", "C84_stream_refuted", "C85_encryptor_never_panics", "C87_follow_along", "C88_any_form", "C92_printed_signature_verifies", "C93_both_ends", "C93_discloses", "C93_encryptor_messages", "C95_set_key_midway_partial", "C98_rewritten_key"], "secs": 349, "early": true, "m": {"edits": [["Bytes.v", "^16); z2b (z / 2^8); ", "^16); z2b (z / 3^8); "]], "definition": "be32", "desc": "Bytes: '2' -> '3' (auto)", "breaks": [], "mod": "Bytes", "id": "v236"}}
{"mid": "v237", "lemmas": ["Thm_Commands.sign_body_spec"], "hard": [], "failed": ["C49_sign_partial", "C52_sign_then_verify", "C66_generate_sign_verify", "C73_sign_words", "C74_failure_changes_nothing_partial", "C80_sign"], "secs": 36, "early": true, "m": {"edits": [["Cli.v", " ++ fn)) w in (0, snd", " ++ fn)) w in (1, snd"]], "definition": "sign_body", "desc": "Cli: '0' -> '1' (auto)", "breaks": [], "mod": "Cli", "id": "v237"}}
{"mid": "v238", "lemmas": ["EncryptProofs.enc_start_spec"], "hard": [], "failed": ["C01_encrypt_decrypt_round_trip", "C01_encrypt_succeeds", "C02_stream_round_trip", "C02_stream_writes_succeed", "C03_encrypted_file_streams", "C03_stream_file_decrypts", "C04_fragmentation_independent", "C04_stream_agrees_with_encrypt", "C04_stream_write_sizes_irrelevant", "C05_file_format", "C05_stream_format", "C06_chunks", "C06_stream_chunks", "C07_nonces_distinct_partial", "C07_refuted_counter_wraps", "C07_refuted_second_encrypt", "C07_stream_nonces_distinct_partial", "C07_stream_refuted_counter_wraps", "C08_tampered_header", "C08_tampered_stream_header", "C09_truncated_file", "C09_truncated_stream", "C10_complete_partial", "C10_refuted_truncation", "C10_stream_complete_partial", "C11_released_data_genuine", "C13_refuted_recipient_forges", "C14_refuted", "C16_recipients_agree", "C20_refuted", "C21_encrypt_errors_partial", "C23_refuted", "C24_recipients_partial", "C24_refuted", "C27_writes", "C29_refuted", "C48_encrypt_succeeds", "C51_encrypt_then_decrypt", "C56_encrypt_ends", "C57_encrypt_size", "C57_stream_size", "C58_file_randomness", "C58_stream_randomness", "C59_encrypt_against_stream", "C63_output_genuine", "C64_encrypt_succeeds", "C64_pipeline", "C65_generate_encrypt_decrypt", "C72_unverified_refuted", "C73_encrypt_words", "C76_origin_partial", "C76_stream_origin_partial", "C81_content_hidden", "C81_stream_content_hidden", "C83_anonymous", "C83_sender_hidden", "C83_stream_anonymous", "C83_stream_sender_hidden", "C84_many_files_any_reader_partial", "C84_many_files_partial", "C84_next_file_untouched_partial", "C84_refuted", "C84_stream_next_file_untouched_partial", "C84_stream_refuted", "C85_encryptor_never_panics", "C87_follow_along", "C88_any_form", "C93_both_ends", "C93_discloses", "C93_encryptor_messages", "C95_set_key_midway_partial"], "secs": 20, "early": true, "m": {"edits": [["Encrypt.v", "k (e_hdr e) + 4 + gcm_o", "k (e_hdr e) + 4 - gcm_o"]], "definition": "enc_start", "desc": "Encrypt: '+' -> '-' (auto)", "breaks": [], "mod": "Encrypt", "id": "v238"}}
{"mid": "v239", "lemmas": ["IOProofs.read_full_short"], "hard": [], "failed": ["C01_encrypt_decrypt_round_trip", "C01_encrypt_succeeds", "C02_stream_round_trip", "C03_encrypted_file_streams", "C03_stream_file_decrypts", "C04_fragmentation_independent", "C04_stream_agrees_with_encrypt", "C05_file_format", "C06_chunks", "C07_nonces_distinct_partial", "C07_refuted_counter_wraps", "C07_refuted_second_encrypt", "C08_accepted_header", "C08_tampered_header", "C08_tampered_stream_header", "C09_truncated_file", "C09_truncated_stream", "C10_complete_partial", "C10_refuted_truncation", "C10_stream_complete_partial", "C11_released_data_genuine", "C13_content_signed_partial", "C13_refuted_recipient_forges", "C13_stream_signed_partial", "C14_refuted", "C16_recipients_agree", "C20_refuted", "C21_encrypt_errors_partial", "C23_refuted", "C24_recipients_partial", "C24_refuted", "C29_refuted", "C29_single_reader_partial", "C48_encrypt_succeeds", "C51_encrypt_then_decrypt", "C57_encrypt_size", "C58_file_randomness", "C59_encrypt_against_stream", "C63_output_genuine", "C64_encrypt_succeeds", "C64_pipeline", "C65_generate_encrypt_decrypt", "C69_stream_and_decrypt_agree", "C70_one_file_per_encryptor", "C72_unverified_refuted", "C73_encrypt_words", "C76_origin_partial", "C76_stream_origin_partial", "C81_content_hidden", "C83_anonymous", "C83_sender_hidden", "C84_many_files_any_reader_partial", "C84_many_files_partial", "C84_next_file_untouched_partial", "C84_refuted", "C84_stream_next_file_untouched_partial", "C84_stream_refuted", "C87_follow_along", "C88_any_form", "C93_both_ends", "C93_discloses", "C95_set_key_midway_partial"], "secs": 9, "early": true, "m": {"edits": [["GoIO.v", "> (b, Some (if 0 <? l", "> (b, Some (if 1 <? l"]], "definition": "read_full", "desc": "GoIO: '0' -> '1' (auto)", "breaks": [], "mod": "GoIO", "id": "v239"}}
{"mid": "v240", "lemmas": ["CliProofs.names_ok"], "hard": [], "failed": ["C44_no_overwrite_partial", "C44_old_or_new_partial", "C45_decrypt_succeeds", "C45_decrypt_to_file_partial", "C48_encrypt_exact", "C48_encrypt_succeeds", "C48_unresolved", "C51_encrypt_then_decrypt", "C63_decrypt_to_stdout", "C63_output_genuine", "C64_encrypt_succeeds", "C64_encrypt_to_stdout", "C64_pipeline", "C65_generate_encrypt_decrypt", "C68_only_outputs", "C73_encrypt_words", "C74_failure_changes_nothing_partial", "C75_permissions", "C77_concurrent_runs", "C78_history_partial", "C90_one_destination"], "secs": 8, "early": true, "m": {"edits": [["Cli.v", "= (0 <? len o) && negb", "= (0 <? len o) || negb"]], "definition": "names_file", "desc": "Cli: '&&' -> '||' (auto)", "breaks": [], "mod": "Cli", "id": "v240"}}
{"mid": "v241", "lemmas": ["PbProofs.marshal_spec"], "hard": [], "failed": ["C01_encrypt_decrypt_round_trip", "C01_encrypt_succeeds", "C02_stream_round_trip", "C02_stream_writes_succeed", "C03_encrypted_file_streams", "C03_stream_file_decrypts", "C04_fragmentation_independent", "C04_stream_agrees_with_encrypt", "C04_stream_write_sizes_irrelevant", "C05_file_format", "C05_stream_format", "C06_chunks", "C06_stream_chunks", "C07_nonces_distinct_partial", "C07_refuted_counter_wraps", "C07_refuted_second_encrypt", "C07_stream_nonces_distinct_partial", "C07_stream_refuted_counter_wraps", "C08_tampered_header", "C08_tampered_stream_header", "C09_truncated_file", "C09_truncated_stream", "C10_complete_partial", "C10_refuted_truncation", "C10_stream_complete_partial", "C11_released_data_genuine", "C13_refuted_recipient_forges", "C14_refuted", "C16_recipients_agree", "C20_refuted", "C21_encrypt_errors_partial", "C23_refuted", "C24_recipients_partial", "C24_refuted", "C25_header_codec_round_trip", "C26_reencode", "C27_writes", "C29_refuted", "C48_encrypt_succeeds", "C51_encrypt_then_decrypt", "C56_encrypt_ends", "C57_encrypt_size", "C57_stream_size", "C58_file_randomness", "C58_stream_randomness", "C59_encrypt_against_stream", "C63_output_genuine", "C64_encrypt_succeeds", "C64_pipeline", "C65_generate_encrypt_decrypt", "C72_unverified_refuted", "C73_encrypt_words", "C76_origin_partial", "C76_stream_origin_partial", "C81_content_hidden", "C81_stream_content_hidden", "C83_anonymous", "C83_sender_hidden", "C83_stream_anonymous", "C83_stream_sender_hidden", "C84_many_files_any_reader_partial", "C84_many_files_partial", "C84_next_file_untouched_partial", "C84_refuted", "C84_stream_next_file_untouched_partial", "C84_stream_refuted", "C85_encryptor_never_panics", "C87_follow_along", "C88_any_form", "C93_both_ends", "C93_discloses", "C93_encryptor_messages", "C95_set_key_midway_partial"], "secs": 22, "early": true, "m": {"edits": [["Pb.v", "der m - len a) ++ a ++ z", "der m - len a) ++ [] ++ z"]], "definition": "marshal_to", "desc": "Pb: '++ a' -> '++ []' (auto)", "breaks": [], "mod": "Pb", "id": "v241"}}
{"mid": "v242", "lemmas": ["BytesLemmas.unle_le"], "hard": [], "failed": ["C21_refuted", "C41_public_key_conversion", "C44_refuted", "C45_close_refuted", "C46_refuted", "C49_refuted", "C50_refuted", "C53_refuted", "C60_refuted", "C74_generate_refuted", "C95_no_panic_refuted", "C95_repeated_call_refuted"], "secs": 4, "early": true, "m": {"edits": [["Bytes.v", " :: le n' (z / 256) end", " :: le n' (z / 257) end"]], "definition": "le", "desc": "Bytes: '256' -> '257' (auto)", "breaks": [], "mod": "Bytes", "id": "v242"}}
{"mid": "v243", "lemmas": ["PbProofs.varint_tag_at"], "hard": [], "failed": ["C01_encrypt_decrypt_round_trip", "C02_stream_round_trip", "C03_encrypted_file_streams", "C03_stream_file_decrypts", "C05_file_format", "C05_stream_format", "C09_truncated_file", "C09_truncated_stream", "C10_complete_partial", "C10_refuted_truncation", "C10_stream_complete_partial", "C11_released_data_genuine", "C13_refuted_recipient_forges", "C14_refuted", "C16_recipients_agree", "C20_refuted", "C23_refuted", "C24_recipients_partial", "C24_refuted", "C29_refuted", "C51_encrypt_then_decrypt", "C63_output_genuine", "C64_pipeline", "C65_generate_encrypt_decrypt", "C72_unverified_refuted", "C73_encrypt_words", "C84_many_files_any_reader_partial", "C84_many_files_partial", "C84_next_file_untouched_partial", "C84_refuted", "C84_stream_next_file_untouched_partial", "C84_stream_refuted", "C87_follow_along", "C88_any_form", "C93_both_ends", "C95_set_key_midway_partial"], "secs": 31, "early": true, "m": {"edits": [["Bytes.v", " : Z) : Z := (z + 2^31)", " : Z) : Z := (z - 2^31)"]], "definition": "i32", "desc": "Bytes: '+' -> '-' (auto)", "breaks": [], "mod": "Bytes", "id": "v243"}}
{"mid": "v244", "lemmas": ["FlagsProofs.get_bool_chosen"], "hard": [], "failed": ["C100_texts", "C71_command", "C71_options", "C72_unverified_refuted", "C73_encrypt_words", "C73_sign_words", "C93_option", "C99_every_command_line", "C99_misspelt_refuted", "C99_zero_partial"], "secs": 8, "early": true, "m": {"edits": [["Flags.v", " get_bool s n (if beq m n then ", " get_bool s n (if negb (beq m n) then "]], "definition": "get_bool", "desc": "Flags: 'if beq m n' -> 'if negb (beq m n)' (auto)", "breaks": [], "mod": "Flags", "id": "v244"}}
{"mid": "v245", "lemmas": ["OpenProofs.new_decryptor_spec"], "hard": [], "failed": ["C01_encrypt_decrypt_round_trip", "C02_stream_round_trip", "C03_encrypted_file_streams", "C03_stream_file_decrypts", "C08_accepted_header", "C08_tampered_header", "C08_tampered_stream_header", "C09_truncated_file", "C09_truncated_stream", "C10_complete_partial", "C10_refuted_truncation", "C10_stream_complete_partial", "C11_released_data_genuine", "C13_content_signed_partial", "C13_refuted_recipient_forges", "C13_stream_signed_partial", "C14_refuted", "C16_recipients_agree", "C20_refuted", "C23_refuted", "C24_recipients_partial", "C24_refuted", "C29_refuted", "C29_single_reader_partial", "C51_encrypt_then_decrypt", "C63_output_genuine", "C64_pipeline", "C65_generate_encrypt_decrypt", "C69_stream_and_decrypt_agree", "C70_one_file_per_encryptor", "C72_unverified_refuted", "C73_encrypt_words", "C76_origin_partial", "C76_stream_origin_partial", "C84_many_files_any_reader_partial", "C84_many_files_partial", "C84_next_file_untouched_partial", "C84_refuted", "C84_stream_next_file_untouched_partial", "C84_stream_refuted", "C87_follow_along", "C88_any_form", "C93_both_ends", "C95_set_key_midway_partial"], "secs": 70, "early": true, "m": {"edits": [["Decrypt.v", "lse if varSize <? 32 t", "lse if varSize <=? 32 t"]], "definition": "new_decryptor", "desc": "Decrypt: '<?' -> '<=?' (auto)", "breaks": [], "mod": "Decrypt", "id": "v245"}}
{"mid": "v231", "lemmas": [], "hard": [], "failed": [], "secs": 749, "m": {"edits": [["GoIO.v", ">\n      if n <? len b then (take n b, None, (drop n b, e) :: r')\n", ">\n      if n <? len b then (take n b, None, (take n b, e) :: r')\n"]], "definition": "rd_read", "desc": "GoIO: 'drop' -> 'take' (auto)", "breaks": [], "mod": "GoIO", "id": "v231"}}
{"mid": "v247", "lemmas": ["DecryptProofs.process_trailer_spec"], "hard": [], "failed": ["C01_encrypt_decrypt_round_trip", "C02_stream_round_trip", "C03_encrypted_file_streams", "C03_stream_file_decrypts", "C09_truncated_file", "C09_truncated_stream", "C10_complete_partial", "C10_refuted_truncation", "C10_stream_complete_partial", "C11_released_data_genuine", "C13_content_signed_partial", "C13_refuted_recipient_forges", "C13_stream_signed_partial", "C14_refuted", "C29_refuted", "C29_single_reader_partial", "C51_encrypt_then_decrypt", "C63_output_genuine", "C64_pipeline", "C65_generate_encrypt_decrypt", "C69_stream_and_decrypt_agree", "C73_encrypt_words", "C76_origin_partial", "C76_stream_origin_partial", "C84_many_files_any_reader_partial", "C84_many_files_partial", "C84_next_file_untouched_partial", "C84_refuted", "C84_stream_next_file_untouched_partial", "C84_stream_refuted", "C87_follow_along", "C88_any_form", "C95_set_key_midway_partial"], "secs": 27, "early": true, "m": {"edits": [["Crypto.v", "s bool :=\n  if negb (len p", "s bool :=\n  if id (len p"]], "definition": "Ed_Verify", "desc": "Crypto: 'negb (' -> 'id (' (auto)", "breaks": [], "mod": "Crypto", "id": "v247"}}
{"mid": "v248", "lemmas": ["EncryptProofs.wrap_key_spec"], "hard": [], "failed": ["C01_encrypt_decrypt_round_trip", "C01_encrypt_succeeds", "C02_stream_round_trip", "C02_stream_writes_succeed", "C03_encrypted_file_streams", "C03_stream_file_decrypts", "C04_fragmentation_independent", "C04_stream_agrees_with_encrypt", "C04_stream_write_sizes_irrelevant", "C05_file_format", "C05_stream_format", "C06_chunks", "C06_stream_chunks", "C07_nonces_distinct_partial", "C07_refuted_counter_wraps", "C07_refuted_second_encrypt", "C07_stream_nonces_distinct_partial", "C07_stream_refuted_counter_wraps", "C08_tampered_header", "C08_tampered_stream_header", "C09_truncated_file", "C09_truncated_stream", "C10_complete_partial", "C10_refuted_truncation", "C10_stream_complete_partial", "C11_released_data_genuine", "C13_refuted_recipient_forges", "C14_refuted", "C16_own_entry_opens", "C16_recipients_agree", "C20_refuted", "C21_encrypt_errors_partial", "C23_chunk_size_partial", "C23_refuted", "C24_recipients_partial", "C24_refuted", "C27_writes", "C29_refuted", "C48_encrypt_succeeds", "C51_encrypt_then_decrypt", "C56_encrypt_ends", "C57_encrypt_size", "C57_stream_size", "C58_file_randomness", "C58_stream_randomness", "C59_encrypt_against_stream", "C61_rejected_exactly", "C63_output_genuine", "C64_encrypt_succeeds", "C64_pipeline", "C65_generate_encrypt_decrypt", "C72_unverified_refuted", "C73_encrypt_words", "C76_origin_partial", "C76_stream_origin_partial", "C81_content_hidden", "C81_stream_content_hidden", "C82_recipients_hidden", "C83_anonymous", "C83_sender_hidden", "C83_stream_anonymous", "C83_stream_sender_hidden", "C84_many_files_any_reader_partial", "C84_many_files_partial", "C84_next_file_untouched_partial", "C84_refuted", "C84_stream_next_file_untouched_partial", "C84_stream_refuted", "C85_encryptor_never_panics", "C87_follow_along", "C88_any_form", "C93_both_ends", "C93_discloses", "C95_set_key_midway_partial"], "secs": 22, "early": true, "m": {"edits": [["Encrypt.v", "finition rx_nonce_size : Z := 12.\nDefiniti", "finition rx_nonce_size : Z := 13.\nDefiniti"]], "definition": "rx_nonce_size", "desc": "Encrypt: '12' -> '13' (auto)", "breaks": [], "mod": "Encrypt", "id": "v248"}}
{"mid": "v249", "lemmas": ["DecryptProofs.process_trailer_spec"], "hard": [], "failed": ["C01_encrypt_decrypt_round_trip", "C02_stream_round_trip", "C03_encrypted_file_streams", "C03_stream_file_decrypts", "C09_truncated_file", "C09_truncated_stream", "C10_complete_partial", "C10_refuted_truncation", "C10_stream_complete_partial", "C11_released_data_genuine", "C13_content_signed_partial", "C13_refuted_recipient_forges", "C13_stream_signed_partial", "C14_refuted", "C29_refuted", "C29_single_reader_partial", "C51_encrypt_then_decrypt", "C63_output_genuine", "C64_pipeline", "C65_generate_encrypt_decrypt", "C69_stream_and_decrypt_agree", "C73_encrypt_words", "C76_origin_partial", "C76_stream_origin_partial", "C84_many_files_any_reader_partial", "C84_many_files_partial", "C84_next_file_untouched_partial", "C84_refuted", "C84_stream_next_file_untouched_partial", "C84_stream_refuted", "C87_follow_along", "C88_any_form", "C95_set_key_midway_partial"], "secs": 19, "early": true, "m": {"edits": [["Decrypt.v", "if negb (d_auth d) ", "if negb (negb (d_auth d)) "]], "definition": "process_trailer", "desc": "Decrypt: 'if negb (d_auth d)' -> 'if negb (negb (d_auth d))' (auto)", "breaks": [], "mod": "Decrypt", "id": "v249"}}
{"mid": "v250", "lemmas": ["Thm_Flags.main_same"], "hard": [], "failed": ["C100_texts", "C71_command", "C71_options", "C72_unverified_refuted", "C73_encrypt_words", "C73_sign_words", "C93_option", "C99_every_command_line", "C99_misspelt_refuted", "C99_zero_partial"], "secs": 17, "early": true, "m": {"edits": [["Flags.v", "l \"debug\" None true].\n(*", "l \"debug\" None false].\n(*"]], "definition": "main_flags", "desc": "Flags: 'true' -> 'false' (auto)", "breaks": [], "mod": "Flags", "id": "v250"}}
{"mid": "v251", "lemmas": ["Thm_Commands.C47_verify_exact"], "hard": [], "failed": ["C47_verify_exact", "C52_sign_then_verify", "C66_generate_sign_verify", "C73_sign_words", "C79_verify_command", "C92_printed_signature_verifies"], "secs": 27, "early": true, "m": {"edits": [["Cli.v", " => if ok then 0 else", " => if ok then 1 else"]], "definition": "cli_verify", "desc": "Cli: '0' -> '1' (auto)", "breaks": [], "mod": "Cli", "id": "v251"}}
{"mid": "v252", "lemmas": ["Thm_KeyFiles.yaml_priv_marker"], "hard": [], "failed": ["C34_private_round_trip_partial", "C42_stored_objects", "C43_pair_usable_partial", "C65_generate_encrypt_decrypt", "C66_generate_sign_verify", "C73_encrypt_words", "C73_sign_words", "C98_rewritten_key"], "secs": 11, "early": true, "m": {"edits": [["KeyFiles.v", "19", "20"]], "definition": "scrypt_N", "desc": "KeyFiles: '19' -> '20' (auto)", "breaks": [], "mod": "KeyFiles", "id": "v252"}}
{"mid": "v246", "lemmas": ["KeysProofs.mod_inverse_spec"], "hard": [], "failed": ["C41_public_key_conversion"], "secs": 266, "early": true, "m": {"edits": [["Keys.v", " let g := if g <? 0 th", " let g := if g <=? 0 th"]], "definition": "mod_inverse", "desc": "Keys: '<?' -> '<=?' (auto)", "breaks": [], "mod": "Keys", "id": "v246"}}
{"mid": "v253", "lemmas": ["SshKeyProofs.section_ok"], "hard": [], "failed": ["C39_container_exact", "C67_one_key", "C67_private_exact", "C88_any_form", "C98_rewritten_key"], "secs": 99, "early": true, "m": {"edits": [["Keys.v", "rivkey :=\n  if negb (len b", "rivkey :=\n  if id (len b"]], "definition": "make_private_from_bytes", "desc": "Keys: 'negb (' -> 'id (' (auto)", "breaks": [], "mod": "Keys", "id": "v253"}}
{"mid": "v254", "lemmas": ["EncryptProofs.encrypt_spec"], "hard": [], "failed": ["C01_encrypt_decrypt_round_trip", "C01_encrypt_succeeds", "C02_stream_round_trip", "C03_encrypted_file_streams", "C03_stream_file_decrypts", "C04_fragmentation_independent", "C04_stream_agrees_with_encrypt", "C05_file_format", "C06_chunks", "C07_nonces_distinct_partial", "C07_refuted_counter_wraps", "C07_refuted_second_encrypt", "C08_tampered_header", "C09_truncated_file", "C09_truncated_stream", "C10_complete_partial", "C10_refuted_truncation", "C10_stream_complete_partial", "C11_released_data_genuine", "C13_refuted_recipient_forges", "C14_refuted", "C16_recipients_agree", "C20_refuted", "C21_encrypt_errors_partial", "C23_refuted", "C24_recipients_partial", "C24_refuted", "C29_refuted", "C48_encrypt_succeeds", "C51_encrypt_then_decrypt", "C57_encrypt_size", "C58_file_randomness", "C59_encrypt_against_stream", "C63_output_genuine", "C64_encrypt_succeeds", "C64_pipeline", "C65_generate_encrypt_decrypt", "C72_unverified_refuted", "C73_encrypt_words", "C76_origin_partial", "C76_stream_origin_partial", "C81_content_hidden", "C83_anonymous", "C83_sender_hidden", "C84_many_files_any_reader_partial", "C84_many_files_partial", "C84_next_file_untouched_partial", "C84_refuted", "C84_stream_next_file_untouched_partial", "C84_stream_refuted", "C88_any_form", "C93_both_ends", "C93_discloses", "C95_set_key_midway_partial"], "secs": 12, "early": true, "m": {"edits": [["Encrypt.v", "if e_stream e ", "if negb (e_stream e) "]], "definition": "encrypt", "desc": "Encrypt: 'if e_stream e' -> 'if negb (e_stream e)' (auto)", "breaks": [], "mod": "Encrypt", "id": "v254"}}
{"mid": "v256", "error": "edit does not compile: File \"./theories/Decrypt.v\", line 150, characters 55-71:\nError: Illegal application (Non-functional construction): \nThe expression \"[]\" of type \"list ?A\"\ncannot be applied to the term\n \"len got\" : \"Z\"\n\n", "m": {"edits": [["Decrypt.v", "++ drop", "++ []"]], "definition": "buf_put", "desc": "Decrypt: '++ drop' -> '++ []' (auto)", "breaks": [], "mod": "Decrypt", "id": "v256"}}
{"mid": "v255", "lemmas": ["PbProofs.len_pb_bytes"], "hard": [], "failed": ["C01_encrypt_decrypt_round_trip", "C01_encrypt_succeeds", "C02_stream_round_trip", "C02_stream_writes_succeed", "C03_encrypted_file_streams", "C03_stream_file_decrypts", "C04_fragmentation_independent", "C04_stream_agrees_with_encrypt", "C04_stream_write_sizes_irrelevant", "C05_file_format", "C05_stream_format", "C06_chunks", "C06_stream_chunks", "C07_nonces_distinct_partial", "C07_refuted_counter_wraps", "C07_refuted_second_encrypt", "C07_stream_nonces_distinct_partial", "C07_stream_refuted_counter_wraps", "C08_tampered_header", "C08_tampered_stream_header", "C09_truncated_file", "C09_truncated_stream", "C10_complete_partial", "C10_refuted_truncation", "C10_stream_complete_partial", "C11_released_data_genuine", "C13_refuted_recipient_forges", "C14_refuted", "C16_recipients_agree", "C20_refuted", "C21_encrypt_errors_partial", "C23_refuted", "C24_recipients_partial", "C24_refuted", "C25_header_codec_round_trip", "C26_reencode", "C27_writes", "C29_refuted", "C48_encrypt_succeeds", "C51_encrypt_then_decrypt", "C56_encrypt_ends", "C57_encrypt_size", "C57_stream_size", "C58_file_randomness", "C58_stream_randomness", "C59_encrypt_against_stream", "C63_output_genuine", "C64_encrypt_succeeds", "C64_pipeline", "C65_generate_encrypt_decrypt", "C72_unverified_refuted", "C73_encrypt_words", "C76_origin_partial", "C76_stream_origin_partial", "C81_content_hidden", "C81_stream_content_hidden", "C83_anonymous", "C83_sender_hidden", "C83_stream_anonymous", "C83_stream_sender_hidden", "C84_many_files_any_reader_partial", "C84_many_files_partial", "C84_next_file_untouched_partial", "C84_refuted", "C84_stream_next_file_untouched_partial", "C84_stream_refuted", "C85_encryptor_never_panics", "C87_follow_along", "C88_any_form", "C93_both_ends", "C93_discloses", "C93_encryptor_messages", "C95_set_key_midway_partial"], "secs": 13, "early": true, "m": {"edits": [["Pb.v", "ytes) : Z :=\n  if 0 <? len b then ", "ytes) : Z :=\n  if negb (0 <? len b) then "]], "definition": "size_field", "desc": "Pb: 'if 0 <? len b' -> 'if negb (0 <? len b)' (auto)", "breaks": [], "mod": "Pb", "id": "v255"}}
{"mid": "v258", "lemmas": ["SshProofs.fields_u32"], "hard": [], "failed": ["C36_openssh_refuted", "C36_private_panics_exactly", "C39_container_exact", "C56_decrypt_ends", "C56_encrypt_ends", "C56_sign_ends", "C67_one_key", "C67_private_exact", "C88_any_form", "C98_rewritten_key"], "secs": 9, "early": true, "m": {"edits": [["Ssh.v", "if len data <? 4 ", "if negb (len data <? 4) "]], "definition": "ssh_fields", "desc": "Ssh: 'if len data <? 4' -> 'if negb (len data <? 4)' (auto)", "breaks": [], "mod": "Ssh", "id": "v258"}}
{"mid": "v257", "lemmas": ["PbProofs.marshal_fields_spec"], "hard": [], "failed": ["C01_encrypt_decrypt_round_trip", "C01_encrypt_succeeds", "C02_stream_round_trip", "C02_stream_writes_succeed", "C03_encrypted_file_streams", "C03_stream_file_decrypts", "C04_fragmentation_independent", "C04_stream_agrees_with_encrypt", "C04_stream_write_sizes_irrelevant", "C05_file_format", "C05_stream_format", "C06_chunks", "C06_stream_chunks", "C07_nonces_distinct_partial", "C07_refuted_counter_wraps", "C07_refuted_second_encrypt", "C07_stream_nonces_distinct_partial", "C07_stream_refuted_counter_wraps", "C08_tampered_header", "C08_tampered_stream_header", "C09_truncated_file", "C09_truncated_stream", "C10_complete_partial", "C10_refuted_truncation", "C10_stream_complete_partial", "C11_released_data_genuine", "C13_refuted_recipient_forges", "C14_refuted", "C16_recipients_agree", "C20_refuted", "C21_encrypt_errors_partial", "C23_refuted", "C24_recipients_partial", "C24_refuted", "C25_header_codec_round_trip", "C26_reencode", "C27_writes", "C29_refuted", "C48_encrypt_succeeds", "C51_encrypt_then_decrypt", "C56_encrypt_ends", "C57_encrypt_size", "C57_stream_size", "C58_file_randomness", "C58_stream_randomness", "C59_encrypt_against_stream", "C63_output_genuine", "C64_encrypt_succeeds", "C64_pipeline", "C65_generate_encrypt_decrypt", "C72_unverified_refuted", "C73_encrypt_words", "C76_origin_partial", "C76_stream_origin_partial", "C81_content_hidden", "C81_stream_content_hidden", "C83_anonymous", "C83_sender_hidden", "C83_stream_anonymous", "C83_stream_sender_hidden", "C84_many_files_any_reader_partial", "C84_many_files_partial", "C84_next_file_untouched_partial", "C84_refuted", "C84_stream_next_file_untouched_partial", "C84_stream_refuted", "C85_encryptor_never_panics", "C87_follow_along", "C88_any_form", "C93_both_ends", "C93_discloses", "C93_encryptor_messages", "C95_set_key_midway_partial"], "secs": 15, "early": true, "m": {"edits": [["Pb.v", "hen a else z2b 8 :: e", "hen a else z2b 9 :: e"]], "definition": "marshal_fields", "desc": "Pb: '8' -> '9' (auto)", "breaks": [], "mod": "Pb", "id": "v257"}}
{"mid": "v260", "lemmas": ["Thm_Flags.dec_same"], "hard": [], "failed": ["C100_texts", "C71_command", "C71_options", "C72_unverified_refuted", "C73_encrypt_words", "C73_sign_words", "C99_every_command_line", "C99_misspelt_refuted", "C99_zero_partial"], "secs": 11, "early": true, "m": {"edits": [["Flags.v", "verwrite\" None true].\n\n(", "verwrite\" None false].\n\n("]], "definition": "dec_flags", "desc": "Flags: 'true' -> 'false' (auto)", "breaks": [], "mod": "Flags", "id": "v260"}}
{"mid": "v259", "lemmas": ["PbProofs.push_keys_spec"], "hard": [], "failed": ["C01_encrypt_decrypt_round_trip", "C01_encrypt_succeeds", "C02_stream_round_trip", "C02_stream_writes_succeed", "C03_encrypted_file_streams", "C03_stream_file_decrypts", "C04_fragmentation_independent", "C04_stream_agrees_with_encrypt", "C04_stream_write_sizes_irrelevant", "C05_file_format", "C05_stream_format", "C06_chunks", "C06_stream_chunks", "C07_nonces_distinct_partial", "C07_refuted_counter_wraps", "C07_refuted_second_encrypt", "C07_stream_nonces_distinct_partial", "C07_stream_refuted_counter_wraps", "C08_tampered_header", "C08_tampered_stream_header", "C09_truncated_file", "C09_truncated_stream", "C10_complete_partial", "C10_refuted_truncation", "C10_stream_complete_partial", "C11_released_data_genuine", "C13_refuted_recipient_forges", "C14_refuted", "C16_recipients_agree", "C20_refuted", "C21_encrypt_errors_partial", "C23_refuted", "C24_recipients_partial", "C24_refuted", "C25_header_codec_round_trip", "C26_reencode", "C27_writes", "C29_refuted", "C48_encrypt_succeeds", "C51_encrypt_then_decrypt", "C56_encrypt_ends", "C57_encrypt_size", "C57_stream_size", "C58_file_randomness", "C58_stream_randomness", "C59_encrypt_against_stream", "C63_output_genuine", "C64_encrypt_succeeds", "C64_pipeline", "C65_generate_encrypt_decrypt", "C72_unverified_refuted", "C73_encrypt_words", "C76_origin_partial", "C76_stream_origin_partial", "C81_content_hidden", "C81_stream_content_hidden", "C83_anonymous", "C83_sender_hidden", "C83_stream_anonymous", "C83_stream_sender_hidden", "C84_many_files_any_reader_partial", "C84_many_files_partial", "C84_next_file_untouched_partial", "C84_refuted", "C84_stream_next_file_untouched_partial", "C84_stream_refuted", "C85_encryptor_never_panics", "C87_follow_along", "C88_any_form", "C93_both_ends", "C93_discloses", "C93_encryptor_messages", "C95_set_key_midway_partial"], "secs": 15, "early": true, "m": {"edits": [["Pb.v", "t (len m) ++ m ++ acc)\n  e", "t (len m) ++ m ++ [])\n  e"]], "definition": "push_keys", "desc": "Pb: '++ acc' -> '++ []' (auto)", "breaks": [], "mod": "Pb", "id": "v259"}}
{"mid": "v261", "lemmas": ["PbProofs.get_unknown_safe"], "hard": [], "failed": ["C01_encrypt_decrypt_round_trip", "C02_stream_round_trip", "C03_encrypted_file_streams", "C03_stream_file_decrypts", "C05_file_format", "C05_stream_format", "C08_accepted_header", "C08_tampered_header", "C08_tampered_stream_header", "C09_truncated_file", "C09_truncated_stream", "C10_complete_partial", "C10_refuted_truncation", "C10_stream_complete_partial", "C11_released_data_genuine", "C12_authenticated_means_signed", "C13_content_signed_partial", "C13_refuted_recipient_forges", "C13_stream_signed_partial", "C14_refuted", "C14_signed_file_partial", "C15_not_a_recipient", "C16_recipients_agree", "C19_new_decryptor_total", "C20_every_history_partial", "C20_no_panic_partial", "C20_refuted", "C23_refuted", "C24_recipients_partial", "C24_refuted", "C26_decoder_total_and_exact", "C26_reencode", "C28_read_discipline", "C29_refuted", "C29_single_reader_partial", "C46_sender_partial", "C51_encrypt_then_decrypt", "C56_decrypt_ends", "C60_authenticated_exactly", "C60_last_call_decides_partial", "C63_output_genuine", "C64_pipeline", "C65_generate_encrypt_decrypt", "C69_stream_and_decrypt_agree", "C70_one_file_per_encryptor", "C72_unverified_refuted", "C73_encrypt_words", "C76_origin_partial", "C76_stream_origin_partial", "C84_many_files_any_reader_partial", "C84_many_files_partial", "C84_next_file_untouched_partial", "C84_refuted", "C84_stream_next_file_untouched_partial", "C84_stream_refuted", "C87_follow_along", "C88_any_form", "C93_both_ends", "C95_set_key_midway_partial", "C96_failure_is_reported", "C96_no_sender_warning", "C96_success_is_silent", "C96_texts"], "secs": 19, "early": true, "m": {"edits": [["Pb.v", "p (length d) d 0 0.\n\n", "p (length d) d 1 0.\n\n"]], "definition": "skip", "desc": "Pb: '0' -> '1' (auto)", "breaks": [], "mod": "Pb", "id": "v261"}}
{"mid": "v263", "lemmas": ["PbProofs.header_step_uint"], "hard": [], "failed": ["C01_encrypt_decrypt_round_trip", "C02_stream_round_trip", "C03_encrypted_file_streams", "C03_stream_file_decrypts", "C05_file_format", "C05_stream_format", "C09_truncated_file", "C09_truncated_stream", "C10_complete_partial", "C10_refuted_truncation", "C10_stream_complete_partial", "C11_released_data_genuine", "C13_refuted_recipient_forges", "C14_refuted", "C16_recipients_agree", "C20_refuted", "C23_refuted", "C24_recipients_partial", "C24_refuted", "C29_refuted", "C51_encrypt_then_decrypt", "C63_output_genuine", "C64_pipeline", "C65_generate_encrypt_decrypt", "C72_unverified_refuted", "C73_encrypt_words", "C84_many_files_any_reader_partial", "C84_many_files_partial", "C84_next_file_untouched_partial", "C84_refuted", "C84_stream_next_file_untouched_partial", "C84_stream_refuted", "C87_follow_along", "C88_any_form", "C93_both_ends", "C95_set_key_midway_partial"], "secs": 15, "early": true, "m": {"edits": [["Pb.v", "negb (wireType =? 0) the", "negb (wireType =? 1) the"]], "definition": "unmarshal_header_loop", "desc": "Pb: '=? 0' -> '=? 1' (auto)", "breaks": [], "mod": "Pb", "id": "v263"}}
{"mid": "v264", "lemmas": ["BytesLemmas.drop_skipn"], "hard": [], "failed": ["C01_encrypt_decrypt_round_trip", "C01_encrypt_succeeds", "C02_stream_round_trip", "C02_stream_writes_succeed", "C03_encrypted_file_streams", "C03_stream_file_decrypts", "C04_fragmentation_independent", "C04_stream_agrees_with_encrypt", "C04_stream_write_sizes_irrelevant", "C05_file_format", "C05_stream_format", "C06_chunks", "C06_stream_chunks", "C07_nonces_distinct_partial", "C07_refuted_counter_wraps", "C07_refuted_second_encrypt", "C07_stream_nonces_distinct_partial", "C07_stream_refuted_counter_wraps", "C08_accepted_header", "C08_tampered_header", "C08_tampered_stream_header", "C09_truncated_file", "C09_truncated_stream", "C100_options_missing_refuted", "C100_texts", "C10_complete_partial", "C10_refuted_truncation", "C10_stream_complete_partial", "C11_released_data_genuine", "C12_authenticated_means_signed", "C13_content_signed_partial", "C13_refuted_recipient_forges", "C13_stream_signed_partial", "C14_refuted", "C14_signed_file_partial", "C15_not_a_recipient", "C16_recipients_agree", "C19_new_decryptor_total", "C20_every_history_partial", "C20_no_panic_partial", "C20_refuted", "C21_encrypt_errors_partial", "C21_refuted", "C22_fullwrite_all_or_error", "C23_refuted", "C24_recipients_partial", "C24_refuted", "C25_header_codec_round_trip", "C26_decoder_total_and_exact", "C26_reencode", "C27_writes", "C28_read_discipline", "C29_refuted", "C29_single_reader_partial", "C31_file_signature_binds", "C31_hash_input_injective", "C33_openssh_line", "C35_private_partial", "C35_public_partial", "C36_openssh_refuted", "C36_private_panics_exactly", "C36_private_partial", "C36_public_panics_exactly", "C37_bad_blob_rejected", "C37_blob_exact", "C37_line_exact", "C37_line_partial", "C38_entries_partial", "C38_sound", "C38_total_and_linewise", "C39_container_exact", "C39_section_unique", "C42_stored_objects", "C42_write_atomic", "C42_write_outcome", "C43_generate", "C43_generate_exit_status", "C43_pair_usable_partial", "C44_no_overwrite_partial", "C44_old_or_new_partial", "C44_refuted", "C45_close_refuted", "C45_decrypt_succeeds", "C45_decrypt_to_file_partial", "C46_refuted", "C46_sender_partial", "C47_verify_exact", "C48_encrypt_exact", "C48_encrypt_succeeds", "C48_unresolved", "C49_refuted", "C49_sign_partial", "C50_new_pair_partial", "C50_refuted", "C51_encrypt_then_decrypt", "C52_sign_then_verify", "C53_crash_exactly_partial", "C53_refuted", "C54_refuted", "C54_round_trip_partial", "C54_string_exact", "C56_decrypt_ends", "C56_encrypt_ends", "C56_sign_ends", "C57_encrypt_size", "C57_stream_size", "C58_file_randomness", "C58_stream_randomness", "C59_encrypt_against_stream", "C60_authenticated_exactly", "C60_last_call_decides_partial", "C60_refuted", "C62_verify_report", "C63_decrypt_to_stdout", "C63_output_genuine", "C64_encrypt_succeeds", "C64_encrypt_to_stdout", "C64_pipeline", "C65_generate_encrypt_decrypt", "C66_generate_sign_verify", "C67_one_key", "C67_private_exact", "C67_public_exact", "C68_only_outputs", "C69_stream_and_decrypt_agree", "C70_one_file_per_encryptor", "C72_unverified_refuted", "C73_encrypt_words", "C73_sign_words", "C74_failure_changes_nothing_partial", "C74_generate_refuted", "C75_generated_pair", "C75_permissions", "C76_origin_partial", "C76_stream_origin_partial", "C77_concurrent_runs", "C78_history_partial", "C79_verified_file", "C79_verify_command", "C80_generate", "C80_sign", "C81_content_hidden", "C81_stream_content_hidden", "C83_anonymous", "C83_sender_hidden", "C83_stream_anonymous", "C83_stream_sender_hidden", "C84_many_files_any_reader_partial", "C84_many_files_partial", "C84_next_file_untouched_partial", "C84_refuted", "C84_stream_next_file_untouched_partial", "C84_stream_refuted", "C85_encryptor_never_panics", "C86_no_amplification", "C87_follow_along", "C88_any_form", "C92_printed_signature_verifies", "C92_sign_exit_status", "C92_sign_to_stdout", "C93_both_ends", "C93_discloses", "C93_encryptor_messages", "C95_no_panic_refuted", "C95_repeated_call_refuted", "C95_set_key_midway_partial", "C96_every_bad_recipient_named", "C96_failure_is_reported", "C96_no_sender_warning", "C96_success_is_silent", "C96_texts", "C97_generate", "C98_rewritten_key"], "secs": 2, "early": true, "m": {"edits": [["Bytes.v", "h\n  | [] => []\n  | x :: l' => if n <=? 0 then l els", "h\n  | [] => []\n  | x :: l' => if negb (n <=? 0) then l els"]], "definition": "drop", "desc": "Bytes: 'if n <=? 0' -> 'if negb (n <=? 0)' (auto)", "breaks": [], "mod": "Bytes", "id": "v264"}}
{"mid": "v262", "lemmas": ["Thm_Files.C43_generate"], "hard": [], "failed": ["C43_generate", "C50_new_pair_partial", "C65_generate_encrypt_decrypt", "C66_generate_sign_verify", "C73_encrypt_words", "C73_sign_words"], "secs": 63, "early": true, "m": {"edits": [["Store.v", "te : bool)\n  : list fop * res unit := write_file v (oct 6 4 4) f dst (marshal_pub", "te : bool)\n  : list fop * res unit := write_file v (oct 6 4 5) f dst (marshal_pub"]], "definition": "serialize_public", "desc": "Store: '4' -> '5' (auto)", "breaks": [], "mod": "Store", "id": "v262"}}
{"mid": "v266", "lemmas": ["EncryptProofs.lor_eof"], "hard": [], "failed": ["C01_encrypt_decrypt_round_trip", "C01_encrypt_succeeds", "C02_stream_round_trip", "C02_stream_writes_succeed", "C03_encrypted_file_streams", "C03_stream_file_decrypts", "C04_fragmentation_independent", "C04_stream_agrees_with_encrypt", "C04_stream_write_sizes_irrelevant", "C05_file_format", "C05_stream_format", "C06_chunks", "C06_stream_chunks", "C07_nonces_distinct_partial", "C07_refuted_counter_wraps", "C07_refuted_second_encrypt", "C07_stream_nonces_distinct_partial", "C07_stream_refuted_counter_wraps", "C08_tampered_header", "C08_tampered_stream_header", "C09_truncated_file", "C09_truncated_stream", "C10_complete_partial", "C10_refuted_truncation", "C10_stream_complete_partial", "C11_released_data_genuine", "C13_refuted_recipient_forges", "C14_refuted", "C16_recipients_agree", "C20_refuted", "C21_encrypt_errors_partial", "C23_refuted", "C24_recipients_partial", "C24_refuted", "C27_writes", "C29_refuted", "C48_encrypt_succeeds", "C51_encrypt_then_decrypt", "C56_encrypt_ends", "C57_encrypt_size", "C57_stream_size", "C58_file_randomness", "C58_stream_randomness", "C59_encrypt_against_stream", "C63_output_genuine", "C64_encrypt_succeeds", "C64_pipeline", "C65_generate_encrypt_decrypt", "C70_one_file_per_encryptor", "C72_unverified_refuted", "C73_encrypt_words", "C76_origin_partial", "C76_stream_origin_partial", "C81_content_hidden", "C81_stream_content_hidden", "C83_anonymous", "C83_sender_hidden", "C83_stream_anonymous", "C83_stream_sender_hidden", "C84_many_files_any_reader_partial", "C84_many_files_partial", "C84_next_file_untouched_partial", "C84_refuted", "C84_stream_next_file_untouched_partial", "C84_stream_refuted", "C85_encryptor_never_panics", "C87_follow_along", "C88_any_form", "C93_both_ends", "C93_discloses", "C95_set_key_midway_partial"], "secs": 8, "early": true, "m": {"edits": [["Encrypt.v", "31", "32"]], "definition": "eof_bit", "desc": "Encrypt: '31' -> '32' (auto)", "breaks": [], "mod": "Encrypt", "id": "v266"}}
{"mid": "v267", "lemmas": ["Toy.toy_ys_ok"], "hard": [], "failed": ["C21_refuted", "C44_refuted", "C45_close_refuted", "C46_refuted", "C49_refuted", "C50_refuted", "C53_refuted", "C60_refuted", "C74_generate_refuted", "C95_no_panic_refuted", "C95_repeated_call_refuted"], "secs": 135, "early": true, "m": {"edits": [["Keys.v", "S f => if b =? 0 then", "S f => if b =? 1 then"]], "definition": "egcd", "desc": "Keys: '0' -> '1' (auto)", "breaks": [], "mod": "Keys", "id": "v267"}}
{"mid": "v268", "lemmas": ["Thm_Race.wp_call"], "hard": [], "failed": ["C94_caches", "C94_goroutines_partial"], "secs": 3, "early": true, "m": {"edits": [["Race.v", "sk sender auth false fals", "sk sender auth true fals"]], "definition": "call_prog", "desc": "Race: 'false' -> 'true' (auto)", "breaks": [], "mod": "Race", "id": "v268"}}
{"mid": "v269", "lemmas": ["ToyExt.optional_ok", "ToyExt.toyE_keeps", "Thm_KeyFiles.yaml_not_ssh"], "hard": [], "failed": ["C33_public_round_trip", "C42_stored_objects", "C43_pair_usable_partial", "C65_generate_encrypt_decrypt", "C66_generate_sign_verify", "C73_encrypt_words", "C73_sign_words"], "secs": 18, "early": true, "m": {"edits": [["KeyFiles.v", "es := if len s =? 0 then", "es := if len s =? 1 then"]], "definition": "y_opt", "desc": "KeyFiles: '=? 0' -> '=? 1' (auto)", "breaks": [], "mod": "KeyFiles", "id": "v269"}}
{"mid": "v270", "lemmas": ["TextProofs.strip_space"], "hard": [], "failed": ["C37_line_partial", "C38_entries_partial", "C88_any_form"], "secs": 11, "early": true, "m": {"edits": [["GoText.v", "h\n  | [], _ => true\n  | ", "h\n  | [], _ => false\n  | "]], "definition": "is_prefix", "desc": "GoText: 'true' -> 'false' (auto)", "breaks": [], "mod": "GoText", "id": "v270"}}
{"mid": "v271", "lemmas": ["EncryptProofs.write_trailer_spec"], "hard": [], "failed": ["C01_encrypt_decrypt_round_trip", "C01_encrypt_succeeds", "C02_stream_round_trip", "C02_stream_writes_succeed", "C03_encrypted_file_streams", "C03_stream_file_decrypts", "C04_fragmentation_independent", "C04_stream_agrees_with_encrypt", "C04_stream_write_sizes_irrelevant", "C05_file_format", "C05_stream_format", "C06_chunks", "C06_stream_chunks", "C07_nonces_distinct_partial", "C07_refuted_counter_wraps", "C07_refuted_second_encrypt", "C07_stream_nonces_distinct_partial", "C07_stream_refuted_counter_wraps", "C08_tampered_header", "C08_tampered_stream_header", "C09_truncated_file", "C09_truncated_stream", "C10_complete_partial", "C10_refuted_truncation", "C10_stream_complete_partial", "C11_released_data_genuine", "C13_refuted_recipient_forges", "C14_refuted", "C16_recipients_agree", "C20_refuted", "C21_encrypt_errors_partial", "C23_refuted", "C24_recipients_partial", "C24_refuted", "C27_writes", "C29_refuted", "C48_encrypt_succeeds", "C51_encrypt_then_decrypt", "C56_encrypt_ends", "C57_encrypt_size", "C57_stream_size", "C58_file_randomness", "C58_stream_randomness", "C59_encrypt_against_stream", "C63_output_genuine", "C64_encrypt_succeeds", "C64_pipeline", "C65_generate_encrypt_decrypt", "C72_unverified_refuted", "C73_encrypt_words", "C76_origin_partial", "C76_stream_origin_partial", "C81_content_hidden", "C81_stream_content_hidden", "C83_anonymous", "C83_sender_hidden", "C83_stream_anonymous", "C83_stream_sender_hidden", "C84_many_files_any_reader_partial", "C84_many_files_partial", "C84_next_file_untouched_partial", "C84_refuted", "C84_stream_next_file_untouched_partial", "C84_stream_refuted", "C85_encryptor_never_panics", "C87_follow_along", "C88_any_form", "C93_both_ends", "C93_discloses", "C95_set_key_midway_partial"], "secs": 11, "early": true, "m": {"edits": [["Crypto.v", " : bytes) : res bytes :=\n  if negb (len sk =? ", " : bytes) : res bytes :=\n  if id (len sk =? "]], "definition": "Ed_Sign", "desc": "Crypto: 'negb (' -> 'id (' (auto)", "breaks": [], "mod": "Crypto", "id": "v271"}}
{"mid": "v272", "lemmas": ["Thm_Reads.C97_encrypt"], "hard": [], "failed": ["C97_encrypt"], "secs": 4, "early": true, "m": {"edits": [["Told.v", "if is_user fn ", "if negb (is_user fn) "]], "definition": "recipients_told", "desc": "Told: 'if is_user fn' -> 'if negb (is_user fn)' (auto)", "breaks": [], "mod": "Told", "id": "v272"}}
{"mid": "v273", "lemmas": ["SshProofs.opt_end_quoted"], "hard": [], "failed": ["C38_entries_partial", "C88_any_form"], "secs": 14, "early": true, "m": {"edits": [["Ssh.v", "if negb inq && is_blank b ", "if negb (negb inq && is_blank b) "]], "definition": "opt_end", "desc": "Ssh: 'if negb inq && is_blank b' -> 'if negb (negb inq && is_blank b)' (auto)", "breaks": [], "mod": "Ssh", "id": "v273"}}
{"mid": "v274", "lemmas": ["Thm_Told.sign_same"], "hard": [], "failed": ["C100_texts", "C71_command", "C71_options", "C72_unverified_refuted", "C73_encrypt_words", "C73_sign_words", "C96_same_outcome", "C99_every_command_line", "C99_misspelt_refuted", "C99_zero_partial"], "secs": 10, "early": true, "m": {"edits": [["Told.v", "d T W v (oct 6 4 4) o", "d T W v (oct 6 5 4) o"]], "definition": "sign_told", "desc": "Told: '4' -> '5' (auto)", "breaks": [], "mod": "Told", "id": "v274"}}
{"mid": "v275", "lemmas": ["StreamRead.er_read_spec"], "hard": [], "failed": ["C02_stream_round_trip", "C03_encrypted_file_streams", "C03_stream_file_decrypts", "C09_truncated_stream", "C10_stream_complete_partial", "C11_released_data_genuine", "C13_stream_signed_partial", "C29_refuted", "C29_single_reader_partial", "C63_output_genuine", "C69_stream_and_decrypt_agree", "C76_stream_origin_partial", "C84_many_files_any_reader_partial", "C84_stream_next_file_untouched_partial", "C84_stream_refuted", "C87_follow_along", "C88_any_form", "C95_set_key_midway_partial"], "secs": 85, "early": true, "m": {"edits": [["Stream.v", "f d eof) (mkEr 0 m (u", "f d eof) (mkEr 1 m (u"]], "definition": "er_read", "desc": "Stream: '0' -> '1' (auto)", "breaks": [], "mod": "Stream", "id": "v275"}}
{"mid": "v276", "lemmas": ["OpenProofs.unwrap_key_spec"], "hard": [], "failed": ["C01_encrypt_decrypt_round_trip", "C02_stream_round_trip", "C03_encrypted_file_streams", "C03_stream_file_decrypts", "C09_truncated_file", "C09_truncated_stream", "C10_complete_partial", "C10_refuted_truncation", "C10_stream_complete_partial", "C11_released_data_genuine", "C12_authenticated_means_signed", "C13_content_signed_partial", "C13_refuted_recipient_forges", "C13_stream_signed_partial", "C14_refuted", "C14_signed_file_partial", "C15_not_a_recipient", "C16_recipients_agree", "C20_every_history_partial", "C20_no_panic_partial", "C20_refuted", "C28_read_discipline", "C29_refuted", "C29_single_reader_partial", "C46_sender_partial", "C51_encrypt_then_decrypt", "C60_authenticated_exactly", "C60_last_call_decides_partial", "C63_output_genuine", "C64_pipeline", "C65_generate_encrypt_decrypt", "C69_stream_and_decrypt_agree", "C72_unverified_refuted", "C73_encrypt_words", "C76_origin_partial", "C76_stream_origin_partial", "C84_many_files_any_reader_partial", "C84_many_files_partial", "C84_next_file_untouched_partial", "C84_refuted", "C84_stream_next_file_untouched_partial", "C84_stream_refuted", "C87_follow_along", "C88_any_form", "C93_both_ends", "C95_set_key_midway_partial"], "secs": 61, "early": true, "m": {"edits": [["Decrypt.v", "C (aes_key_size + rx_no", "C (aes_key_size - rx_no"]], "definition": "unwrap_key", "desc": "Decrypt: '+' -> '-' (auto)", "breaks": [], "mod": "Decrypt", "id": "v276"}}
{"mid": "v277", "lemmas": ["StreamProofs.new_stream_writer_spec"], "hard": [], "failed": ["C02_stream_round_trip", "C02_stream_writes_succeed", "C03_encrypted_file_streams", "C03_stream_file_decrypts", "C04_stream_agrees_with_encrypt", "C04_stream_write_sizes_irrelevant", "C05_stream_format", "C06_stream_chunks", "C07_stream_nonces_distinct_partial", "C07_stream_refuted_counter_wraps", "C08_tampered_stream_header", "C09_truncated_file", "C09_truncated_stream", "C10_complete_partial", "C10_refuted_truncation", "C10_stream_complete_partial", "C11_released_data_genuine", "C13_refuted_recipient_forges", "C14_refuted", "C20_refuted", "C27_writes", "C29_refuted", "C57_stream_size", "C58_stream_randomness", "C59_encrypt_against_stream", "C63_output_genuine", "C72_unverified_refuted", "C76_origin_partial", "C76_stream_origin_partial", "C81_stream_content_hidden", "C83_stream_anonymous", "C83_stream_sender_hidden", "C84_many_files_any_reader_partial", "C84_many_files_partial", "C84_next_file_untouched_partial", "C84_refuted", "C84_stream_next_file_untouched_partial", "C84_stream_refuted", "C87_follow_along", "C88_any_form", "C93_discloses", "C95_set_key_midway_partial"], "secs": 41, "early": true, "m": {"edits": [["Stream.v", " (e_started e) true, w, ", " (e_started e) false, w, "]], "definition": "new_stream_writer", "desc": "Stream: 'true' -> 'false' (auto)", "breaks": [], "mod": "Stream", "id": "v277"}}
{"mid": "v278", "lemmas": ["Thm_Told.decrypt_talk"], "hard": [], "failed": ["C96_failure_is_reported", "C96_success_is_silent", "C96_texts"], "secs": 15, "early": true, "m": {"edits": [["Told.v", "false", "true"]], "definition": "decrypt_told", "desc": "Told: 'false' -> 'true' (auto)", "breaks": [], "mod": "Told", "id": "v278"}}
{"mid": "v279", "lemmas": ["FlagsProofs.letters_parse"], "hard": [], "failed": ["C100_texts", "C71_command", "C71_options", "C72_unverified_refuted", "C73_encrypt_words", "C73_sign_words", "C93_option", "C99_every_command_line", "C99_misspelt_refuted", "C99_zero_partial"], "secs": 5, "early": true, "m": {"edits": [["Flags.v", "if Byte.eqb e x3d && (0 <? len t) ", "if negb (Byte.eqb e x3d && (0 <? len t)) "]], "definition": "parse_short", "desc": "Flags: 'if Byte.eqb e x3d && (0 <? len t)' -> 'if negb (Byte.eqb e x3d && (0 <? len t))' (auto)", "breaks": [], "mod": "Flags", "id": "v279"}}
{"mid": "v280", "lemmas": ["Thm_Race.C94_torn_refuted"], "hard": [], "failed": ["C94_torn_refuted"], "secs": 7, "early": true, "m": {"edits": [["Race.v", "           | Ok (out, _) => Store (PkCache k 0) (Some out) (S", "           | Ok (out, _) => Store (PkCache k 1) (Some out) (S"]], "definition": "words_pk", "desc": "Race: '0' -> '1' (auto)", "breaks": [], "mod": "Race", "id": "v280"}}
{"mid": "v281", "lemmas": ["EncryptProofs.block_size_chunk"], "hard": [], "failed": ["C04_stream_agrees_with_encrypt", "C05_file_format", "C05_stream_format", "C06_chunks", "C06_stream_chunks", "C07_nonces_distinct_partial", "C07_refuted_counter_wraps", "C07_refuted_second_encrypt", "C07_stream_nonces_distinct_partial", "C07_stream_refuted_counter_wraps", "C57_encrypt_size", "C57_stream_size", "C59_encrypt_against_stream", "C81_content_hidden", "C81_stream_content_hidden", "C84_many_files_any_reader_partial", "C84_many_files_partial", "C84_next_file_untouched_partial", "C84_refuted", "C84_stream_next_file_untouched_partial", "C84_stream_refuted", "C87_follow_along"], "secs": 12, "early": true, "m": {"edits": [["Encrypt.v", "if blksize =? 0 ", "if negb (blksize =? 0) "]], "definition": "block_size", "desc": "Encrypt: 'if blksize =? 0' -> 'if negb (blksize =? 0)' (auto)", "breaks": [], "mod": "Encrypt", "id": "v281"}}
{"mid": "v282", "lemmas": ["SshProofs.auth_loop_acc"], "hard": [], "failed": ["C38_entries_partial", "C38_sound", "C38_total_and_linewise", "C44_no_overwrite_partial", "C44_old_or_new_partial", "C48_encrypt_exact", "C48_unresolved", "C51_encrypt_then_decrypt", "C56_encrypt_ends", "C64_encrypt_to_stdout", "C64_pipeline", "C65_generate_encrypt_decrypt", "C68_only_outputs", "C73_encrypt_words", "C74_failure_changes_nothing_partial", "C75_permissions", "C77_concurrent_runs", "C78_history_partial", "C88_any_form", "C96_every_bad_recipient_named"], "secs": 58, "early": true, "m": {"edits": [["Ssh.v", " if len inp =? 0 then", " if len inp =? 1 then"]], "definition": "auth_loop", "desc": "Ssh: '0' -> '1' (auto)", "breaks": [], "mod": "Ssh", "id": "v282"}}
{"mid": "v283", "lemmas": ["Thm_Usage.C100_texts"], "hard": [], "failed": ["C100_texts"], "secs": 2, "early": true, "m": {"edits": [["Usage.v", "| PGood s _ => if get_bool s (str \"help\") false then ", "| PGood s _ => if negb (get_bool s (str \"help\") false) then "]], "definition": "command_texts", "desc": "Usage: 'if get_bool s (str \"help\") false' -> 'if negb (get_bool s (str \"help\") false)' (auto)", "breaks": [], "mod": "Usage", "id": "v283"}}
{"mid": "v284", "lemmas": ["Thm_Flags.sign_same"], "hard": [], "failed": ["C100_texts", "C71_command", "C71_options", "C72_unverified_refuted", "C73_encrypt_words", "C73_sign_words", "C96_same_outcome", "C99_every_command_line", "C99_misspelt_refuted", "C99_zero_partial"], "secs": 10, "early": true, "m": {"edits": [["Flags.v", "f) false; fl \"overwrite\" None true].\n(** ver", "f) false; fl \"overwrite\" None false].\n(** ver"]], "definition": "sign_flags", "desc": "Flags: 'true' -> 'false' (auto)", "breaks": [], "mod": "Flags", "id": "v284"}}
{"mid": "v285", "lemmas": ["SshProofs.unmarshal_inv"], "hard": [], "failed": ["C33_openssh_line", "C35_private_partial", "C35_public_partial", "C36_private_panics_exactly", "C36_private_partial", "C37_bad_blob_rejected", "C37_blob_exact", "C37_line_exact", "C37_line_partial", "C38_sound", "C39_container_exact", "C43_pair_usable_partial", "C47_verify_exact", "C52_sign_then_verify", "C53_crash_exactly_partial", "C54_round_trip_partial", "C54_string_exact", "C56_decrypt_ends", "C56_encrypt_ends", "C56_sign_ends", "C62_verify_report", "C65_generate_encrypt_decrypt", "C66_generate_sign_verify", "C67_one_key", "C67_private_exact", "C67_public_exact", "C68_only_outputs", "C73_encrypt_words", "C73_sign_words", "C74_failure_changes_nothing_partial", "C75_permissions", "C77_concurrent_runs", "C78_history_partial", "C79_verify_command", "C80_sign", "C88_any_form", "C92_printed_signature_verifies", "C92_sign_exit_status", "C92_sign_to_stdout", "C98_rewritten_key"], "secs": 11, "early": true, "m": {"edits": [["Ssh.v", "\n  if len data =? 0 then", "\n  if len data =? 1 then"]], "definition": "ssh_unmarshal", "desc": "Ssh: '=? 0' -> '=? 1' (auto)", "breaks": [], "mod": "Ssh", "id": "v285"}}
{"mid": "v265", "lemmas": [], "hard": [], "failed": [], "secs": 579, "m": {"edits": [["GoIO.v", "++ p", "++ []"]], "definition": "w_write", "desc": "GoIO: '++ p' -> '++ []' (auto)", "breaks": [], "mod": "GoIO", "id": "v265"}}
{"mid": "v286", "lemmas": ["PbProofs.size_header_spec"], "hard": [], "failed": ["C01_encrypt_decrypt_round_trip", "C01_encrypt_succeeds", "C02_stream_round_trip", "C02_stream_writes_succeed", "C03_encrypted_file_streams", "C03_stream_file_decrypts", "C04_fragmentation_independent", "C04_stream_agrees_with_encrypt", "C04_stream_write_sizes_irrelevant", "C05_file_format", "C05_stream_format", "C06_chunks", "C06_stream_chunks", "C07_nonces_distinct_partial", "C07_refuted_counter_wraps", "C07_refuted_second_encrypt", "C07_stream_nonces_distinct_partial", "C07_stream_refuted_counter_wraps", "C08_tampered_header", "C08_tampered_stream_header", "C09_truncated_file", "C09_truncated_stream", "C10_complete_partial", "C10_refuted_truncation", "C10_stream_complete_partial", "C11_released_data_genuine", "C13_refuted_recipient_forges", "C14_refuted", "C16_recipients_agree", "C20_refuted", "C21_encrypt_errors_partial", "C23_refuted", "C24_recipients_partial", "C24_refuted", "C25_header_codec_round_trip", "C26_reencode", "C27_writes", "C29_refuted", "C48_encrypt_succeeds", "C51_encrypt_then_decrypt", "C56_encrypt_ends", "C57_encrypt_size", "C57_stream_size", "C58_file_randomness", "C58_stream_randomness", "C59_encrypt_against_stream", "C63_output_genuine", "C64_encrypt_succeeds", "C64_pipeline", "C65_generate_encrypt_decrypt", "C72_unverified_refuted", "C73_encrypt_words", "C76_origin_partial", "C76_stream_origin_partial", "C81_content_hidden", "C81_stream_content_hidden", "C83_anonymous", "C83_sender_hidden", "C83_stream_anonymous", "C83_stream_sender_hidden", "C84_many_files_any_reader_partial", "C84_many_files_partial", "C84_next_file_untouched_partial", "C84_refuted", "C84_stream_next_file_untouched_partial", "C84_stream_refuted", "C85_encryptor_never_panics", "C87_follow_along", "C88_any_form", "C93_both_ends", "C93_discloses", "C93_encryptor_messages", "C95_set_key_midway_partial"], "secs": 14, "early": true, "m": {"edits": [["Pb.v", "nk m =? 0 then 0 else", "nk m =? 0 then 1 else"]], "definition": "size_header", "desc": "Pb: '0' -> '1' (auto)", "breaks": [], "mod": "Pb", "id": "v286"}}
{"mid": "v288", "lemmas": ["PbProofs.push_field_spec"], "hard": [], "failed": ["C01_encrypt_decrypt_round_trip", "C01_encrypt_succeeds", "C02_stream_round_trip", "C02_stream_writes_succeed", "C03_encrypted_file_streams", "C03_stream_file_decrypts", "C04_fragmentation_independent", "C04_stream_agrees_with_encrypt", "C04_stream_write_sizes_irrelevant", "C05_file_format", "C05_stream_format", "C06_chunks", "C06_stream_chunks", "C07_nonces_distinct_partial", "C07_refuted_counter_wraps", "C07_refuted_second_encrypt", "C07_stream_nonces_distinct_partial", "C07_stream_refuted_counter_wraps", "C08_tampered_header", "C08_tampered_stream_header", "C09_truncated_file", "C09_truncated_stream", "C10_complete_partial", "C10_refuted_truncation", "C10_stream_complete_partial", "C11_released_data_genuine", "C13_refuted_recipient_forges", "C14_refuted", "C16_recipients_agree", "C20_refuted", "C21_encrypt_errors_partial", "C23_refuted", "C24_recipients_partial", "C24_refuted", "C25_header_codec_round_trip", "C26_reencode", "C27_writes", "C29_refuted", "C48_encrypt_succeeds", "C51_encrypt_then_decrypt", "C56_encrypt_ends", "C57_encrypt_size", "C57_stream_size", "C58_file_randomness", "C58_stream_randomness", "C59_encrypt_against_stream", "C63_output_genuine", "C64_encrypt_succeeds", "C64_pipeline", "C65_generate_encrypt_decrypt", "C72_unverified_refuted", "C73_encrypt_words", "C76_origin_partial", "C76_stream_origin_partial", "C81_content_hidden", "C81_stream_content_hidden", "C83_anonymous", "C83_sender_hidden", "C83_stream_anonymous", "C83_stream_sender_hidden", "C84_many_files_any_reader_partial", "C84_many_files_partial", "C84_next_file_untouched_partial", "C84_refuted", "C84_stream_next_file_untouched_partial", "C84_stream_refuted", "C85_encryptor_never_panics", "C87_follow_along", "C88_any_form", "C93_both_ends", "C93_discloses", "C93_encryptor_messages", "C95_set_key_midway_partial"], "secs": 14, "early": true, "m": {"edits": [["Pb.v", "varint (len b) ++ b ++ a", "varint (len b) ++ [] ++ a"]], "definition": "push_field", "desc": "Pb: '++ b' -> '++ []' (auto)", "breaks": [], "mod": "Pb", "id": "v288"}}
{"mid": "v289", "lemmas": ["Thm_Race.wp_conv_sk"], "hard": [], "failed": ["C94_caches", "C94_goroutines_partial"], "secs": 1, "early": true, "m": {"edits": [["Race.v", "ore (SkCache k 0) (So", "ore (SkCache k 1) (So"]], "definition": "conv_sk", "desc": "Race: '0' -> '1' (auto)", "breaks": [], "mod": "Race", "id": "v289"}}
{"mid": "v290", "error": "edit does not compile: File \"./theories/StreamRead.v\", line 169, characters 43-60:\nError: Illegal application (Non-functional construction): \nThe expression \"[]\" of type \"list ?A\"\ncannot be applied to the term\n \"([], Fail x)\" : \"(list ?A0 * res ?A1)%type\"\n\n", "m": {"edits": [["StreamRead.v", "++ repeat", "++ []"]], "definition": "read_shape", "desc": "StreamRead: '++ repeat' -> '++ []' (auto)", "breaks": [], "mod": "StreamRead", "id": "v290"}}
{"mid": "v291", "lemmas": ["PbProofs.get_unknown_safe"], "hard": [], "failed": ["C01_encrypt_decrypt_round_trip", "C02_stream_round_trip", "C03_encrypted_file_streams", "C03_stream_file_decrypts", "C05_file_format", "C05_stream_format", "C08_accepted_header", "C08_tampered_header", "C08_tampered_stream_header", "C09_truncated_file", "C09_truncated_stream", "C10_complete_partial", "C10_refuted_truncation", "C10_stream_complete_partial", "C11_released_data_genuine", "C12_authenticated_means_signed", "C13_content_signed_partial", "C13_refuted_recipient_forges", "C13_stream_signed_partial", "C14_refuted", "C14_signed_file_partial", "C15_not_a_recipient", "C16_recipients_agree", "C19_new_decryptor_total", "C20_every_history_partial", "C20_no_panic_partial", "C20_refuted", "C23_refuted", "C24_recipients_partial", "C24_refuted", "C26_decoder_total_and_exact", "C26_reencode", "C28_read_discipline", "C29_refuted", "C29_single_reader_partial", "C46_sender_partial", "C51_encrypt_then_decrypt", "C56_decrypt_ends", "C60_authenticated_exactly", "C60_last_call_decides_partial", "C63_output_genuine", "C64_pipeline", "C65_generate_encrypt_decrypt", "C69_stream_and_decrypt_agree", "C70_one_file_per_encryptor", "C72_unverified_refuted", "C73_encrypt_words", "C76_origin_partial", "C76_stream_origin_partial", "C84_many_files_any_reader_partial", "C84_many_files_partial", "C84_next_file_untouched_partial", "C84_refuted", "C84_stream_next_file_untouched_partial", "C84_stream_refuted", "C87_follow_along", "C88_any_form", "C93_both_ends", "C95_set_key_midway_partial", "C96_failure_is_reported", "C96_no_sender_warning", "C96_success_is_silent", "C96_texts"], "secs": 20, "early": true, "m": {"edits": [["Pb.v", "(pre + skippy) <? 0)\n ", "(pre + skippy) <=? 0)\n "]], "definition": "get_unknown", "desc": "Pb: '<?' -> '<=?' (auto)", "breaks": [], "mod": "Pb", "id": "v291"}}
{"mid": "v292", "lemmas": ["TextProofs.index_sub_spec"], "hard": [], "failed": ["C34_comment_refuted", "C34_private_round_trip_partial", "C35_private_partial", "C35_stale_refuted", "C36_openssh_refuted", "C36_private_panics_exactly", "C36_private_refuted", "C42_stored_objects", "C43_pair_usable_partial", "C56_decrypt_ends", "C56_encrypt_ends", "C56_sign_ends", "C65_generate_encrypt_decrypt", "C66_generate_sign_verify", "C67_one_key", "C67_private_exact", "C73_encrypt_words", "C73_sign_words", "C80_sign", "C88_any_form", "C98_rewritten_key"], "secs": 9, "early": true, "m": {"edits": [["GoText.v", "b b' with Some i => Some (i + 1) | None =", "b b' with Some i => Some (i + 2) | None ="]], "definition": "index_sub", "desc": "GoText: '1' -> '2' (auto)", "breaks": [], "mod": "GoText", "id": "v292"}}
{"mid": "v293", "lemmas": ["Thm_Pipe.C62_verify_report"], "hard": [], "failed": ["C62_verify_report", "C68_only_outputs", "C73_sign_words", "C74_failure_changes_nothing_partial", "C75_permissions", "C77_concurrent_runs", "C78_history_partial"], "secs": 88, "early": true, "m": {"edits": [["Cli.v", "++ sn", "++ []"]], "definition": "verify_text", "desc": "Cli: '++ sn' -> '++ []' (auto)", "breaks": [], "mod": "Cli", "id": "v293"}}
{"mid": "v294", "lemmas": ["FlagsProofs.command_line_parse"], "hard": [], "failed": ["C100_texts", "C71_command", "C71_options", "C72_unverified_refuted", "C73_encrypt_words", "C73_sign_words", "C93_option", "C99_every_command_line", "C99_misspelt_refuted", "C99_zero_partial"], "secs": 6, "early": true, "m": {"edits": [["Flags.v", "if Byte.eqb c2 x2d ", "if negb (Byte.eqb c2 x2d) "]], "definition": "parse_args", "desc": "Flags: 'if Byte.eqb c2 x2d' -> 'if negb (Byte.eqb c2 x2d)' (auto)", "breaks": [], "mod": "Flags", "id": "v294"}}
{"mid": "v295", "lemmas": ["Thm_Race.set_rest_same"], "hard": [], "failed": ["C94_caches", "C94_goroutines_partial"], "secs": 2, "early": true, "m": {"edits": [["Race.v", "    let buf := drop aead_", "    let buf := take aead_"]], "definition": "set_rest", "desc": "Race: 'drop' -> 'take' (auto)", "breaks": [], "mod": "Race", "id": "v295"}}
{"mid": "v287", "lemmas": ["KeysProofs.curve_of_spec"], "hard": [], "failed": ["C41_public_key_conversion"], "secs": 242, "early": true, "m": {"edits": [["Keys.v", "nY := zeros (32 - len P", "nY := zeros (32 + len P"]], "definition": "curve_of", "desc": "Keys: '-' -> '+' (auto)", "breaks": [], "mod": "Keys", "id": "v287"}}
{"mid": "v297", "lemmas": ["SshProofs.auth_line_options"], "hard": [], "failed": ["C38_entries_partial", "C88_any_form"], "secs": 13, "early": true, "m": {"edits": [["Ssh.v", "= skip_blanks (drop (opt_", "= skip_blanks (take (opt_"]], "definition": "auth_line", "desc": "Ssh: 'drop' -> 'take' (auto)", "breaks": [], "mod": "Ssh", "id": "v297"}}
{"mid": "v298", "lemmas": ["TextProofs.split_run"], "hard": [], "failed": ["C33_openssh_line", "C33_public_round_trip", "C33_yaml_exact", "C35_public_partial", "C36_public_panics_exactly", "C37_bad_blob_rejected", "C37_comment_refuted", "C37_line_exact", "C37_line_partial", "C42_stored_objects", "C43_pair_usable_partial", "C47_verify_exact", "C52_sign_then_verify", "C53_crash_exactly_partial", "C54_refuted", "C54_round_trip_partial", "C54_string_exact", "C56_decrypt_ends", "C56_encrypt_ends", "C62_verify_report", "C65_generate_encrypt_decrypt", "C66_generate_sign_verify", "C67_public_exact", "C68_only_outputs", "C73_encrypt_words", "C73_sign_words", "C74_failure_changes_nothing_partial", "C75_permissions", "C77_concurrent_runs", "C78_history_partial", "C79_verify_command", "C88_any_form", "C92_printed_signature_verifies"], "secs": 7, "early": true, "m": {"edits": [["GoText.v", "t_blanks s' [] true else", "t_blanks s' [] false else"]], "definition": "split_blanks", "desc": "GoText: 'true' -> 'false' (auto)", "breaks": [], "mod": "GoText", "id": "v298"}}
{"mid": "v296", "lemmas": ["LocalProofs.rng_bytes_agree"], "hard": [], "failed": ["C91_objects_independent", "C94_caches", "C94_goroutines_partial"], "secs": 145, "early": true, "m": {"edits": [["GoIO.v", " rng_bytes t (p + 1) n'", " rng_bytes t (p - 1) n'"]], "definition": "rng_bytes", "desc": "GoIO: '+' -> '-' (auto)", "breaks": [], "mod": "GoIO", "id": "v296"}}
{"mid": "v300", "lemmas": ["PbProofs.i64_small"], "hard": [], "failed": ["C01_encrypt_decrypt_round_trip", "C02_stream_round_trip", "C03_encrypted_file_streams", "C03_stream_file_decrypts", "C05_file_format", "C05_stream_format", "C08_accepted_header", "C08_tampered_header", "C08_tampered_stream_header", "C09_truncated_file", "C09_truncated_stream", "C10_complete_partial", "C10_refuted_truncation", "C10_stream_complete_partial", "C11_released_data_genuine", "C12_authenticated_means_signed", "C13_content_signed_partial", "C13_refuted_recipient_forges", "C13_stream_signed_partial", "C14_refuted", "C14_signed_file_partial", "C15_not_a_recipient", "C16_recipients_agree", "C19_new_decryptor_total", "C20_every_history_partial", "C20_no_panic_partial", "C20_refuted", "C23_refuted", "C24_recipients_partial", "C24_refuted", "C25_header_codec_round_trip", "C26_decoder_total_and_exact", "C26_reencode", "C28_read_discipline", "C29_refuted", "C29_single_reader_partial", "C46_sender_partial", "C51_encrypt_then_decrypt", "C56_decrypt_ends", "C60_authenticated_exactly", "C60_last_call_decides_partial", "C63_output_genuine", "C64_pipeline", "C65_generate_encrypt_decrypt", "C69_stream_and_decrypt_agree", "C70_one_file_per_encryptor", "C72_unverified_refuted", "C73_encrypt_words", "C76_origin_partial", "C76_stream_origin_partial", "C84_many_files_any_reader_partial", "C84_many_files_partial", "C84_next_file_untouched_partial", "C84_refuted", "C84_stream_next_file_untouched_partial", "C84_stream_refuted", "C87_follow_along", "C88_any_form", "C93_both_ends", "C95_set_key_midway_partial", "C96_failure_is_reported", "C96_no_sender_warning", "C96_success_is_silent", "C96_texts"], "secs": 18, "early": true, "m": {"edits": [["Bytes.v", "Z) : Z := (z + 2^63) ", "Z) : Z := (z + 3^63) "]], "definition": "i64", "desc": "Bytes: '2' -> '3' (auto)", "breaks": [], "mod": "Bytes", "id": "v300"}}
