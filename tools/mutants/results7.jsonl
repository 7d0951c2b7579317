{"mid": "w0_002", "lemmas": ["EncryptProofs.block_size_chunk"], "hard": [], "failed": ["C04_stream_agrees_with_encrypt", "C05_file_format", "C05_stream_format", "C06_chunks", "C06_stream_chunks", "C07_nonces_distinct_partial", "C07_refuted_counter_wraps", "C07_refuted_second_encrypt", "C07_stream_nonces_distinct_partial", "C07_stream_refuted_counter_wraps", "C57_encrypt_size", "C57_stream_size", "C59_encrypt_against_stream", "C81_content_hidden", "C81_stream_content_hidden", "C84_many_files_any_reader_partial", "C84_many_files_partial", "C84_next_file_untouched_partial", "C84_refuted", "C84_stream_next_file_untouched_partial", "C84_stream_refuted", "C87_follow_along"], "secs": 10, "early": true, "m": {"edits": [["Encrypt.v", "if max_chunk <? blksize ", "if negb (max_chunk <? blksize) "]], "definition": "block_size", "desc": "Encrypt: 'if max_chunk <? blksize' -> 'if negb (max_chunk <? blksize)' (auto)", "breaks": [], "mod": "Encrypt", "id": "w0_002"}}
{"mid": "w0_003", "lemmas": ["EncryptProofs.to_curve_pk_pt"], "hard": [], "failed": ["C01_encrypt_decrypt_round_trip", "C01_encrypt_succeeds", "C02_stream_round_trip", "C02_stream_writes_succeed", "C03_encrypted_file_streams", "C03_stream_file_decrypts", "C04_fragmentation_independent", "C04_stream_agrees_with_encrypt", "C04_stream_write_sizes_irrelevant", "C05_file_format", "C05_stream_format", "C06_chunks", "C06_stream_chunks", "C07_nonces_distinct_partial", "C07_refuted_counter_wraps", "C07_refuted_second_encrypt", "C07_stream_nonces_distinct_partial", "C07_stream_refuted_counter_wraps", "C08_tampered_header", "C08_tampered_stream_header", "C09_truncated_file", "C09_truncated_stream", "C10_complete_partial", "C10_refuted_truncation", "C10_stream_complete_partial", "C11_released_data_genuine", "C13_refuted_recipient_forges", "C14_refuted", "C16_own_entry_opens", "C16_recipients_agree", "C20_refuted", "C21_encrypt_errors_partial", "C23_chunk_size_partial", "C23_refuted", "C24_recipients_partial", "C24_refuted", "C27_writes", "C29_refuted", "C48_encrypt_succeeds", "C51_encrypt_then_decrypt", "C56_encrypt_ends", "C57_encrypt_size", "C57_stream_size", "C58_file_randomness", "C58_stream_randomness", "C59_encrypt_against_stream", "C61_rejected_exactly", "C63_output_genuine", "C64_encrypt_succeeds", "C64_pipeline", "C65_generate_encrypt_decrypt", "C72_unverified_refuted", "C73_encrypt_words", "C76_origin_partial", "C76_stream_origin_partial", "C81_content_hidden", "C81_stream_content_hidden", "C82_recipients_hidden", "C83_anonymous", "C83_sender_hidden", "C83_stream_anonymous", "C83_stream_sender_hidden", "C84_many_files_any_reader_partial", "C84_many_files_partial", "C84_next_file_untouched_partial", "C84_refuted", "C84_stream_next_file_untouched_partial", "C84_stream_refuted", "C85_encryptor_never_panics", "C87_follow_along", "C88_any_form", "C93_both_ends", "C93_discloses", "C95_set_key_midway_partial"], "secs": 12, "early": true, "m": {"edits": [["Keys.v", "=>\n      if 32 <? len ", "=>\n      if 32 <=? len "]], "definition": "to_curve_pk", "desc": "Keys: '<?' -> '<=?' (auto)", "breaks": [], "mod": "Keys", "id": "w0_003"}}
{"mid": "w0_001", "lemmas": ["SshKeyProofs.section_ok"], "hard": [], "failed": ["C39_container_exact", "C67_one_key", "C67_private_exact", "C88_any_form", "C98_rewritten_key"], "secs": 84, "early": true, "m": {"edits": [["Keys.v", "drop ", "take "]], "definition": "make_private_from_bytes", "desc": "Keys: 'drop' -> 'take' (auto)", "breaks": [], "mod": "Keys", "id": "w0_001"}}
{"mid": "w0_005", "lemmas": ["Thm_Cli.cli_encrypt_any"], "hard": [], "failed": ["C44_no_overwrite_partial", "C44_old_or_new_partial", "C48_encrypt_exact", "C48_unresolved", "C51_encrypt_then_decrypt", "C64_encrypt_to_stdout", "C64_pipeline", "C65_generate_encrypt_decrypt", "C68_only_outputs", "C73_encrypt_words", "C74_failure_changes_nothing_partial", "C75_permissions", "C77_concurrent_runs", "C78_history_partial"], "secs": 14, "early": true, "m": {"edits": [["Cli.v", "with EExt 2 => true | _ ", "with EExt 2 => false | _ "]], "definition": "not_exist", "desc": "Cli: 'true' -> 'false' (auto)", "breaks": [], "mod": "Cli", "id": "w0_005"}}
{"mid": "w0_006", "lemmas": ["Thm_Debug.estep_message"], "hard": [], "failed": ["C93_encryptor_messages"], "secs": 3, "early": true, "m": {"edits": [["Debug.v", "if e_stream e ", "if negb (e_stream e) "]], "definition": "estep_debug", "desc": "Debug: 'if e_stream e' -> 'if negb (e_stream e)' (auto)", "breaks": [], "mod": "Debug", "id": "w0_006"}}
{"mid": "w0_007", "error": "edit does not compile: File \"./theories/Encrypt.v\", line 169, characters 0-834:\nError: Non exhaustive pattern-matching: no clause found for pattern true\n\n", "m": {"edits": [["Encrypt.v", "h e with\n    | true =>\n ", "h e with\n    | false =>\n "]], "definition": "write_trailer", "desc": "Encrypt: 'true' -> 'false' (auto)", "breaks": [], "mod": "Encrypt", "id": "w0_007"}}
{"mid": "w0_008", "lemmas": ["FsProofs.clean_not_failed"], "hard": [], "failed": ["C42_stored_objects", "C42_write_atomic", "C42_write_outcome", "C43_generate", "C43_generate_exit_status", "C44_old_or_new_partial", "C45_decrypt_to_file_partial", "C48_encrypt_exact", "C48_unresolved", "C49_sign_partial", "C50_new_pair_partial", "C51_encrypt_then_decrypt", "C52_sign_then_verify", "C65_generate_encrypt_decrypt", "C66_generate_sign_verify", "C68_only_outputs", "C73_encrypt_words", "C73_sign_words", "C74_failure_changes_nothing_partial", "C75_generated_pair", "C75_permissions", "C77_concurrent_runs", "C78_history_partial", "C80_generate", "C80_sign", "C97_generate"], "secs": 4, "early": true, "m": {"edits": [["Fs.v", "false", "true"]], "definition": "write_failed", "desc": "Fs: 'false' -> 'true' (auto)", "breaks": [], "mod": "Fs", "id": "w0_008"}}
{"mid": "w0_009", "lemmas": ["PbProofs.get_unknown_safe"], "hard": [], "failed": ["C01_encrypt_decrypt_round_trip", "C02_stream_round_trip", "C03_encrypted_file_streams", "C03_stream_file_decrypts", "C05_file_format", "C05_stream_format", "C08_accepted_header", "C08_tampered_header", "C08_tampered_stream_header", "C09_truncated_file", "C09_truncated_stream", "C10_complete_partial", "C10_refuted_truncation", "C10_stream_complete_partial", "C11_released_data_genuine", "C12_authenticated_means_signed", "C13_content_signed_partial", "C13_refuted_recipient_forges", "C13_stream_signed_partial", "C14_refuted", "C14_signed_file_partial", "C15_not_a_recipient", "C16_recipients_agree", "C19_new_decryptor_total", "C20_every_history_partial", "C20_no_panic_partial", "C20_refuted", "C23_refuted", "C24_recipients_partial", "C24_refuted", "C26_decoder_total_and_exact", "C26_reencode", "C28_read_discipline", "C29_refuted", "C29_single_reader_partial", "C46_sender_partial", "C51_encrypt_then_decrypt", "C56_decrypt_ends", "C60_authenticated_exactly", "C60_last_call_decides_partial", "C63_output_genuine", "C64_pipeline", "C65_generate_encrypt_decrypt", "C69_stream_and_decrypt_agree", "C70_one_file_per_encryptor", "C72_unverified_refuted", "C73_encrypt_words", "C76_origin_partial", "C76_stream_origin_partial", "C84_many_files_any_reader_partial", "C84_many_files_partial", "C84_next_file_untouched_partial", "C84_refuted", "C84_stream_next_file_untouched_partial", "C84_stream_refuted", "C87_follow_along", "C88_any_form", "C93_both_ends", "C95_set_key_midway_partial", "C96_failure_is_reported", "C96_no_sender_warning", "C96_success_is_silent", "C96_texts"], "secs": 14, "early": true, "m": {"edits": [["Pb.v", "lice d pre (pre + skipp", "lice d pre (pre - skipp"]], "definition": "get_unknown", "desc": "Pb: '+' -> '-' (auto)", "breaks": [], "mod": "Pb", "id": "w0_009"}}
{"mid": "w0_004", "lemmas": [], "hard": [], "failed": [], "secs": 452, "m": {"edits": [["Keys.v", "en Some (a, 1, 0)\n   ", "en Some (a, 1, 1)\n   "]], "definition": "egcd", "desc": "Keys: '0' -> '1' (auto)", "breaks": [], "mod": "Keys", "id": "w0_004"}}
{"mid": "w0_011", "lemmas": ["Thm_KeyFiles.unmarshal_yaml"], "hard": [], "failed": ["C34_private_round_trip_partial", "C42_stored_objects", "C43_pair_usable_partial", "C65_generate_encrypt_decrypt", "C66_generate_sign_verify", "C73_encrypt_words", "C73_sign_words", "C98_rewritten_key"], "secs": 9, "early": true, "m": {"edits": [["KeyFiles.v", "if looks_openssh b ", "if negb (looks_openssh b) "]], "definition": "unmarshal_private", "desc": "KeyFiles: 'if looks_openssh b' -> 'if negb (looks_openssh b)' (auto)", "breaks": [], "mod": "KeyFiles", "id": "w0_011"}}
{"mid": "w0_012", "lemmas": ["OpenProofs.verify_sender_spec"], "hard": [], "failed": ["C01_encrypt_decrypt_round_trip", "C02_stream_round_trip", "C03_encrypted_file_streams", "C03_stream_file_decrypts", "C09_truncated_file", "C09_truncated_stream", "C10_complete_partial", "C10_refuted_truncation", "C10_stream_complete_partial", "C11_released_data_genuine", "C12_authenticated_means_signed", "C13_content_signed_partial", "C13_refuted_recipient_forges", "C13_stream_signed_partial", "C14_refuted", "C14_signed_file_partial", "C16_recipients_agree", "C20_every_history_partial", "C20_no_panic_partial", "C20_refuted", "C28_read_discipline", "C29_refuted", "C29_single_reader_partial", "C46_sender_partial", "C51_encrypt_then_decrypt", "C56_decrypt_ends", "C60_authenticated_exactly", "C60_last_call_decides_partial", "C63_output_genuine", "C64_pipeline", "C65_generate_encrypt_decrypt", "C69_stream_and_decrypt_agree", "C72_unverified_refuted", "C73_encrypt_words", "C76_origin_partial", "C76_stream_origin_partial", "C84_many_files_any_reader_partial", "C84_many_files_partial", "C84_next_file_untouched_partial", "C84_refuted", "C84_stream_next_file_untouched_partial", "C84_stream_refuted", "C87_follow_along", "C88_any_form", "C93_both_ends", "C95_set_key_midway_partial"], "secs": 51, "early": true, "m": {"edits": [["Encrypt.v", "++ pk", "++ []"]], "definition": "sender_cksum", "desc": "Encrypt: '++ pk' -> '++ []' (auto)", "breaks": [], "mod": "Encrypt", "id": "w0_012"}}
{"mid": "w0_013", "lemmas": ["StreamProofs.ew_loop_spec"], "hard": [], "failed": ["C02_stream_round_trip", "C02_stream_writes_succeed", "C03_encrypted_file_streams", "C03_stream_file_decrypts", "C04_stream_agrees_with_encrypt", "C04_stream_write_sizes_irrelevant", "C05_stream_format", "C06_stream_chunks", "C07_stream_nonces_distinct_partial", "C07_stream_refuted_counter_wraps", "C08_tampered_stream_header", "C09_truncated_file", "C09_truncated_stream", "C10_complete_partial", "C10_refuted_truncation", "C10_stream_complete_partial", "C11_released_data_genuine", "C13_refuted_recipient_forges", "C14_refuted", "C20_refuted", "C27_writes", "C29_refuted", "C57_stream_size", "C58_stream_randomness", "C59_encrypt_against_stream", "C63_output_genuine", "C72_unverified_refuted", "C76_origin_partial", "C76_stream_origin_partial", "C81_stream_content_hidden", "C83_stream_anonymous", "C83_stream_sender_hidden", "C84_many_files_any_reader_partial", "C84_many_files_partial", "C84_next_file_untouched_partial", "C84_refuted", "C84_stream_next_file_untouched_partial", "C84_stream_refuted", "C87_follow_along", "C88_any_form", "C93_discloses", "C95_set_key_midway_partial"], "secs": 29, "early": true, "m": {"edits": [["Stream.v", "&&", "||"]], "definition": "ew_loop", "desc": "Stream: '&&' -> '||' (auto)", "breaks": [], "mod": "Stream", "id": "w0_013"}}
{"mid": "w0_014", "lemmas": ["Base64Proofs.dec_cons4"], "hard": [], "failed": ["C32_signature_reading_exact", "C32_signature_round_trip", "C33_openssh_line", "C33_public_round_trip", "C33_yaml_exact", "C34_private_round_trip_partial", "C35_public_partial", "C36_private_panics_exactly", "C36_private_partial", "C36_private_refuted", "C36_public_panics_exactly", "C37_bad_blob_rejected", "C37_blob_exact", "C37_line_exact", "C37_line_partial", "C38_entries_partial", "C38_sound", "C40_decode_exact", "C40_refused", "C40_round_trip", "C42_stored_objects", "C43_pair_usable_partial", "C47_verify_exact", "C52_sign_then_verify", "C53_crash_exactly_partial", "C54_refuted", "C54_round_trip_partial", "C54_string_exact", "C56_decrypt_ends", "C56_encrypt_ends", "C56_sign_ends", "C62_verify_report", "C65_generate_encrypt_decrypt", "C66_generate_sign_verify", "C67_one_key", "C67_private_exact", "C67_public_exact", "C68_only_outputs", "C73_encrypt_words", "C73_sign_words", "C74_failure_changes_nothing_partial", "C75_permissions", "C77_concurrent_runs", "C78_history_partial", "C79_verify_command", "C88_any_form", "C92_printed_signature_verifies", "C98_rewritten_key"], "secs": 2, "early": true, "m": {"edits": [["Base64.v", "            let v := d0 * 2^18 + d1 * 2^12 ", "            let v := d0 * 2^18 - d1 * 2^12 "]], "definition": "b64_dec", "desc": "Base64: '+' -> '-' (auto)", "breaks": [], "mod": "Base64", "id": "w0_014"}}
{"mid": "w0_015", "lemmas": ["Thm_Race.wp_conv_pk"], "hard": [], "failed": ["C94_caches", "C94_goroutines_partial"], "secs": 1, "early": true, "m": {"edits": [["Race.v", ": prog A :=\n  Load (PkCache k 0) (fun c =", ": prog A :=\n  Load (PkCache k 1) (fun c ="]], "definition": "conv_pk", "desc": "Race: '0' -> '1' (auto)", "breaks": [], "mod": "Race", "id": "w0_015"}}
{"mid": "w0_010", "lemmas": [], "hard": [], "failed": [], "secs": 450, "m": {"edits": [["Crypto.v", " : Z := 2^63 - 1.\nDef", " : Z := 2^63 - 2.\nDef"]], "definition": "max_int", "desc": "Crypto: '1' -> '2' (auto)", "breaks": [], "mod": "Crypto", "id": "w0_010"}}
{"mid": "w0_017", "lemmas": ["PbProofs.varint_at_spec"], "hard": [], "failed": ["C01_encrypt_decrypt_round_trip", "C02_stream_round_trip", "C03_encrypted_file_streams", "C03_stream_file_decrypts", "C05_file_format", "C05_stream_format", "C09_truncated_file", "C09_truncated_stream", "C10_complete_partial", "C10_refuted_truncation", "C10_stream_complete_partial", "C11_released_data_genuine", "C13_refuted_recipient_forges", "C14_refuted", "C16_recipients_agree", "C20_refuted", "C23_refuted", "C24_recipients_partial", "C24_refuted", "C29_refuted", "C51_encrypt_then_decrypt", "C63_output_genuine", "C64_pipeline", "C65_generate_encrypt_decrypt", "C72_unverified_refuted", "C73_encrypt_words", "C84_many_files_any_reader_partial", "C84_many_files_partial", "C84_next_file_untouched_partial", "C84_refuted", "C84_stream_next_file_untouched_partial", "C84_stream_refuted", "C87_follow_along", "C88_any_form", "C93_both_ends", "C95_set_key_midway_partial"], "secs": 9, "early": true, "m": {"edits": [["Pb.v", " (len d) idx 0 0.\n\n(*", " (len d) idx 0 1.\n\n(*"]], "definition": "varint_at", "desc": "Pb: '0' -> '1' (auto)", "breaks": [], "mod": "Pb", "id": "w0_017"}}
{"mid": "w0_016", "lemmas": ["StreamRead.er_read_spec"], "hard": [], "failed": ["C02_stream_round_trip", "C03_encrypted_file_streams", "C03_stream_file_decrypts", "C09_truncated_stream", "C10_stream_complete_partial", "C11_released_data_genuine", "C13_stream_signed_partial", "C29_refuted", "C29_single_reader_partial", "C63_output_genuine", "C69_stream_and_decrypt_agree", "C76_stream_origin_partial", "C84_many_files_any_reader_partial", "C84_stream_next_file_untouched_partial", "C84_stream_refuted", "C87_follow_along", "C88_any_form", "C95_set_key_midway_partial"], "secs": 96, "early": true, "m": {"edits": [["Stream.v", "if er_len s =? 0 then", "if er_len s =? 1 then"]], "definition": "er_read", "desc": "Stream: '0' -> '1' (auto)", "breaks": [], "mod": "Stream", "id": "w0_016"}}
{"mid": "w0_019", "lemmas": ["SshProofs.parse_enc_inv"], "hard": [], "failed": ["C33_openssh_line", "C35_public_partial", "C37_bad_blob_rejected", "C37_blob_exact", "C37_line_exact", "C37_line_partial", "C38_sound", "C43_pair_usable_partial", "C47_verify_exact", "C52_sign_then_verify", "C53_crash_exactly_partial", "C54_round_trip_partial", "C54_string_exact", "C56_decrypt_ends", "C56_encrypt_ends", "C62_verify_report", "C65_generate_encrypt_decrypt", "C66_generate_sign_verify", "C67_public_exact", "C68_only_outputs", "C73_encrypt_words", "C73_sign_words", "C74_failure_changes_nothing_partial", "C75_permissions", "C77_concurrent_runs", "C78_history_partial", "C79_verify_command", "C88_any_form", "C92_printed_signature_verifies"], "secs": 18, "early": true, "m": {"edits": [["Ssh.v", "            if 0 <? l", "            if 1 <? l"]], "definition": "parse_enc_pubkey", "desc": "Ssh: '0' -> '1' (auto)", "breaks": [], "mod": "Ssh", "id": "w0_019"}}
{"mid": "w0_020", "lemmas": ["PbProofs.wkey_done"], "hard": [], "failed": ["C01_encrypt_decrypt_round_trip", "C02_stream_round_trip", "C03_encrypted_file_streams", "C03_stream_file_decrypts", "C05_file_format", "C05_stream_format", "C09_truncated_file", "C09_truncated_stream", "C10_complete_partial", "C10_refuted_truncation", "C10_stream_complete_partial", "C11_released_data_genuine", "C13_refuted_recipient_forges", "C14_refuted", "C16_recipients_agree", "C20_refuted", "C23_refuted", "C24_recipients_partial", "C24_refuted", "C25_header_codec_round_trip", "C26_decoder_total_and_exact", "C26_reencode", "C29_refuted", "C51_encrypt_then_decrypt", "C63_output_genuine", "C64_pipeline", "C65_generate_encrypt_decrypt", "C72_unverified_refuted", "C73_encrypt_words", "C84_many_files_any_reader_partial", "C84_many_files_partial", "C84_next_file_untouched_partial", "C84_refuted", "C84_stream_next_file_untouched_partial", "C84_stream_refuted", "C87_follow_along", "C88_any_form", "C93_both_ends", "C95_set_key_midway_partial"], "secs": 26, "early": true, "m": {"edits": [["Pb.v", "es wkey :=\n  if len d <=? idx then (if len d <? idx then Fail ", "es wkey :=\n  if len d <=? idx then (if len d <=? idx then Fail "]], "definition": "unmarshal_wkey_loop", "desc": "Pb: '<?' -> '<=?' (auto)", "breaks": [], "mod": "Pb", "id": "w0_020"}}
{"mid": "w0_021", "lemmas": ["Toy.toy_ys_ok"], "hard": [], "failed": ["C21_refuted", "C44_refuted", "C45_close_refuted", "C46_refuted", "C49_refuted", "C50_refuted", "C53_refuted", "C60_refuted", "C74_generate_refuted", "C95_no_panic_refuted", "C95_repeated_call_refuted"], "secs": 186, "early": true, "m": {"edits": [["Keys.v", " _) => if d =? 1 then", " _) => if d =? 2 then"]], "definition": "mod_inverse", "desc": "Keys: '1' -> '2' (auto)", "breaks": [], "mod": "Keys", "id": "w0_021"}}
{"mid": "w0_018", "lemmas": [], "hard": [], "failed": [], "secs": 322, "m": {"edits": [["Fs.v", "= u * 64 + g * 8 + o.", "= u * 64 + g * 9 + o."]], "definition": "oct", "desc": "Fs: '8' -> '9' (auto)", "breaks": [], "mod": "Fs", "id": "w0_018"}}
{"mid": "w0_022", "lemmas": ["FsProofs.sf_ops_trace"], "hard": [], "failed": ["C42_stored_objects", "C42_write_atomic", "C42_write_outcome", "C43_generate", "C43_generate_exit_status", "C44_old_or_new_partial", "C45_decrypt_to_file_partial", "C48_encrypt_exact", "C48_unresolved", "C49_sign_partial", "C50_new_pair_partial", "C51_encrypt_then_decrypt", "C52_sign_then_verify", "C65_generate_encrypt_decrypt", "C66_generate_sign_verify", "C68_only_outputs", "C73_encrypt_words", "C73_sign_words", "C74_failure_changes_nothing_partial", "C75_generated_pair", "C75_permissions", "C77_concurrent_runs", "C78_history_partial", "C80_generate", "C80_sign", "C97_generate"], "secs": 9, "early": true, "m": {"edits": [["Fs.v", "&&", "||"]], "definition": "sf_ops", "desc": "Fs: '&&' -> '||' (auto)", "breaks": [], "mod": "Fs", "id": "w0_022"}}
{"mid": "w0_023", "lemmas": ["EncryptProofs.wrap_key_spec"], "hard": [], "failed": ["C01_encrypt_decrypt_round_trip", "C01_encrypt_succeeds", "C02_stream_round_trip", "C02_stream_writes_succeed", "C03_encrypted_file_streams", "C03_stream_file_decrypts", "C04_fragmentation_independent", "C04_stream_agrees_with_encrypt", "C04_stream_write_sizes_irrelevant", "C05_file_format", "C05_stream_format", "C06_chunks", "C06_stream_chunks", "C07_nonces_distinct_partial", "C07_refuted_counter_wraps", "C07_refuted_second_encrypt", "C07_stream_nonces_distinct_partial", "C07_stream_refuted_counter_wraps", "C08_tampered_header", "C08_tampered_stream_header", "C09_truncated_file", "C09_truncated_stream", "C10_complete_partial", "C10_refuted_truncation", "C10_stream_complete_partial", "C11_released_data_genuine", "C13_refuted_recipient_forges", "C14_refuted", "C16_own_entry_opens", "C16_recipients_agree", "C20_refuted", "C21_encrypt_errors_partial", "C23_chunk_size_partial", "C23_refuted", "C24_recipients_partial", "C24_refuted", "C27_writes", "C29_refuted", "C48_encrypt_succeeds", "C51_encrypt_then_decrypt", "C56_encrypt_ends", "C57_encrypt_size", "C57_stream_size", "C58_file_randomness", "C58_stream_randomness", "C59_encrypt_against_stream", "C61_rejected_exactly", "C63_output_genuine", "C64_encrypt_succeeds", "C64_pipeline", "C65_generate_encrypt_decrypt", "C72_unverified_refuted", "C73_encrypt_words", "C76_origin_partial", "C76_stream_origin_partial", "C81_content_hidden", "C81_stream_content_hidden", "C82_recipients_hidden", "C83_anonymous", "C83_sender_hidden", "C83_stream_anonymous", "C83_stream_sender_hidden", "C84_many_files_any_reader_partial", "C84_many_files_partial", "C84_next_file_untouched_partial", "C84_refuted", "C84_stream_next_file_untouched_partial", "C84_stream_refuted", "C85_encryptor_never_panics", "C87_follow_along", "C88_any_form", "C93_both_ends", "C93_discloses", "C95_set_key_midway_partial"], "secs": 23, "early": true, "m": {"edits": [["Encrypt.v", "buf in\n          let nonce := drop aes_key_si", "buf in\n          let nonce := take aes_key_si"]], "definition": "wrap_key", "desc": "Encrypt: 'drop' -> 'take' (auto)", "breaks": [], "mod": "Encrypt", "id": "w0_023"}}
{"mid": "w0_024", "lemmas": ["Thm_Told.dec_body_talk"], "hard": [], "failed": ["C96_failure_is_reported", "C96_success_is_silent", "C96_texts"], "secs": 25, "early": true, "m": {"edits": [["Told.v", "if authenticated_sender d\n                              ", "if negb (authenticated_sender d) "]], "definition": "dec_body_told", "desc": "Told: 'if authenticated_sender d' -> 'if negb (authenticated_sender d)' (auto)", "breaks": [], "mod": "Told", "id": "w0_024"}}
{"mid": "w0_025", "lemmas": ["CliProofs.enc_body_spec"], "hard": [], "failed": ["C44_old_or_new_partial", "C48_encrypt_exact", "C48_unresolved", "C51_encrypt_then_decrypt", "C65_generate_encrypt_decrypt", "C73_encrypt_words", "C74_failure_changes_nothing_partial"], "secs": 11, "early": true, "m": {"edits": [["Cli.v", "if 0 <? errs ", "if negb (0 <? errs) "]], "definition": "enc_body", "desc": "Cli: 'if 0 <? errs' -> 'if negb (0 <? errs)' (auto)", "breaks": [], "mod": "Cli", "id": "w0_025"}}
{"mid": "w0_027", "lemmas": ["IOProofs.read_full_short"], "hard": [], "failed": ["C01_encrypt_decrypt_round_trip", "C01_encrypt_succeeds", "C02_stream_round_trip", "C03_encrypted_file_streams", "C03_stream_file_decrypts", "C04_fragmentation_independent", "C04_stream_agrees_with_encrypt", "C05_file_format", "C06_chunks", "C07_nonces_distinct_partial", "C07_refuted_counter_wraps", "C07_refuted_second_encrypt", "C08_accepted_header", "C08_tampered_header", "C08_tampered_stream_header", "C09_truncated_file", "C09_truncated_stream", "C10_complete_partial", "C10_refuted_truncation", "C10_stream_complete_partial", "C11_released_data_genuine", "C13_content_signed_partial", "C13_refuted_recipient_forges", "C13_stream_signed_partial", "C14_refuted", "C16_recipients_agree", "C20_refuted", "C21_encrypt_errors_partial", "C23_refuted", "C24_recipients_partial", "C24_refuted", "C29_refuted", "C29_single_reader_partial", "C48_encrypt_succeeds", "C51_encrypt_then_decrypt", "C57_encrypt_size", "C58_file_randomness", "C59_encrypt_against_stream", "C63_output_genuine", "C64_encrypt_succeeds", "C64_pipeline", "C65_generate_encrypt_decrypt", "C69_stream_and_decrypt_agree", "C70_one_file_per_encryptor", "C72_unverified_refuted", "C73_encrypt_words", "C76_origin_partial", "C76_stream_origin_partial", "C81_content_hidden", "C83_anonymous", "C83_sender_hidden", "C84_many_files_any_reader_partial", "C84_many_files_partial", "C84_next_file_untouched_partial", "C84_refuted", "C84_stream_next_file_untouched_partial", "C84_stream_refuted", "C87_follow_along", "C88_any_form", "C93_both_ends", "C93_discloses", "C95_set_key_midway_partial"], "secs": 9, "early": true, "m": {"edits": [["GoIO.v", "(b, Some (if 0 <? len ", "(b, Some (if 0 <=? len "]], "definition": "read_full", "desc": "GoIO: '<?' -> '<=?' (auto)", "breaks": [], "mod": "GoIO", "id": "w0_027"}}
{"mid": "w0_028", "lemmas": ["Thm_Debug.hex_hexed"], "hard": [], "failed": ["C93_discloses", "C93_encryptor_messages"], "secs": 3, "early": true, "m": {"edits": [["Debug.v", "git (b2z b mod 16) :: ", "git (b2z b mod 17) :: "]], "definition": "hex", "desc": "Debug: '16' -> '17' (auto)", "breaks": [], "mod": "Debug", "id": "w0_028"}}
{"mid": "w0_026", "lemmas": ["Thm_Files.C42_stored_objects"], "hard": [], "failed": ["C42_stored_objects"], "secs": 96, "early": true, "m": {"edits": [["Store.v", "te_file v (oct 6 0 0)", "te_file v (oct 7 0 0)"]], "definition": "serialize_private", "desc": "Store: '6' -> '7' (auto)", "breaks": [], "mod": "Store", "id": "w0_026"}}
{"mid": "w0_030", "lemmas": ["PbProofs.get_bytes_spec"], "hard": [], "failed": ["C01_encrypt_decrypt_round_trip", "C02_stream_round_trip", "C03_encrypted_file_streams", "C03_stream_file_decrypts", "C05_file_format", "C05_stream_format", "C09_truncated_file", "C09_truncated_stream", "C10_complete_partial", "C10_refuted_truncation", "C10_stream_complete_partial", "C11_released_data_genuine", "C13_refuted_recipient_forges", "C14_refuted", "C16_recipients_agree", "C20_refuted", "C23_refuted", "C24_recipients_partial", "C24_refuted", "C29_refuted", "C51_encrypt_then_decrypt", "C63_output_genuine", "C64_pipeline", "C65_generate_encrypt_decrypt", "C72_unverified_refuted", "C73_encrypt_words", "C84_many_files_any_reader_partial", "C84_many_files_partial", "C84_next_file_untouched_partial", "C84_refuted", "C84_stream_next_file_untouched_partial", "C84_stream_refuted", "C87_follow_along", "C88_any_form", "C93_both_ends", "C95_set_key_midway_partial"], "secs": 24, "early": true, "m": {"edits": [["Pb.v", "    if post <? 0 then", "    if post <? 1 then"]], "definition": "get_bytes", "desc": "Pb: '0' -> '1' (auto)", "breaks": [], "mod": "Pb", "id": "w0_030"}}
{"mid": "w0_031", "lemmas": ["Thm_KeyFiles.looks_iff"], "hard": [], "failed": ["C34_comment_refuted", "C34_private_round_trip_partial", "C35_private_partial", "C35_stale_refuted", "C36_openssh_refuted", "C36_private_panics_exactly", "C36_private_refuted", "C42_stored_objects", "C43_pair_usable_partial", "C56_decrypt_ends", "C56_encrypt_ends", "C56_sign_ends", "C65_generate_encrypt_decrypt", "C66_generate_sign_verify", "C67_one_key", "C67_private_exact", "C73_encrypt_words", "C73_sign_words", "C80_sign", "C88_any_form", "C98_rewritten_key"], "secs": 15, "early": true, "m": {"edits": [["KeyFiles.v", "with Some i => 0 <? i", "with Some i => 1 <? i"]], "definition": "looks_openssh", "desc": "KeyFiles: '0' -> '1' (auto)", "breaks": [], "mod": "KeyFiles", "id": "w0_031"}}
{"mid": "w0_032", "error": "edit does not compile: File \"./theories/Cli.v\", line 275, characters 11-25:\nError: No interpretation for string \": Signature \".\n\n", "m": {"edits": [["Cli.v", " bytes :=\n  fn ++ str \": S", " bytes :=\n  fn ++ [] \": S"]], "definition": "verify_text", "desc": "Cli: '++ str' -> '++ []' (auto)", "breaks": [], "mod": "Cli", "id": "w0_032"}}
{"mid": "w0_033", "lemmas": ["OpenProofs.set_private_key_spec"], "hard": [], "failed": ["C01_encrypt_decrypt_round_trip", "C02_stream_round_trip", "C03_encrypted_file_streams", "C03_stream_file_decrypts", "C09_truncated_file", "C09_truncated_stream", "C10_complete_partial", "C10_refuted_truncation", "C10_stream_complete_partial", "C11_released_data_genuine", "C12_authenticated_means_signed", "C13_content_signed_partial", "C13_refuted_recipient_forges", "C13_stream_signed_partial", "C14_refuted", "C14_signed_file_partial", "C16_recipients_agree", "C20_no_panic_partial", "C28_read_discipline", "C29_refuted", "C29_single_reader_partial", "C46_sender_partial", "C51_encrypt_then_decrypt", "C63_output_genuine", "C64_pipeline", "C65_generate_encrypt_decrypt", "C69_stream_and_decrypt_agree", "C73_encrypt_words", "C76_origin_partial", "C76_stream_origin_partial", "C84_many_files_any_reader_partial", "C84_many_files_partial", "C84_next_file_untouched_partial", "C84_refuted", "C84_stream_next_file_untouched_partial", "C84_stream_refuted", "C87_follow_along", "C88_any_form", "C93_both_ends", "C95_set_key_midway_partial"], "secs": 105, "early": true, "m": {"edits": [["Decrypt.v", "th := d_auth d || sign", "th := d_auth d && sign"]], "definition": "set_private_key", "desc": "Decrypt: '||' -> '&&' (auto)", "breaks": [], "mod": "Decrypt", "id": "w0_033"}}
{"mid": "w0_034", "lemmas": ["IOProofs.delivers_nil_inv"], "hard": [], "failed": ["C01_encrypt_decrypt_round_trip", "C01_encrypt_succeeds", "C02_stream_round_trip", "C03_encrypted_file_streams", "C03_stream_file_decrypts", "C04_fragmentation_independent", "C04_stream_agrees_with_encrypt", "C05_file_format", "C06_chunks", "C07_nonces_distinct_partial", "C07_refuted_counter_wraps", "C07_refuted_second_encrypt", "C08_accepted_header", "C08_tampered_header", "C08_tampered_stream_header", "C09_truncated_file", "C09_truncated_stream", "C10_complete_partial", "C10_refuted_truncation", "C10_stream_complete_partial", "C11_released_data_genuine", "C13_content_signed_partial", "C13_refuted_recipient_forges", "C13_stream_signed_partial", "C14_refuted", "C16_recipients_agree", "C20_refuted", "C21_encrypt_errors_partial", "C23_refuted", "C24_recipients_partial", "C24_refuted", "C29_refuted", "C29_single_reader_partial", "C48_encrypt_succeeds", "C51_encrypt_then_decrypt", "C57_encrypt_size", "C58_file_randomness", "C59_encrypt_against_stream", "C63_output_genuine", "C64_encrypt_succeeds", "C64_pipeline", "C65_generate_encrypt_decrypt", "C69_stream_and_decrypt_agree", "C70_one_file_per_encryptor", "C72_unverified_refuted", "C73_encrypt_words", "C76_origin_partial", "C76_stream_origin_partial", "C81_content_hidden", "C83_anonymous", "C83_sender_hidden", "C84_many_files_any_reader_partial", "C84_many_files_partial", "C84_next_file_untouched_partial", "C84_refuted", "C84_stream_next_file_untouched_partial", "C84_stream_refuted", "C87_follow_along", "C88_any_form", "C93_both_ends", "C93_discloses", "C95_set_key_midway_partial"], "secs": 8, "early": true, "m": {"edits": [["GoIO.v", "if n =? len b ", "if negb (n =? len b) "]], "definition": "read_loop", "desc": "GoIO: 'if n =? len b' -> 'if negb (n =? len b)' (auto)", "breaks": [], "mod": "GoIO", "id": "w0_034"}}
{"mid": "w0_035", "lemmas": ["Thm_Commands.sign_body_spec"], "hard": [], "failed": ["C49_sign_partial", "C52_sign_then_verify", "C66_generate_sign_verify", "C73_sign_words", "C74_failure_changes_nothing_partial", "C80_sign"], "secs": 43, "early": true, "m": {"edits": [["Cli.v", "++ fn", "++ []"]], "definition": "sign_body", "desc": "Cli: '++ fn' -> '++ []' (auto)", "breaks": [], "mod": "Cli", "id": "w0_035"}}
{"mid": "w0_036", "lemmas": ["Thm_Race.set_rest_same"], "hard": [], "failed": ["C94_caches", "C94_goroutines_partial"], "secs": 3, "early": true, "m": {"edits": [["Race.v", "chunk (d_hdr d) + gcm_o", "chunk (d_hdr d) - gcm_o"]], "definition": "set_rest", "desc": "Race: '+' -> '-' (auto)", "breaks": [], "mod": "Race", "id": "w0_036"}}
{"mid": "w0_029", "lemmas": [], "hard": [], "failed": [], "secs": 319, "m": {"edits": [["Store.v", "rite : bool)\n  : list fop * res unit := write_file v (oct 6 4 4) f dst (marshal_s", "rite : bool)\n  : list fop * res unit := write_file v (oct 6 5 4) f dst (marshal_s"]], "definition": "serialize_signature", "desc": "Store: '4' -> '5' (auto)", "breaks": [], "mod": "Store", "id": "w0_029"}}
{"mid": "w0_038", "error": "edit does not compile: File \"./theories/KeyFiles.v\", line 29, characters 41-45:\nError: No interpretation for string \"pk\".\n\n", "m": {"edits": [["KeyFiles.v", "(su_comment r) ++ y_field \"pk\"", "(su_comment r) ++ [] \"pk\""]], "definition": "yaml_pub", "desc": "KeyFiles: '++ y_field' -> '++ []' (auto)", "breaks": [], "mod": "KeyFiles", "id": "w0_038"}}
{"mid": "w0_039", "lemmas": ["Base64Proofs.index_of_spec"], "hard": [], "failed": ["C32_signature_reading_exact", "C32_signature_round_trip", "C33_openssh_line", "C33_public_round_trip", "C33_yaml_exact", "C34_private_round_trip_partial", "C35_public_partial", "C36_private_panics_exactly", "C36_private_partial", "C36_private_refuted", "C36_public_panics_exactly", "C37_bad_blob_rejected", "C37_blob_exact", "C37_line_exact", "C37_line_partial", "C38_entries_partial", "C38_sound", "C40_decode_exact", "C40_refused", "C40_round_trip", "C42_stored_objects", "C43_pair_usable_partial", "C44_refuted", "C45_close_refuted", "C46_refuted", "C47_verify_exact", "C49_refuted", "C50_refuted", "C52_sign_then_verify", "C53_crash_exactly_partial", "C53_refuted", "C54_refuted", "C54_round_trip_partial", "C54_string_exact", "C56_decrypt_ends", "C56_encrypt_ends", "C56_sign_ends", "C62_verify_report", "C65_generate_encrypt_decrypt", "C66_generate_sign_verify", "C67_one_key", "C67_private_exact", "C67_public_exact", "C68_only_outputs", "C73_encrypt_words", "C73_sign_words", "C74_failure_changes_nothing_partial", "C74_generate_refuted", "C75_permissions", "C77_concurrent_runs", "C78_history_partial", "C79_verify_command", "C88_any_form", "C92_printed_signature_verifies", "C96_failure_is_reported", "C96_success_is_silent", "C96_texts", "C98_rewritten_key"], "secs": 2, "early": true, "m": {"edits": [["Base64.v", "ndex_of c l' (i + 1)\n  ", "ndex_of c l' (i - 1)\n  "]], "definition": "index_of", "desc": "Base64: '+' -> '-' (auto)", "breaks": [], "mod": "Base64", "id": "w0_039"}}
{"mid": "w0_037", "lemmas": ["SshProofs.auth_loop_fuel"], "hard": [], "failed": ["C38_entries_partial", "C38_sound", "C38_total_and_linewise", "C44_no_overwrite_partial", "C44_old_or_new_partial", "C48_encrypt_exact", "C48_unresolved", "C51_encrypt_then_decrypt", "C56_encrypt_ends", "C64_encrypt_to_stdout", "C64_pipeline", "C65_generate_encrypt_decrypt", "C68_only_outputs", "C73_encrypt_words", "C74_failure_changes_nothing_partial", "C75_permissions", "C77_concurrent_runs", "C78_history_partial", "C88_any_form", "C96_every_bad_recipient_named"], "secs": 84, "early": true, "m": {"edits": [["Ssh.v", " e inp, drop (e + 1) inp", " e inp, drop (e + 2) inp"]], "definition": "auth_loop", "desc": "Ssh: '+ 1' -> '+ 2' (auto)", "breaks": [], "mod": "Ssh", "id": "w0_037"}}
{"mid": "w0_041", "lemmas": ["EncryptProofs.enc_start_spec"], "hard": [], "failed": ["C01_encrypt_decrypt_round_trip", "C01_encrypt_succeeds", "C02_stream_round_trip", "C02_stream_writes_succeed", "C03_encrypted_file_streams", "C03_stream_file_decrypts", "C04_fragmentation_independent", "C04_stream_agrees_with_encrypt", "C04_stream_write_sizes_irrelevant", "C05_file_format", "C05_stream_format", "C06_chunks", "C06_stream_chunks", "C07_nonces_distinct_partial", "C07_refuted_counter_wraps", "C07_refuted_second_encrypt", "C07_stream_nonces_distinct_partial", "C07_stream_refuted_counter_wraps", "C08_tampered_header", "C08_tampered_stream_header", "C09_truncated_file", "C09_truncated_stream", "C10_complete_partial", "C10_refuted_truncation", "C10_stream_complete_partial", "C11_released_data_genuine", "C13_refuted_recipient_forges", "C14_refuted", "C16_recipients_agree", "C20_refuted", "C21_encrypt_errors_partial", "C23_refuted", "C24_recipients_partial", "C24_refuted", "C27_writes", "C29_refuted", "C48_encrypt_succeeds", "C51_encrypt_then_decrypt", "C56_encrypt_ends", "C57_encrypt_size", "C57_stream_size", "C58_file_randomness", "C58_stream_randomness", "C59_encrypt_against_stream", "C63_output_genuine", "C64_encrypt_succeeds", "C64_pipeline", "C65_generate_encrypt_decrypt", "C72_unverified_refuted", "C73_encrypt_words", "C76_origin_partial", "C76_stream_origin_partial", "C81_content_hidden", "C81_stream_content_hidden", "C83_anonymous", "C83_sender_hidden", "C83_stream_anonymous", "C83_stream_sender_hidden", "C84_many_files_any_reader_partial", "C84_many_files_partial", "C84_next_file_untouched_partial", "C84_refuted", "C84_stream_next_file_untouched_partial", "C84_stream_refuted", "C85_encryptor_never_panics", "C87_follow_along", "C88_any_form", "C93_both_ends", "C93_discloses", "C93_encryptor_messages", "C95_set_key_midway_partial"], "secs": 20, "early": true, "m": {"edits": [["Encrypt.v", " C (sha256_size + aes_k", " C (sha256_size - aes_k"]], "definition": "enc_start", "desc": "Encrypt: '+' -> '-' (auto)", "breaks": [], "mod": "Encrypt", "id": "w0_041"}}
{"mid": "w0_042", "lemmas": ["Thm_Flags.sign_same"], "hard": [], "failed": ["C100_texts", "C71_command", "C71_options", "C72_unverified_refuted", "C73_encrypt_words", "C73_sign_words", "C96_same_outcome", "C99_every_command_line", "C99_misspelt_refuted", "C99_zero_partial"], "secs": 16, "early": true, "m": {"edits": [["Flags.v", "efinition sign_flags : list flag :=\n  [fl \"help\" (Some x68) true; fl \"no-password\" N", "efinition sign_flags : list flag :=\n  [fl \"help\" (Some x68) false; fl \"no-password\" N"]], "definition": "sign_flags", "desc": "Flags: 'true' -> 'false' (auto)", "breaks": [], "mod": "Flags", "id": "w0_042"}}
{"mid": "w0_040", "lemmas": ["Thm_KeyFiles.priv_ok"], "hard": [], "failed": ["C35_private_partial", "C80_sign"], "secs": 187, "early": true, "m": {"edits": [["Keys.v", "sha512 C (take 32 (sk_", "sha512 C (take 33 (sk_"]], "definition": "to_curve_sk", "desc": "Keys: '32' -> '33' (auto)", "breaks": [], "mod": "Keys", "id": "w0_040"}}
{"mid": "w0_044", "lemmas": ["Thm_Amplify.sane_keep"], "hard": [], "failed": ["C86_no_amplification"], "secs": 202, "early": true, "m": {"edits": [["Stream.v", "then (s, Some (take (er_l", "then (s, Some (drop (er_l"]], "definition": "er_keep", "desc": "Stream: 'take' -> 'drop' (auto)", "breaks": [], "mod": "Stream", "id": "w0_044"}}
{"mid": "w0_043", "lemmas": ["KeysProofs.clamp_value"], "hard": [], "failed": ["C41_private_key_conversion"], "secs": 327, "early": true, "m": {"edits": [["Keys.v", "7)) k in\n  upd 31 (fun", "7)) k in\n  upd 32 (fun"]], "definition": "clamp", "desc": "Keys: '31' -> '32' (auto)", "breaks": [], "mod": "Keys", "id": "w0_043"}}
{"mid": "w0_045", "lemmas": ["Thm_KeyFiles.unmarshal_yaml"], "hard": [], "failed": ["C34_private_round_trip_partial", "C42_stored_objects", "C43_pair_usable_partial", "C65_generate_encrypt_decrypt", "C66_generate_sign_verify", "C73_encrypt_words", "C73_sign_words", "C98_rewritten_key"], "secs": 18, "early": true, "m": {"edits": [["KeyFiles.v", " - ", " + "]], "definition": "b64_spare", "desc": "KeyFiles: '-' -> '+' (auto)", "breaks": [], "mod": "KeyFiles", "id": "w0_045"}}
{"mid": "w0_046", "lemmas": ["EncryptProofs.chunk_nonce_spec"], "hard": [], "failed": ["C01_encrypt_decrypt_round_trip", "C01_encrypt_succeeds", "C02_stream_round_trip", "C02_stream_writes_succeed", "C03_encrypted_file_streams", "C03_stream_file_decrypts", "C04_fragmentation_independent", "C04_stream_agrees_with_encrypt", "C04_stream_write_sizes_irrelevant", "C05_file_format", "C05_stream_format", "C06_chunks", "C06_stream_chunks", "C07_nonces_distinct_partial", "C07_refuted_counter_wraps", "C07_refuted_second_encrypt", "C07_stream_nonces_distinct_partial", "C07_stream_refuted_counter_wraps", "C08_tampered_header", "C08_tampered_stream_header", "C09_truncated_file", "C09_truncated_stream", "C10_complete_partial", "C10_refuted_truncation", "C10_stream_complete_partial", "C11_released_data_genuine", "C13_content_signed_partial", "C13_refuted_recipient_forges", "C13_stream_signed_partial", "C14_refuted", "C16_recipients_agree", "C20_refuted", "C21_encrypt_errors_partial", "C23_refuted", "C24_recipients_partial", "C24_refuted", "C27_writes", "C29_refuted", "C29_single_reader_partial", "C48_encrypt_succeeds", "C51_encrypt_then_decrypt", "C56_encrypt_ends", "C57_encrypt_size", "C57_stream_size", "C58_file_randomness", "C58_stream_randomness", "C59_encrypt_against_stream", "C63_output_genuine", "C64_encrypt_succeeds", "C64_pipeline", "C65_generate_encrypt_decrypt", "C69_stream_and_decrypt_agree", "C72_unverified_refuted", "C73_encrypt_words", "C76_origin_partial", "C76_stream_origin_partial", "C81_content_hidden", "C81_stream_content_hidden", "C83_anonymous", "C83_sender_hidden", "C83_stream_anonymous", "C83_stream_sender_hidden", "C84_many_files_any_reader_partial", "C84_many_files_partial", "C84_next_file_untouched_partial", "C84_refuted", "C84_stream_next_file_untouched_partial", "C84_stream_refuted", "C85_encryptor_never_panics", "C87_follow_along", "C88_any_form", "C93_both_ends", "C93_discloses", "C95_set_key_midway_partial"], "secs": 10, "early": true, "m": {"edits": [["Encrypt.v", " src ++ zeros (12 - le", " src ++ zeros (13 - le"]], "definition": "chunk_nonce", "desc": "Encrypt: '12' -> '13' (auto)", "breaks": [], "mod": "Encrypt", "id": "w0_046"}}
{"mid": "w0_047", "lemmas": ["Thm_Flags.main_same"], "hard": [], "failed": ["C100_texts", "C71_command", "C71_options", "C72_unverified_refuted", "C73_encrypt_words", "C73_sign_words", "C93_option", "C99_every_command_line", "C99_misspelt_refuted", "C99_zero_partial"], "secs": 18, "early": true, "m": {"edits": [["Flags.v", "6) true; fl \"help\" (Some x68) true; fl \"debu", "6) true; fl \"help\" (Some x68) false; fl \"debu"]], "definition": "main_flags", "desc": "Flags: 'true' -> 'false' (auto)", "breaks": [], "mod": "Flags", "id": "w0_047"}}
{"mid": "w0_048", "lemmas": ["PbProofs.size_keys_spec"], "hard": [], "failed": ["C01_encrypt_decrypt_round_trip", "C01_encrypt_succeeds", "C02_stream_round_trip", "C02_stream_writes_succeed", "C03_encrypted_file_streams", "C03_stream_file_decrypts", "C04_fragmentation_independent", "C04_stream_agrees_with_encrypt", "C04_stream_write_sizes_irrelevant", "C05_file_format", "C05_stream_format", "C06_chunks", "C06_stream_chunks", "C07_nonces_distinct_partial", "C07_refuted_counter_wraps", "C07_refuted_second_encrypt", "C07_stream_nonces_distinct_partial", "C07_stream_refuted_counter_wraps", "C08_tampered_header", "C08_tampered_stream_header", "C09_truncated_file", "C09_truncated_stream", "C10_complete_partial", "C10_refuted_truncation", "C10_stream_complete_partial", "C11_released_data_genuine", "C13_refuted_recipient_forges", "C14_refuted", "C16_recipients_agree", "C20_refuted", "C21_encrypt_errors_partial", "C23_refuted", "C24_recipients_partial", "C24_refuted", "C25_header_codec_round_trip", "C26_reencode", "C27_writes", "C29_refuted", "C48_encrypt_succeeds", "C51_encrypt_then_decrypt", "C56_encrypt_ends", "C57_encrypt_size", "C57_stream_size", "C58_file_randomness", "C58_stream_randomness", "C59_encrypt_against_stream", "C63_output_genuine", "C64_encrypt_succeeds", "C64_pipeline", "C65_generate_encrypt_decrypt", "C72_unverified_refuted", "C73_encrypt_words", "C76_origin_partial", "C76_stream_origin_partial", "C81_content_hidden", "C81_stream_content_hidden", "C83_anonymous", "C83_sender_hidden", "C83_stream_anonymous", "C83_stream_sender_hidden", "C84_many_files_any_reader_partial", "C84_many_files_partial", "C84_next_file_untouched_partial", "C84_refuted", "C84_stream_next_file_untouched_partial", "C84_stream_refuted", "C85_encryptor_never_panics", "C87_follow_along", "C88_any_form", "C93_both_ends", "C93_discloses", "C93_encryptor_messages", "C95_set_key_midway_partial"], "secs": 25, "early": true, "m": {"edits": [["Pb.v", "with\n  | [] => 0\n  | ", "with\n  | [] => 1\n  | "]], "definition": "size_keys", "desc": "Pb: '0' -> '1' (auto)", "breaks": [], "mod": "Pb", "id": "w0_048"}}
{"mid": "w0_050", "lemmas": ["PbProofs.get_varint_leb"], "hard": [], "failed": ["C01_encrypt_decrypt_round_trip", "C02_stream_round_trip", "C03_encrypted_file_streams", "C03_stream_file_decrypts", "C05_file_format", "C05_stream_format", "C09_truncated_file", "C09_truncated_stream", "C10_complete_partial", "C10_refuted_truncation", "C10_stream_complete_partial", "C11_released_data_genuine", "C13_refuted_recipient_forges", "C14_refuted", "C16_recipients_agree", "C20_refuted", "C23_refuted", "C24_recipients_partial", "C24_refuted", "C29_refuted", "C51_encrypt_then_decrypt", "C63_output_genuine", "C64_pipeline", "C65_generate_encrypt_decrypt", "C72_unverified_refuted", "C73_encrypt_words", "C84_many_files_any_reader_partial", "C84_many_files_partial", "C84_next_file_untouched_partial", "C84_refuted", "C84_stream_next_file_untouched_partial", "C84_stream_refuted", "C87_follow_along", "C88_any_form", "C93_both_ends", "C95_set_key_midway_partial"], "secs": 18, "early": true, "m": {"edits": [["Pb.v", "O => Panic \"varint: out of fuel\"\n  | S f =>\n      if 64 <=? shift then Fail (EMsg \"proto: integer overflow\")\n      else if l <=? idx then Fail ErrUnexpectedEOF\n      else\n  ", "O => Panic \"varint: out of fuel\"\n  | S f =>\n      if 64 <=? shift then Fail (EMsg \"proto: integer overflow\")\n      else if negb (l <=? idx) then Fail ErrUnexpectedEOF\n      else\n  "]], "definition": "get_varint", "desc": "Pb: 'if l <=? idx' -> 'if negb (l <=? idx)' (auto)", "breaks": [], "mod": "Pb", "id": "w0_050"}}
{"mid": "w0_051", "lemmas": ["Thm_Flags.enc_same"], "hard": [], "failed": ["C100_texts", "C71_command", "C71_options", "C72_unverified_refuted", "C73_encrypt_words", "C73_sign_words", "C99_every_command_line", "C99_misspelt_refuted", "C99_zero_partial"], "secs": 17, "early": true, "m": {"edits": [["Flags.v", "ign\" (Some x73) false; fl \"no-password\" None true; fl \"env-passw", "ign\" (Some x73) false; fl \"no-password\" None false; fl \"env-passw"]], "definition": "enc_flags", "desc": "Flags: 'true' -> 'false' (auto)", "breaks": [], "mod": "Flags", "id": "w0_051"}}
{"mid": "w0_052", "lemmas": ["Thm_Flags.C71_command"], "hard": [], "failed": ["C100_texts", "C71_command", "C72_unverified_refuted", "C73_encrypt_words", "C73_sign_words", "C99_every_command_line", "C99_zero_partial"], "secs": 21, "early": true, "m": {"edits": [["Flags.v", "31-50 *)\n  (fun argv => ended 2 (parse_ar", "31-50 *)\n  (fun argv => ended 3 (parse_ar"]], "definition": "declared", "desc": "Flags: '2' -> '3' (auto)", "breaks": [], "mod": "Flags", "id": "w0_052"}}
{"mid": "w0_049", "lemmas": ["Thm_Files.C43_generate"], "hard": [], "failed": ["C43_generate", "C50_new_pair_partial", "C65_generate_encrypt_decrypt", "C66_generate_sign_verify", "C73_encrypt_words", "C73_sign_words"], "secs": 90, "early": true, "m": {"edits": [["Store.v", "t : bytes) (overwrite : bool)\n  : list fop * res unit := write_file v (oct 6 4 4) f dst (marshal_publ", "t : bytes) (overwrite : bool)\n  : list fop * res unit := write_file v (oct 7 4 4) f dst (marshal_publ"]], "definition": "serialize_public", "desc": "Store: '6' -> '7' (auto)", "breaks": [], "mod": "Store", "id": "w0_049"}}
{"mid": "w0_053", "lemmas": ["EncryptProofs.new_encryptor_spec"], "hard": [], "failed": ["C01_encrypt_decrypt_round_trip", "C01_encrypt_succeeds", "C02_stream_round_trip", "C02_stream_writes_succeed", "C03_encrypted_file_streams", "C03_stream_file_decrypts", "C04_fragmentation_independent", "C04_stream_agrees_with_encrypt", "C04_stream_write_sizes_irrelevant", "C05_file_format", "C05_stream_format", "C06_chunks", "C06_stream_chunks", "C07_nonces_distinct_partial", "C07_refuted_counter_wraps", "C07_refuted_second_encrypt", "C07_stream_nonces_distinct_partial", "C07_stream_refuted_counter_wraps", "C08_tampered_header", "C08_tampered_stream_header", "C09_truncated_file", "C09_truncated_stream", "C10_complete_partial", "C10_refuted_truncation", "C10_stream_complete_partial", "C11_released_data_genuine", "C13_refuted_recipient_forges", "C14_refuted", "C16_own_entry_opens", "C16_recipients_agree", "C20_refuted", "C21_encrypt_errors_partial", "C23_chunk_size_partial", "C23_refuted", "C24_recipients_partial", "C24_refuted", "C27_writes", "C29_refuted", "C48_encrypt_succeeds", "C51_encrypt_then_decrypt", "C56_encrypt_ends", "C57_encrypt_size", "C57_stream_size", "C58_file_randomness", "C58_stream_randomness", "C59_encrypt_against_stream", "C61_rejected_exactly", "C63_output_genuine", "C64_encrypt_succeeds", "C64_pipeline", "C65_generate_encrypt_decrypt", "C72_unverified_refuted", "C73_encrypt_words", "C76_origin_partial", "C76_stream_origin_partial", "C81_content_hidden", "C81_stream_content_hidden", "C82_recipients_hidden", "C83_anonymous", "C83_sender_hidden", "C83_stream_anonymous", "C83_stream_sender_hidden", "C84_many_files_any_reader_partial", "C84_many_files_partial", "C84_next_file_untouched_partial", "C84_refuted", "C84_stream_next_file_untouched_partial", "C84_stream_refuted", "C85_encryptor_never_panics", "C87_follow_along", "C88_any_form", "C93_both_ends", "C93_discloses", "C95_set_key_midway_partial"], "secs": 16, "early": true, "m": {"edits": [["Encrypt.v", "ne esk sk auth false fals", "ne esk sk auth true fals"]], "definition": "new_encryptor", "desc": "Encrypt: 'false' -> 'true' (auto)", "breaks": [], "mod": "Encrypt", "id": "w0_053"}}
{"mid": "w0_055", "lemmas": ["BytesLemmas.take_firstn"], "hard": [], "failed": ["C01_encrypt_decrypt_round_trip", "C01_encrypt_succeeds", "C02_stream_round_trip", "C02_stream_writes_succeed", "C03_encrypted_file_streams", "C03_stream_file_decrypts", "C04_fragmentation_independent", "C04_stream_agrees_with_encrypt", "C04_stream_write_sizes_irrelevant", "C05_file_format", "C05_stream_format", "C06_chunks", "C06_stream_chunks", "C07_nonces_distinct_partial", "C07_refuted_counter_wraps", "C07_refuted_second_encrypt", "C07_stream_nonces_distinct_partial", "C07_stream_refuted_counter_wraps", "C08_accepted_header", "C08_tampered_header", "C08_tampered_stream_header", "C09_truncated_file", "C09_truncated_stream", "C100_options_missing_refuted", "C100_texts", "C10_complete_partial", "C10_refuted_truncation", "C10_stream_complete_partial", "C11_released_data_genuine", "C12_authenticated_means_signed", "C13_content_signed_partial", "C13_refuted_recipient_forges", "C13_stream_signed_partial", "C14_refuted", "C14_signed_file_partial", "C15_not_a_recipient", "C16_own_entry_opens", "C16_recipients_agree", "C19_new_decryptor_total", "C20_every_history_partial", "C20_no_panic_partial", "C20_refuted", "C21_encrypt_errors_partial", "C21_refuted", "C22_fullwrite_all_or_error", "C23_chunk_size_partial", "C23_refuted", "C24_recipients_partial", "C24_refuted", "C25_header_codec_round_trip", "C26_decoder_total_and_exact", "C26_reencode", "C27_writes", "C28_read_discipline", "C29_refuted", "C29_single_reader_partial", "C31_file_signature_binds", "C31_hash_input_injective", "C33_openssh_line", "C33_public_round_trip", "C34_private_round_trip_partial", "C35_private_partial", "C35_public_partial", "C36_openssh_refuted", "C36_private_panics_exactly", "C36_private_partial", "C36_public_panics_exactly", "C37_bad_blob_rejected", "C37_blob_exact", "C37_line_exact", "C37_line_partial", "C38_entries_partial", "C38_sound", "C38_total_and_linewise", "C39_container_exact", "C39_section_unique", "C41_conversions_agree", "C41_private_key_conversion", "C42_stored_objects", "C42_write_atomic", "C42_write_outcome", "C43_generate", "C43_generate_exit_status", "C43_pair_usable_partial", "C44_no_overwrite_partial", "C44_old_or_new_partial", "C44_refuted", "C45_close_refuted", "C45_decrypt_succeeds", "C45_decrypt_to_file_partial", "C46_refuted", "C46_sender_partial", "C47_verify_exact", "C48_encrypt_exact", "C48_encrypt_succeeds", "C48_unresolved", "C49_refuted", "C49_sign_partial", "C50_new_pair_partial", "C50_refuted", "C51_encrypt_then_decrypt", "C52_sign_then_verify", "C53_crash_exactly_partial", "C53_refuted", "C54_refuted", "C54_round_trip_partial", "C54_string_exact", "C56_decrypt_ends", "C56_encrypt_ends", "C56_sign_ends", "C57_encrypt_size", "C57_stream_size", "C58_file_randomness", "C58_stream_randomness", "C59_encrypt_against_stream", "C60_authenticated_exactly", "C60_last_call_decides_partial", "C60_refuted", "C61_rejected_exactly", "C61_rejected_recipients_leave_no_trace", "C62_verify_report", "C63_decrypt_to_stdout", "C63_output_genuine", "C64_encrypt_succeeds", "C64_encrypt_to_stdout", "C64_pipeline", "C65_generate_encrypt_decrypt", "C66_generate_sign_verify", "C67_one_key", "C67_private_exact", "C67_public_exact", "C68_only_outputs", "C69_stream_and_decrypt_agree", "C70_one_file_per_encryptor", "C72_unverified_refuted", "C73_encrypt_words", "C73_sign_words", "C74_failure_changes_nothing_partial", "C74_generate_refuted", "C75_generated_pair", "C75_permissions", "C76_origin_partial", "C76_stream_origin_partial", "C77_concurrent_runs", "C78_history_partial", "C79_verified_file", "C79_verify_command", "C80_generate", "C80_marshal", "C80_sign", "C81_content_hidden", "C81_stream_content_hidden", "C82_recipients_hidden", "C83_anonymous", "C83_sender_hidden", "C83_stream_anonymous", "C83_stream_sender_hidden", "C84_many_files_any_reader_partial", "C84_many_files_partial", "C84_next_file_untouched_partial", "C84_refuted", "C84_stream_next_file_untouched_partial", "C84_stream_refuted", "C85_encryptor_never_panics", "C86_no_amplification", "C87_follow_along", "C88_any_form", "C92_printed_signature_verifies", "C92_sign_exit_status", "C92_sign_to_stdout", "C93_both_ends", "C93_discloses", "C93_encryptor_messages", "C95_no_panic_refuted", "C95_repeated_call_refuted", "C95_set_key_midway_partial", "C96_every_bad_recipient_named", "C96_failure_is_reported", "C96_no_sender_warning", "C96_success_is_silent", "C96_texts", "C97_generate", "C98_rewritten_key"], "secs": 2, "early": true, "m": {"edits": [["Bytes.v", "[] => []\n  | x :: l' => if n <=? 0 then [] e", "[] => []\n  | x :: l' => if n <=? 1 then [] e"]], "definition": "take", "desc": "Bytes: '=? 0' -> '=? 1' (auto)", "breaks": [], "mod": "Bytes", "id": "w0_055"}}
{"mid": "w0_056", "lemmas": ["RoundTrip.decrypt_spec"], "hard": [], "failed": ["C01_encrypt_decrypt_round_trip", "C02_stream_round_trip", "C03_encrypted_file_streams", "C03_stream_file_decrypts", "C09_truncated_file", "C10_complete_partial", "C10_refuted_truncation", "C11_released_data_genuine", "C13_content_signed_partial", "C13_refuted_recipient_forges", "C14_refuted", "C51_encrypt_then_decrypt", "C63_output_genuine", "C64_pipeline", "C65_generate_encrypt_decrypt", "C69_stream_and_decrypt_agree", "C73_encrypt_words", "C76_origin_partial", "C84_many_files_any_reader_partial", "C84_many_files_partial", "C84_next_file_untouched_partial", "C84_refuted", "C88_any_form"], "secs": 97, "early": true, "m": {"edits": [["Decrypt.v", "(d_rd d))) d w 0\n  en", "(d_rd d))) d w 1\n  en"]], "definition": "decrypt", "desc": "Decrypt: '0' -> '1' (auto)", "breaks": [], "mod": "Decrypt", "id": "w0_056"}}
{"mid": "w0_057", "lemmas": ["PbProofs.put_varint_leb"], "hard": [], "failed": ["C01_encrypt_decrypt_round_trip", "C01_encrypt_succeeds", "C02_stream_round_trip", "C02_stream_writes_succeed", "C03_encrypted_file_streams", "C03_stream_file_decrypts", "C04_fragmentation_independent", "C04_stream_agrees_with_encrypt", "C04_stream_write_sizes_irrelevant", "C05_file_format", "C05_stream_format", "C06_chunks", "C06_stream_chunks", "C07_nonces_distinct_partial", "C07_refuted_counter_wraps", "C07_refuted_second_encrypt", "C07_stream_nonces_distinct_partial", "C07_stream_refuted_counter_wraps", "C08_tampered_header", "C08_tampered_stream_header", "C09_truncated_file", "C09_truncated_stream", "C10_complete_partial", "C10_refuted_truncation", "C10_stream_complete_partial", "C11_released_data_genuine", "C13_refuted_recipient_forges", "C14_refuted", "C16_recipients_agree", "C20_refuted", "C21_encrypt_errors_partial", "C23_refuted", "C24_recipients_partial", "C24_refuted", "C25_header_codec_round_trip", "C26_reencode", "C27_writes", "C29_refuted", "C48_encrypt_succeeds", "C51_encrypt_then_decrypt", "C56_encrypt_ends", "C57_encrypt_size", "C57_stream_size", "C58_file_randomness", "C58_stream_randomness", "C59_encrypt_against_stream", "C63_output_genuine", "C64_encrypt_succeeds", "C64_pipeline", "C65_generate_encrypt_decrypt", "C72_unverified_refuted", "C73_encrypt_words", "C76_origin_partial", "C76_stream_origin_partial", "C81_content_hidden", "C81_stream_content_hidden", "C83_anonymous", "C83_sender_hidden", "C83_stream_anonymous", "C83_stream_sender_hidden", "C84_many_files_any_reader_partial", "C84_many_files_partial", "C84_next_file_untouched_partial", "C84_refuted", "C84_stream_next_file_untouched_partial", "C84_stream_refuted", "C85_encryptor_never_panics", "C87_follow_along", "C88_any_form", "C93_both_ends", "C93_discloses", "C93_encryptor_messages", "C95_set_key_midway_partial"], "secs": 11, "early": true, "m": {"edits": [["Pb.v", "if 128 <=? v ", "if negb (128 <=? v) "]], "definition": "put_varint", "desc": "Pb: 'if 128 <=? v' -> 'if negb (128 <=? v)' (auto)", "breaks": [], "mod": "Pb", "id": "w0_057"}}
{"mid": "w0_058", "lemmas": ["OpenProofs.unwrap_key_spec"], "hard": [], "failed": ["C01_encrypt_decrypt_round_trip", "C02_stream_round_trip", "C03_encrypted_file_streams", "C03_stream_file_decrypts", "C09_truncated_file", "C09_truncated_stream", "C10_complete_partial", "C10_refuted_truncation", "C10_stream_complete_partial", "C11_released_data_genuine", "C12_authenticated_means_signed", "C13_content_signed_partial", "C13_refuted_recipient_forges", "C13_stream_signed_partial", "C14_refuted", "C14_signed_file_partial", "C15_not_a_recipient", "C16_recipients_agree", "C20_every_history_partial", "C20_no_panic_partial", "C20_refuted", "C28_read_discipline", "C29_refuted", "C29_single_reader_partial", "C46_sender_partial", "C51_encrypt_then_decrypt", "C60_authenticated_exactly", "C60_last_call_decides_partial", "C63_output_genuine", "C64_pipeline", "C65_generate_encrypt_decrypt", "C69_stream_and_decrypt_agree", "C72_unverified_refuted", "C73_encrypt_words", "C76_origin_partial", "C76_stream_origin_partial", "C84_many_files_any_reader_partial", "C84_many_files_partial", "C84_next_file_untouched_partial", "C84_refuted", "C84_stream_next_file_untouched_partial", "C84_stream_refuted", "C87_follow_along", "C88_any_form", "C93_both_ends", "C95_set_key_midway_partial"], "secs": 81, "early": true, "m": {"edits": [["Decrypt.v", "    let kek := take aes_k", "    let kek := drop aes_k"]], "definition": "unwrap_key", "desc": "Decrypt: 'take' -> 'drop' (auto)", "breaks": [], "mod": "Decrypt", "id": "w0_058"}}
{"mid": "w0_059", "lemmas": ["Thm_Told.sign_same"], "hard": [], "failed": ["C100_texts", "C71_command", "C71_options", "C72_unverified_refuted", "C73_encrypt_words", "C73_sign_words", "C96_same_outcome", "C99_every_command_line", "C99_misspelt_refuted", "C99_zero_partial"], "secs": 11, "early": true, "m": {"edits": [["Told.v", "old T W v (oct 6 4 4)", "old T W v (oct 7 4 4)"]], "definition": "sign_told", "desc": "Told: '6' -> '7' (auto)", "breaks": [], "mod": "Told", "id": "w0_059"}}
{"mid": "w0_060", "lemmas": ["CliProofs.names_ok"], "hard": [], "failed": ["C44_no_overwrite_partial", "C44_old_or_new_partial", "C45_decrypt_succeeds", "C45_decrypt_to_file_partial", "C48_encrypt_exact", "C48_encrypt_succeeds", "C48_unresolved", "C51_encrypt_then_decrypt", "C63_decrypt_to_stdout", "C63_output_genuine", "C64_encrypt_succeeds", "C64_encrypt_to_stdout", "C64_pipeline", "C65_generate_encrypt_decrypt", "C68_only_outputs", "C73_encrypt_words", "C74_failure_changes_nothing_partial", "C75_permissions", "C77_concurrent_runs", "C78_history_partial", "C90_one_destination"], "secs": 7, "early": true, "m": {"edits": [["Cli.v", "es) : bool := (0 <? l", "es) : bool := (1 <? l"]], "definition": "names_file", "desc": "Cli: '0' -> '1' (auto)", "breaks": [], "mod": "Cli", "id": "w0_060"}}
{"mid": "w0_061", "lemmas": ["DecryptProofs.process_trailer_spec"], "hard": [], "failed": ["C01_encrypt_decrypt_round_trip", "C02_stream_round_trip", "C03_encrypted_file_streams", "C03_stream_file_decrypts", "C09_truncated_file", "C09_truncated_stream", "C10_complete_partial", "C10_refuted_truncation", "C10_stream_complete_partial", "C11_released_data_genuine", "C13_content_signed_partial", "C13_refuted_recipient_forges", "C13_stream_signed_partial", "C14_refuted", "C29_refuted", "C29_single_reader_partial", "C51_encrypt_then_decrypt", "C63_output_genuine", "C64_pipeline", "C65_generate_encrypt_decrypt", "C69_stream_and_decrypt_agree", "C73_encrypt_words", "C76_origin_partial", "C76_stream_origin_partial", "C84_many_files_any_reader_partial", "C84_many_files_partial", "C84_next_file_untouched_partial", "C84_refuted", "C84_stream_next_file_untouched_partial", "C84_stream_refuted", "C87_follow_along", "C88_any_form", "C95_set_key_midway_partial"], "secs": 12, "early": true, "m": {"edits": [["Decrypt.v", "ne =>\n      if negb (d_aut", "ne =>\n      if id (d_aut"]], "definition": "process_trailer", "desc": "Decrypt: 'negb (' -> 'id (' (auto)", "breaks": [], "mod": "Decrypt", "id": "w0_061"}}
{"mid": "w0_062", "lemmas": ["OpenProofs.wkeys_sane_spec"], "hard": [], "failed": ["C01_encrypt_decrypt_round_trip", "C02_stream_round_trip", "C03_encrypted_file_streams", "C03_stream_file_decrypts", "C08_accepted_header", "C08_tampered_header", "C08_tampered_stream_header", "C09_truncated_file", "C09_truncated_stream", "C10_complete_partial", "C10_refuted_truncation", "C10_stream_complete_partial", "C11_released_data_genuine", "C12_authenticated_means_signed", "C13_content_signed_partial", "C13_refuted_recipient_forges", "C13_stream_signed_partial", "C14_refuted", "C14_signed_file_partial", "C15_not_a_recipient", "C16_recipients_agree", "C19_new_decryptor_total", "C20_every_history_partial", "C20_no_panic_partial", "C20_refuted", "C23_refuted", "C24_recipients_partial", "C24_refuted", "C28_read_discipline", "C29_refuted", "C29_single_reader_partial", "C46_sender_partial", "C51_encrypt_then_decrypt", "C56_decrypt_ends", "C60_authenticated_exactly", "C60_last_call_decides_partial", "C63_output_genuine", "C64_pipeline", "C65_generate_encrypt_decrypt", "C69_stream_and_decrypt_agree", "C70_one_file_per_encryptor", "C72_unverified_refuted", "C73_encrypt_words", "C76_origin_partial", "C76_stream_origin_partial", "C84_many_files_any_reader_partial", "C84_many_files_partial", "C84_next_file_untouched_partial", "C84_refuted", "C84_stream_next_file_untouched_partial", "C84_stream_refuted", "C87_follow_along", "C88_any_form", "C93_both_ends", "C95_set_key_midway_partial", "C96_failure_is_reported", "C96_no_sender_warning", "C96_success_is_silent", "C96_texts"], "secs": 66, "early": true, "m": {"edits": [["Decrypt.v", "_key_size then false else", "_key_size then true else"]], "definition": "wkeys_sane", "desc": "Decrypt: 'false' -> 'true' (auto)", "breaks": [], "mod": "Decrypt", "id": "w0_062"}}
{"mid": "w0_063", "lemmas": ["DecryptProofs.dec_loop_S"], "hard": [], "failed": ["C01_encrypt_decrypt_round_trip", "C02_stream_round_trip", "C03_encrypted_file_streams", "C03_stream_file_decrypts", "C09_truncated_file", "C10_complete_partial", "C10_refuted_truncation", "C11_released_data_genuine", "C13_content_signed_partial", "C13_refuted_recipient_forges", "C14_refuted", "C18_nothing_after_decrypt", "C18_nothing_after_decrypt_every_history", "C20_every_history_partial", "C20_no_panic_partial", "C21_decrypt_write_errors", "C44_old_or_new_partial", "C45_decrypt_succeeds", "C45_decrypt_to_file_partial", "C46_sender_partial", "C51_encrypt_then_decrypt", "C56_decrypt_ends", "C63_decrypt_to_stdout", "C63_output_genuine", "C64_pipeline", "C65_generate_encrypt_decrypt", "C69_stream_and_decrypt_agree", "C73_encrypt_words", "C74_failure_changes_nothing_partial", "C76_origin_partial", "C84_many_files_any_reader_partial", "C84_many_files_partial", "C84_next_file_untouched_partial", "C84_refuted", "C86_no_amplification", "C88_any_form"], "secs": 21, "early": true, "m": {"edits": [["Decrypt.v", "n (d_set_eof d true, w, ", "n (d_set_eof d false, w, "]], "definition": "dec_loop", "desc": "Decrypt: 'true' -> 'false' (auto)", "breaks": [], "mod": "Decrypt", "id": "w0_063"}}
{"mid": "w0_064", "lemmas": ["SshKeyProofs.extract_ok"], "hard": [], "failed": ["C36_openssh_refuted", "C36_private_panics_exactly", "C39_container_exact", "C56_decrypt_ends", "C56_encrypt_ends", "C56_sign_ends", "C67_one_key", "C67_private_exact", "C88_any_form", "C98_rewritten_key"], "secs": 106, "early": true, "m": {"edits": [["Ssh.v", "=? 0) || (2^20 <? len ", "=? 0) || (2^20 <=? len "]], "definition": "bcrypt_key", "desc": "Ssh: '<?' -> '<=?' (auto)", "breaks": [], "mod": "Ssh", "id": "w0_064"}}
{"mid": "w0_054", "lemmas": [], "hard": [], "failed": [], "secs": 472, "m": {"edits": [["Ssh.v", "             | None => Ok []\n ", "             | None => id Ok []\n "]], "definition": "auth_line", "desc": "Ssh: 'None => Ok' -> 'None => id Ok' (auto)", "breaks": [], "mod": "Ssh", "id": "w0_054"}}
{"mid": "w0_065", "lemmas": ["Thm_KeyFiles.marshal_private_spec"], "hard": [], "failed": ["C34_comment_refuted", "C34_private_round_trip_partial", "C42_stored_objects", "C43_generate_exit_status", "C43_pair_usable_partial", "C65_generate_encrypt_decrypt", "C66_generate_sign_verify", "C73_encrypt_words", "C73_sign_words", "C80_generate", "C80_marshal", "C80_sign", "C92_sign_exit_status", "C92_sign_to_stdout", "C98_rewritten_key"], "secs": 129, "early": true, "m": {"edits": [["Crypto.v", " := Z.land n (n - 1) =? ", " := Z.land n (n - 0) =? "]], "definition": "is_pow2", "desc": "Crypto: '- 1' -> '- 0' (auto)", "breaks": [], "mod": "Crypto", "id": "w0_065"}}
{"mid": "w0_067", "lemmas": ["BytesLemmas.drop_skipn"], "hard": [], "failed": ["C01_encrypt_decrypt_round_trip", "C01_encrypt_succeeds", "C02_stream_round_trip", "C02_stream_writes_succeed", "C03_encrypted_file_streams", "C03_stream_file_decrypts", "C04_fragmentation_independent", "C04_stream_agrees_with_encrypt", "C04_stream_write_sizes_irrelevant", "C05_file_format", "C05_stream_format", "C06_chunks", "C06_stream_chunks", "C07_nonces_distinct_partial", "C07_refuted_counter_wraps", "C07_refuted_second_encrypt", "C07_stream_nonces_distinct_partial", "C07_stream_refuted_counter_wraps", "C08_accepted_header", "C08_tampered_header", "C08_tampered_stream_header", "C09_truncated_file", "C09_truncated_stream", "C100_options_missing_refuted", "C100_texts", "C10_complete_partial", "C10_refuted_truncation", "C10_stream_complete_partial", "C11_released_data_genuine", "C12_authenticated_means_signed", "C13_content_signed_partial", "C13_refuted_recipient_forges", "C13_stream_signed_partial", "C14_refuted", "C14_signed_file_partial", "C15_not_a_recipient", "C16_recipients_agree", "C19_new_decryptor_total", "C20_every_history_partial", "C20_no_panic_partial", "C20_refuted", "C21_encrypt_errors_partial", "C21_refuted", "C22_fullwrite_all_or_error", "C23_refuted", "C24_recipients_partial", "C24_refuted", "C25_header_codec_round_trip", "C26_decoder_total_and_exact", "C26_reencode", "C27_writes", "C28_read_discipline", "C29_refuted", "C29_single_reader_partial", "C31_file_signature_binds", "C31_hash_input_injective", "C33_openssh_line", "C35_private_partial", "C35_public_partial", "C36_openssh_refuted", "C36_private_panics_exactly", "C36_private_partial", "C36_public_panics_exactly", "C37_bad_blob_rejected", "C37_blob_exact", "C37_line_exact", "C37_line_partial", "C38_entries_partial", "C38_sound", "C38_total_and_linewise", "C39_container_exact", "C39_section_unique", "C42_stored_objects", "C42_write_atomic", "C42_write_outcome", "C43_generate", "C43_generate_exit_status", "C43_pair_usable_partial", "C44_no_overwrite_partial", "C44_old_or_new_partial", "C44_refuted", "C45_close_refuted", "C45_decrypt_succeeds", "C45_decrypt_to_file_partial", "C46_refuted", "C46_sender_partial", "C47_verify_exact", "C48_encrypt_exact", "C48_encrypt_succeeds", "C48_unresolved", "C49_refuted", "C49_sign_partial", "C50_new_pair_partial", "C50_refuted", "C51_encrypt_then_decrypt", "C52_sign_then_verify", "C53_crash_exactly_partial", "C53_refuted", "C54_refuted", "C54_round_trip_partial", "C54_string_exact", "C56_decrypt_ends", "C56_encrypt_ends", "C56_sign_ends", "C57_encrypt_size", "C57_stream_size", "C58_file_randomness", "C58_stream_randomness", "C59_encrypt_against_stream", "C60_authenticated_exactly", "C60_last_call_decides_partial", "C60_refuted", "C62_verify_report", "C63_decrypt_to_stdout", "C63_output_genuine", "C64_encrypt_succeeds", "C64_encrypt_to_stdout", "C64_pipeline", "C65_generate_encrypt_decrypt", "C66_generate_sign_verify", "C67_one_key", "C67_private_exact", "C67_public_exact", "C68_only_outputs", "C69_stream_and_decrypt_agree", "C70_one_file_per_encryptor", "C72_unverified_refuted", "C73_encrypt_words", "C73_sign_words", "C74_failure_changes_nothing_partial", "C74_generate_refuted", "C75_generated_pair", "C75_permissions", "C76_origin_partial", "C76_stream_origin_partial", "C77_concurrent_runs", "C78_history_partial", "C79_verified_file", "C79_verify_command", "C80_generate", "C80_sign", "C81_content_hidden", "C81_stream_content_hidden", "C83_anonymous", "C83_sender_hidden", "C83_stream_anonymous", "C83_stream_sender_hidden", "C84_many_files_any_reader_partial", "C84_many_files_partial", "C84_next_file_untouched_partial", "C84_refuted", "C84_stream_next_file_untouched_partial", "C84_stream_refuted", "C85_encryptor_never_panics", "C86_no_amplification", "C87_follow_along", "C88_any_form", "C92_printed_signature_verifies", "C92_sign_exit_status", "C92_sign_to_stdout", "C93_both_ends", "C93_discloses", "C93_encryptor_messages", "C95_no_panic_refuted", "C95_repeated_call_refuted", "C95_set_key_midway_partial", "C96_every_bad_recipient_named", "C96_failure_is_reported", "C96_no_sender_warning", "C96_success_is_silent", "C96_texts", "C97_generate", "C98_rewritten_key"], "secs": 1, "early": true, "m": {"edits": [["Bytes.v", " [] => []\n  | x :: l' => if n <=? 0 then l ", " [] => []\n  | x :: l' => if n <? 0 then l "]], "definition": "drop", "desc": "Bytes: '<=?' -> '<?' (auto)", "breaks": [], "mod": "Bytes", "id": "w0_067"}}
{"mid": "w0_068", "lemmas": [], "hard": [], "failed": [], "secs": 158, "m": {"edits": [["Fs.v", "e => match se_open v with Some e => Fail e | None => Ok tt end\n  end.\n", "e => match se_open v with Some e => Fail e | None => id Ok tt end\n  end.\n"]], "definition": "safe_open", "desc": "Fs: 'None => Ok' -> 'None => id Ok' (auto)", "breaks": [], "mod": "Fs", "id": "w0_068"}}
{"mid": "w0_069", "lemmas": ["Base64Proofs.b64_encode_text"], "hard": [], "failed": ["C32_signature_round_trip", "C33_public_round_trip", "C34_private_round_trip_partial", "C36_private_refuted", "C37_comment_refuted", "C37_line_partial", "C40_round_trip", "C42_stored_objects", "C43_pair_usable_partial", "C44_refuted", "C45_close_refuted", "C46_refuted", "C49_refuted", "C50_refuted", "C52_sign_then_verify", "C53_refuted", "C54_refuted", "C54_round_trip_partial", "C65_generate_encrypt_decrypt", "C66_generate_sign_verify", "C73_encrypt_words", "C73_sign_words", "C74_generate_refuted", "C92_printed_signature_verifies", "C96_failure_is_reported", "C96_success_is_silent", "C96_texts", "C98_rewritten_key"], "secs": 6, "early": true, "m": {"edits": [["Base64.v", "16 + b2z y * 2^8 + b2", "16 + b2z y * 2^9 + b2"]], "definition": "b64_encode", "desc": "Base64: '8' -> '9' (auto)", "breaks": [], "mod": "Base64", "id": "w0_069"}}
{"mid": "w0_070", "lemmas": ["PbProofs.header_step_gen"], "hard": [], "failed": ["C01_encrypt_decrypt_round_trip", "C02_stream_round_trip", "C03_encrypted_file_streams", "C03_stream_file_decrypts", "C05_file_format", "C05_stream_format", "C09_truncated_file", "C09_truncated_stream", "C10_complete_partial", "C10_refuted_truncation", "C10_stream_complete_partial", "C11_released_data_genuine", "C13_refuted_recipient_forges", "C14_refuted", "C16_recipients_agree", "C20_refuted", "C23_refuted", "C24_recipients_partial", "C24_refuted", "C29_refuted", "C51_encrypt_then_decrypt", "C63_output_genuine", "C64_pipeline", "C65_generate_encrypt_decrypt", "C72_unverified_refuted", "C73_encrypt_words", "C84_many_files_any_reader_partial", "C84_many_files_partial", "C84_next_file_untouched_partial", "C84_refuted", "C84_stream_next_file_untouched_partial", "C84_stream_refuted", "C87_follow_along", "C88_any_form", "C93_both_ends", "C95_set_key_midway_partial"], "secs": 19, "early": true, "m": {"edits": [["Pb.v", " m) (h_unk m))\n        else if fieldNum =? 2 then\n          if negb (wireType =? 2) then Fail (EMsg \"pro", " m) (h_unk m))\n        else if fieldNum =? 2 then\n          if negb (negb (wireType =? 2)) then Fail (EMsg \"pro"]], "definition": "unmarshal_header_loop", "desc": "Pb: 'if negb (wireType =? 2)' -> 'if negb (negb (wireType =? 2))' (auto)", "breaks": [], "mod": "Pb", "id": "w0_070"}}
{"mid": "w0_071", "lemmas": ["Thm_Main.C55_dispatch"], "hard": [], "failed": ["C100_texts", "C55_dispatch", "C68_only_outputs", "C71_command", "C72_unverified_refuted", "C73_encrypt_words", "C73_sign_words", "C74_failure_changes_nothing_partial", "C75_permissions", "C77_concurrent_runs", "C78_history_partial", "C99_every_command_line", "C99_zero_partial"], "secs": 16, "early": true, "m": {"edits": [["Main.v", "  | [] => quit 1\n    ", "  | [] => quit 2\n    "]], "definition": "main", "desc": "Main: '1' -> '2' (auto)", "breaks": [], "mod": "Main", "id": "w0_071"}}
{"mid": "w0_072", "lemmas": ["Thm_Race.wp_call"], "hard": [], "failed": ["C94_caches", "C94_goroutines_partial"], "secs": 4, "early": true, "m": {"edits": [["Race.v", " [] []) key [] 0 None", " [] []) key [] 1 None"]], "definition": "call_prog", "desc": "Race: '0' -> '1' (auto)", "breaks": [], "mod": "Race", "id": "w0_072"}}
{"mid": "w0_073", "lemmas": ["ToyExt.optional_ok", "Thm_KeyFiles.yaml_not_ssh"], "hard": [], "failed": ["C33_public_round_trip", "C42_stored_objects", "C43_pair_usable_partial", "C65_generate_encrypt_decrypt", "C66_generate_sign_verify", "C73_encrypt_words", "C73_sign_words"], "secs": 13, "early": true, "m": {"edits": [["KeyFiles.v", "if len s =? 0 ", "if negb (len s =? 0) "]], "definition": "y_opt", "desc": "KeyFiles: 'if len s =? 0' -> 'if negb (len s =? 0)' (auto)", "breaks": [], "mod": "KeyFiles", "id": "w0_073"}}
{"mid": "w0_074", "lemmas": ["CliProofs.is_user_iff"], "hard": [], "failed": ["C44_old_or_new_partial", "C48_encrypt_exact", "C48_encrypt_succeeds", "C48_unresolved", "C51_encrypt_then_decrypt", "C56_encrypt_ends", "C64_encrypt_succeeds", "C64_encrypt_to_stdout", "C64_pipeline", "C65_generate_encrypt_decrypt", "C73_encrypt_words", "C74_failure_changes_nothing_partial", "C96_every_bad_recipient_named", "C96_failure_is_reported", "C96_success_is_silent", "C96_texts", "C97_encrypt"], "secs": 7, "early": true, "m": {"edits": [["Cli.v", "<? i | None => false end.", "<? i | None => true end."]], "definition": "is_user", "desc": "Cli: 'false' -> 'true' (auto)", "breaks": [], "mod": "Cli", "id": "w0_074"}}
{"mid": "w0_075", "lemmas": ["PbProofs.len_pb_bytes"], "hard": [], "failed": ["C01_encrypt_decrypt_round_trip", "C01_encrypt_succeeds", "C02_stream_round_trip", "C02_stream_writes_succeed", "C03_encrypted_file_streams", "C03_stream_file_decrypts", "C04_fragmentation_independent", "C04_stream_agrees_with_encrypt", "C04_stream_write_sizes_irrelevant", "C05_file_format", "C05_stream_format", "C06_chunks", "C06_stream_chunks", "C07_nonces_distinct_partial", "C07_refuted_counter_wraps", "C07_refuted_second_encrypt", "C07_stream_nonces_distinct_partial", "C07_stream_refuted_counter_wraps", "C08_tampered_header", "C08_tampered_stream_header", "C09_truncated_file", "C09_truncated_stream", "C10_complete_partial", "C10_refuted_truncation", "C10_stream_complete_partial", "C11_released_data_genuine", "C13_refuted_recipient_forges", "C14_refuted", "C16_recipients_agree", "C20_refuted", "C21_encrypt_errors_partial", "C23_refuted", "C24_recipients_partial", "C24_refuted", "C25_header_codec_round_trip", "C26_reencode", "C27_writes", "C29_refuted", "C48_encrypt_succeeds", "C51_encrypt_then_decrypt", "C56_encrypt_ends", "C57_encrypt_size", "C57_stream_size", "C58_file_randomness", "C58_stream_randomness", "C59_encrypt_against_stream", "C63_output_genuine", "C64_encrypt_succeeds", "C64_pipeline", "C65_generate_encrypt_decrypt", "C72_unverified_refuted", "C73_encrypt_words", "C76_origin_partial", "C76_stream_origin_partial", "C81_content_hidden", "C81_stream_content_hidden", "C83_anonymous", "C83_sender_hidden", "C83_stream_anonymous", "C83_stream_sender_hidden", "C84_many_files_any_reader_partial", "C84_many_files_partial", "C84_next_file_untouched_partial", "C84_refuted", "C84_stream_next_file_untouched_partial", "C84_stream_refuted", "C85_encryptor_never_panics", "C87_follow_along", "C88_any_form", "C93_both_ends", "C93_discloses", "C93_encryptor_messages", "C95_set_key_midway_partial"], "secs": 16, "early": true, "m": {"edits": [["Pb.v", " <? len b then 1 + le", " <? len b then 2 + le"]], "definition": "size_field", "desc": "Pb: '1' -> '2' (auto)", "breaks": [], "mod": "Pb", "id": "w0_075"}}
{"mid": "w0_076", "lemmas": ["Thm_Usage.C100_texts"], "hard": [], "failed": ["C100_texts"], "secs": 3, "early": true, "m": {"edits": [["Usage.v", "d fs l := match parse_args fs true args with", "d fs l := match parse_args fs false args with"]], "definition": "command_texts", "desc": "Usage: 'true' -> 'false' (auto)", "breaks": [], "mod": "Usage", "id": "w0_076"}}
{"mid": "w0_077", "lemmas": ["Thm_Cli.cli_encrypt_any"], "hard": [], "failed": ["C44_no_overwrite_partial", "C44_old_or_new_partial", "C48_encrypt_exact", "C48_unresolved", "C51_encrypt_then_decrypt", "C64_encrypt_to_stdout", "C64_pipeline", "C65_generate_encrypt_decrypt", "C68_only_outputs", "C73_encrypt_words", "C74_failure_changes_nothing_partial", "C75_permissions", "C77_concurrent_runs", "C78_history_partial"], "secs": 28, "early": true, "m": {"edits": [["Cli.v", "| Ok blk =>\n      match (if 0 <? len (eo_k", "| Ok blk =>\n      match (if 0 <=? len (eo_k"]], "definition": "cli_encrypt", "desc": "Cli: '<?' -> '<=?' (auto)", "breaks": [], "mod": "Cli", "id": "w0_077"}}
{"mid": "w0_078", "error": "edit does not compile: File \"./theories/Cli.v\", line 259, characters 25-51:\nError: Pattern \"Ok true\" is redundant in this clause.\n\n", "m": {"edits": [["Cli.v", "          | Ok false => s", "          | Ok true => s"]], "definition": "verify_with", "desc": "Cli: 'false' -> 'true' (auto)", "breaks": [], "mod": "Cli", "id": "w0_078"}}
{"mid": "w0_079", "lemmas": ["BytesLemmas.unle_le"], "hard": [], "failed": ["C21_refuted", "C41_public_key_conversion", "C44_refuted", "C45_close_refuted", "C46_refuted", "C49_refuted", "C50_refuted", "C53_refuted", "C60_refuted", "C74_generate_refuted", "C95_no_panic_refuted", "C95_repeated_call_refuted"], "secs": 5, "early": true, "m": {"edits": [["Bytes.v", "h l with [] => 0 | b ", "h l with [] => 1 | b "]], "definition": "unle", "desc": "Bytes: '0' -> '1' (auto)", "breaks": [], "mod": "Bytes", "id": "w0_079"}}
{"mid": "w0_080", "lemmas": ["Thm_Flags.verify_same"], "hard": [], "failed": ["C100_texts", "C71_command", "C71_options", "C72_unverified_refuted", "C73_encrypt_words", "C73_sign_words", "C96_same_outcome", "C99_every_command_line", "C99_misspelt_refuted", "C99_zero_partial"], "secs": 14, "early": true, "m": {"edits": [["Flags.v", "et\" (Some x71) true].\n(*", "et\" (Some x71) false].\n(*"]], "definition": "verify_flags", "desc": "Flags: 'true' -> 'false' (auto)", "breaks": [], "mod": "Flags", "id": "w0_080"}}
{"mid": "w0_081", "lemmas": ["Thm_Commands.C49_sign_partial"], "hard": [], "failed": ["C49_sign_partial", "C52_sign_then_verify", "C66_generate_sign_verify", "C73_sign_words", "C74_failure_changes_nothing_partial", "C80_sign"], "secs": 39, "early": true, "m": {"edits": [["Cli.v", "t outf := if 0 <? len ", "t outf := if 0 <=? len "]], "definition": "cli_sign", "desc": "Cli: '<?' -> '<=?' (auto)", "breaks": [], "mod": "Cli", "id": "w0_081"}}
{"mid": "w0_082", "lemmas": ["PbProofs.push_keys_spec"], "hard": [], "failed": ["C01_encrypt_decrypt_round_trip", "C01_encrypt_succeeds", "C02_stream_round_trip", "C02_stream_writes_succeed", "C03_encrypted_file_streams", "C03_stream_file_decrypts", "C04_fragmentation_independent", "C04_stream_agrees_with_encrypt", "C04_stream_write_sizes_irrelevant", "C05_file_format", "C05_stream_format", "C06_chunks", "C06_stream_chunks", "C07_nonces_distinct_partial", "C07_refuted_counter_wraps", "C07_refuted_second_encrypt", "C07_stream_nonces_distinct_partial", "C07_stream_refuted_counter_wraps", "C08_tampered_header", "C08_tampered_stream_header", "C09_truncated_file", "C09_truncated_stream", "C10_complete_partial", "C10_refuted_truncation", "C10_stream_complete_partial", "C11_released_data_genuine", "C13_refuted_recipient_forges", "C14_refuted", "C16_recipients_agree", "C20_refuted", "C21_encrypt_errors_partial", "C23_refuted", "C24_recipients_partial", "C24_refuted", "C25_header_codec_round_trip", "C26_reencode", "C27_writes", "C29_refuted", "C48_encrypt_succeeds", "C51_encrypt_then_decrypt", "C56_encrypt_ends", "C57_encrypt_size", "C57_stream_size", "C58_file_randomness", "C58_stream_randomness", "C59_encrypt_against_stream", "C63_output_genuine", "C64_encrypt_succeeds", "C64_pipeline", "C65_generate_encrypt_decrypt", "C72_unverified_refuted", "C73_encrypt_words", "C76_origin_partial", "C76_stream_origin_partial", "C81_content_hidden", "C81_stream_content_hidden", "C83_anonymous", "C83_sender_hidden", "C83_stream_anonymous", "C83_stream_sender_hidden", "C84_many_files_any_reader_partial", "C84_many_files_partial", "C84_next_file_untouched_partial", "C84_refuted", "C84_stream_next_file_untouched_partial", "C84_stream_refuted", "C85_encryptor_never_panics", "C87_follow_along", "C88_any_form", "C93_both_ends", "C93_discloses", "C93_encryptor_messages", "C95_set_key_midway_partial"], "secs": 23, "early": true, "m": {"edits": [["Pb.v", "h_keys ks (z2b 42 :: e", "h_keys ks (z2b 43 :: e"]], "definition": "push_keys", "desc": "Pb: '42' -> '43' (auto)", "breaks": [], "mod": "Pb", "id": "w0_082"}}
{"mid": "w0_083", "lemmas": ["StreamProofs.write_all_err"], "hard": [], "failed": ["C02_stream_round_trip", "C02_stream_writes_succeed", "C03_encrypted_file_streams", "C03_stream_file_decrypts", "C04_stream_agrees_with_encrypt", "C04_stream_write_sizes_irrelevant", "C05_stream_format", "C06_stream_chunks", "C07_stream_nonces_distinct_partial", "C07_stream_refuted_counter_wraps", "C08_tampered_stream_header", "C09_truncated_file", "C09_truncated_stream", "C10_complete_partial", "C10_refuted_truncation", "C10_stream_complete_partial", "C11_released_data_genuine", "C13_refuted_recipient_forges", "C14_refuted", "C20_refuted", "C27_writes", "C29_refuted", "C57_stream_size", "C58_stream_randomness", "C59_encrypt_against_stream", "C63_output_genuine", "C72_unverified_refuted", "C76_origin_partial", "C76_stream_origin_partial", "C81_stream_content_hidden", "C83_stream_anonymous", "C83_stream_sender_hidden", "C84_many_files_any_reader_partial", "C84_many_files_partial", "C84_next_file_untouched_partial", "C84_refuted", "C84_stream_next_file_untouched_partial", "C84_stream_refuted", "C87_follow_along", "C88_any_form", "C93_discloses", "C95_set_key_midway_partial"], "secs": 69, "early": true, "m": {"edits": [["Stream.v", " (e, w, g, s, (0, Fai", " (e, w, g, s, (1, Fai"]], "definition": "ew_write", "desc": "Stream: '0' -> '1' (auto)", "breaks": [], "mod": "Stream", "id": "w0_083"}}
{"mid": "w0_066", "lemmas": [], "hard": [], "failed": [], "secs": 536, "m": {"edits": [["GoIO.v", ":: r' =>\n      if n <? len b then ", ":: r' =>\n      if negb (n <? len b) then "]], "definition": "rd_read", "desc": "GoIO: 'if n <? len b' -> 'if negb (n <? len b)' (auto)", "breaks": [], "mod": "GoIO", "id": "w0_066"}}
{"mid": "w0_084", "lemmas": ["PbProofs.marshal_fields_spec"], "hard": [], "failed": ["C01_encrypt_decrypt_round_trip", "C01_encrypt_succeeds", "C02_stream_round_trip", "C02_stream_writes_succeed", "C03_encrypted_file_streams", "C03_stream_file_decrypts", "C04_fragmentation_independent", "C04_stream_agrees_with_encrypt", "C04_stream_write_sizes_irrelevant", "C05_file_format", "C05_stream_format", "C06_chunks", "C06_stream_chunks", "C07_nonces_distinct_partial", "C07_refuted_counter_wraps", "C07_refuted_second_encrypt", "C07_stream_nonces_distinct_partial", "C07_stream_refuted_counter_wraps", "C08_tampered_header", "C08_tampered_stream_header", "C09_truncated_file", "C09_truncated_stream", "C10_complete_partial", "C10_refuted_truncation", "C10_stream_complete_partial", "C11_released_data_genuine", "C13_refuted_recipient_forges", "C14_refuted", "C16_recipients_agree", "C20_refuted", "C21_encrypt_errors_partial", "C23_refuted", "C24_recipients_partial", "C24_refuted", "C25_header_codec_round_trip", "C26_reencode", "C27_writes", "C29_refuted", "C48_encrypt_succeeds", "C51_encrypt_then_decrypt", "C56_encrypt_ends", "C57_encrypt_size", "C57_stream_size", "C58_file_randomness", "C58_stream_randomness", "C59_encrypt_against_stream", "C63_output_genuine", "C64_encrypt_succeeds", "C64_pipeline", "C65_generate_encrypt_decrypt", "C72_unverified_refuted", "C73_encrypt_words", "C76_origin_partial", "C76_stream_origin_partial", "C81_content_hidden", "C81_stream_content_hidden", "C83_anonymous", "C83_sender_hidden", "C83_stream_anonymous", "C83_stream_sender_hidden", "C84_many_files_any_reader_partial", "C84_many_files_partial", "C84_next_file_untouched_partial", "C84_refuted", "C84_stream_next_file_untouched_partial", "C84_stream_refuted", "C85_encryptor_never_panics", "C87_follow_along", "C88_any_form", "C93_both_ends", "C93_discloses", "C93_encryptor_messages", "C95_set_key_midway_partial"], "secs": 23, "early": true, "m": {"edits": [["Pb.v", " := push_field 18 (h_s", " := push_field 19 (h_s"]], "definition": "marshal_fields", "desc": "Pb: '18' -> '19' (auto)", "breaks": [], "mod": "Pb", "id": "w0_084"}}
{"mid": "w0_086", "lemmas": ["Thm_Race.inv_step"], "hard": [], "failed": ["C94_caches", "C94_goroutines_partial"], "secs": 10, "early": true, "m": {"edits": [["Race.v", "w'\n  | _, _ => false\n  en", "w'\n  | _, _ => true\n  en"]], "definition": "cell_eqb", "desc": "Race: 'false' -> 'true' (auto)", "breaks": [], "mod": "Race", "id": "w0_086"}}
{"mid": "w0_087", "lemmas": ["Thm_Told.C96_same_outcome"], "hard": [], "failed": ["C96_same_outcome"], "secs": 17, "early": true, "m": {"edits": [["Told.v", "  | [] => quit 1 [(\"I", "  | [] => quit 2 [(\"I"]], "definition": "main_told", "desc": "Told: '1' -> '2' (auto)", "breaks": [], "mod": "Told", "id": "w0_087"}}
{"mid": "w0_088", "lemmas": ["IOProofs.w_close_accepts", "EncryptProofs.encrypt_spec"], "hard": [], "failed": ["C01_encrypt_decrypt_round_trip", "C01_encrypt_succeeds", "C02_stream_round_trip", "C03_encrypted_file_streams", "C03_stream_file_decrypts", "C04_fragmentation_independent", "C04_stream_agrees_with_encrypt", "C05_file_format", "C06_chunks", "C07_nonces_distinct_partial", "C07_refuted_counter_wraps", "C07_refuted_second_encrypt", "C08_tampered_header", "C09_truncated_file", "C09_truncated_stream", "C10_complete_partial", "C10_refuted_truncation", "C10_stream_complete_partial", "C11_released_data_genuine", "C13_refuted_recipient_forges", "C14_refuted", "C16_recipients_agree", "C20_refuted", "C21_encrypt_errors_partial", "C23_refuted", "C24_recipients_partial", "C24_refuted", "C29_refuted", "C48_encrypt_succeeds", "C51_encrypt_then_decrypt", "C57_encrypt_size", "C58_file_randomness", "C59_encrypt_against_stream", "C63_output_genuine", "C64_encrypt_succeeds", "C64_pipeline", "C65_generate_encrypt_decrypt", "C72_unverified_refuted", "C73_encrypt_words", "C76_origin_partial", "C76_stream_origin_partial", "C81_content_hidden", "C83_anonymous", "C83_sender_hidden", "C84_many_files_any_reader_partial", "C84_many_files_partial", "C84_next_file_untouched_partial", "C84_refuted", "C84_stream_next_file_untouched_partial", "C84_stream_refuted", "C88_any_form", "C93_both_ends", "C93_discloses", "C95_set_key_midway_partial"], "secs": 30, "early": true, "m": {"edits": [["GoIO.v", "[] (w_nclosed w + 1))\n  ", "[] (w_nclosed w + 2))\n  "]], "definition": "w_close", "desc": "GoIO: '+ 1' -> '+ 2' (auto)", "breaks": [], "mod": "GoIO", "id": "w0_088"}}
{"mid": "w0_089", "lemmas": ["EncryptProofs.block_size_chunk"], "hard": [], "failed": ["C04_stream_agrees_with_encrypt", "C05_file_format", "C05_stream_format", "C06_chunks", "C06_stream_chunks", "C07_nonces_distinct_partial", "C07_refuted_counter_wraps", "C07_refuted_second_encrypt", "C07_stream_nonces_distinct_partial", "C07_stream_refuted_counter_wraps", "C57_encrypt_size", "C57_stream_size", "C59_encrypt_against_stream", "C81_content_hidden", "C81_stream_content_hidden", "C84_many_files_any_reader_partial", "C84_many_files_partial", "C84_next_file_untouched_partial", "C84_refuted", "C84_stream_next_file_untouched_partial", "C84_stream_refuted", "C87_follow_along"], "secs": 19, "early": true, "m": {"edits": [["Encrypt.v", "x_chunk : Z := 2^30.\n", "x_chunk : Z := 3^30.\n"]], "definition": "max_chunk", "desc": "Encrypt: '2' -> '3' (auto)", "breaks": [], "mod": "Encrypt", "id": "w0_089"}}
{"mid": "w0_090", "error": "edit does not compile: File \"./theories/Debug.v\", line 19, characters 19-28:\nError: No interpretation for string \"nonce: \".\n\n", "m": {"edits": [["Debug.v", "+\n  [x0a; x09] ++ str \"non", "+\n  [x0a; x09] ++ [] \"non"]], "definition": "debug_text", "desc": "Debug: '++ str' -> '++ []' (auto)", "breaks": [], "mod": "Debug", "id": "w0_090"}}
{"mid": "w0_085", "lemmas": ["SshKeyProofs.extract_ok"], "hard": [], "failed": ["C36_openssh_refuted", "C36_private_panics_exactly", "C39_container_exact", "C56_decrypt_ends", "C56_encrypt_ends", "C56_sign_ends", "C67_one_key", "C67_private_exact", "C88_any_form", "C98_rewritten_key"], "secs": 112, "early": true, "m": {"edits": [["Ssh.v", "6 (drop 32 k), take 32 k)", "6 (drop 32 k), drop 32 k)"]], "definition": "extract_bcrypt", "desc": "Ssh: 'take' -> 'drop' (auto)", "breaks": [], "mod": "Ssh", "id": "w0_085"}}
{"mid": "w0_091", "lemmas": ["DecryptProofs.process_trailer_spec"], "hard": [], "failed": ["C01_encrypt_decrypt_round_trip", "C02_stream_round_trip", "C03_encrypted_file_streams", "C03_stream_file_decrypts", "C09_truncated_file", "C09_truncated_stream", "C10_complete_partial", "C10_refuted_truncation", "C10_stream_complete_partial", "C11_released_data_genuine", "C13_content_signed_partial", "C13_refuted_recipient_forges", "C13_stream_signed_partial", "C14_refuted", "C29_refuted", "C29_single_reader_partial", "C51_encrypt_then_decrypt", "C63_output_genuine", "C64_pipeline", "C65_generate_encrypt_decrypt", "C69_stream_and_decrypt_agree", "C73_encrypt_words", "C76_origin_partial", "C76_stream_origin_partial", "C84_many_files_any_reader_partial", "C84_many_files_partial", "C84_next_file_untouched_partial", "C84_refuted", "C84_stream_next_file_untouched_partial", "C84_stream_refuted", "C87_follow_along", "C88_any_form", "C95_set_key_midway_partial"], "secs": 27, "early": true, "m": {"edits": [["Crypto.v", "egb (len pk =? 32) the", "egb (len pk =? 33) the"]], "definition": "Ed_Verify", "desc": "Crypto: '32' -> '33' (auto)", "breaks": [], "mod": "Crypto", "id": "w0_091"}}
{"mid": "w0_092", "lemmas": ["Thm_Chain.C53_crash_exactly_partial"], "hard": [], "failed": ["C53_crash_exactly_partial"], "secs": 39, "early": true, "m": {"edits": [["Cli.v", " 0 | Fail _ => 1 | Pa", " 0 | Fail _ => 2 | Pa"]], "definition": "code_of", "desc": "Cli: '1' -> '2' (auto)", "breaks": [], "mod": "Cli", "id": "w0_092"}}
{"mid": "w0_094", "lemmas": ["PbProofs.size_varint_small"], "hard": [], "failed": ["C01_encrypt_decrypt_round_trip", "C01_encrypt_succeeds", "C02_stream_round_trip", "C02_stream_writes_succeed", "C03_encrypted_file_streams", "C03_stream_file_decrypts", "C04_fragmentation_independent", "C04_stream_agrees_with_encrypt", "C04_stream_write_sizes_irrelevant", "C05_file_format", "C05_stream_format", "C06_chunks", "C06_stream_chunks", "C07_nonces_distinct_partial", "C07_refuted_counter_wraps", "C07_refuted_second_encrypt", "C07_stream_nonces_distinct_partial", "C07_stream_refuted_counter_wraps", "C08_tampered_header", "C08_tampered_stream_header", "C09_truncated_file", "C09_truncated_stream", "C10_complete_partial", "C10_refuted_truncation", "C10_stream_complete_partial", "C11_released_data_genuine", "C13_refuted_recipient_forges", "C14_refuted", "C16_recipients_agree", "C20_refuted", "C21_encrypt_errors_partial", "C23_refuted", "C24_recipients_partial", "C24_refuted", "C25_header_codec_round_trip", "C26_reencode", "C27_writes", "C29_refuted", "C48_encrypt_succeeds", "C51_encrypt_then_decrypt", "C56_encrypt_ends", "C57_encrypt_size", "C57_stream_size", "C58_file_randomness", "C58_stream_randomness", "C59_encrypt_against_stream", "C63_output_genuine", "C64_encrypt_succeeds", "C64_pipeline", "C65_generate_encrypt_decrypt", "C72_unverified_refuted", "C73_encrypt_words", "C76_origin_partial", "C76_stream_origin_partial", "C81_content_hidden", "C81_stream_content_hidden", "C83_anonymous", "C83_sender_hidden", "C83_stream_anonymous", "C83_stream_sender_hidden", "C84_many_files_any_reader_partial", "C84_many_files_partial", "C84_next_file_untouched_partial", "C84_refuted", "C84_stream_next_file_untouched_partial", "C84_stream_refuted", "C85_encryptor_never_panics", "C87_follow_along", "C88_any_form", "C93_both_ends", "C93_discloses", "C93_encryptor_messages", "C95_set_key_midway_partial"], "secs": 13, "early": true, "m": {"edits": [["Pb.v", "og2 (Z.lor x 1) + 1 + 6", "og2 (Z.lor x 1) - 1 + 6"]], "definition": "size_varint", "desc": "Pb: '+' -> '-' (auto)", "breaks": [], "mod": "Pb", "id": "w0_094"}}
{"mid": "w0_095", "lemmas": ["Toy.toy_ys_ok"], "hard": [], "failed": ["C21_refuted", "C44_refuted", "C45_close_refuted", "C46_refuted", "C49_refuted", "C50_refuted", "C53_refuted", "C60_refuted", "C74_generate_refuted", "C95_no_panic_refuted", "C95_repeated_call_refuted"], "secs": 116, "early": true, "m": {"edits": [["Keys.v", "curve_p : Z := 2^255 ", "curve_p : Z := 3^255 "]], "definition": "curve_p", "desc": "Keys: '2' -> '3' (auto)", "breaks": [], "mod": "Keys", "id": "w0_095"}}
{"mid": "w0_096", "lemmas": ["Thm_Told.generate_same"], "hard": [], "failed": ["C96_same_outcome"], "secs": 9, "early": true, "m": {"edits": [["Told.v", "++ ops2", "++ []"]], "definition": "generate_told", "desc": "Told: '++ ops2' -> '++ []' (auto)", "breaks": [], "mod": "Told", "id": "w0_096"}}
{"mid": "w0_097", "lemmas": ["PbProofs.marshal_wkey_spec"], "hard": [], "failed": ["C01_encrypt_decrypt_round_trip", "C01_encrypt_succeeds", "C02_stream_round_trip", "C02_stream_writes_succeed", "C03_encrypted_file_streams", "C03_stream_file_decrypts", "C04_fragmentation_independent", "C04_stream_agrees_with_encrypt", "C04_stream_write_sizes_irrelevant", "C05_file_format", "C05_stream_format", "C06_chunks", "C06_stream_chunks", "C07_nonces_distinct_partial", "C07_refuted_counter_wraps", "C07_refuted_second_encrypt", "C07_stream_nonces_distinct_partial", "C07_stream_refuted_counter_wraps", "C08_tampered_header", "C08_tampered_stream_header", "C09_truncated_file", "C09_truncated_stream", "C10_complete_partial", "C10_refuted_truncation", "C10_stream_complete_partial", "C11_released_data_genuine", "C13_refuted_recipient_forges", "C14_refuted", "C16_recipients_agree", "C20_refuted", "C21_encrypt_errors_partial", "C23_refuted", "C24_recipients_partial", "C24_refuted", "C25_header_codec_round_trip", "C26_reencode", "C27_writes", "C29_refuted", "C48_encrypt_succeeds", "C51_encrypt_then_decrypt", "C56_encrypt_ends", "C57_encrypt_size", "C57_stream_size", "C58_file_randomness", "C58_stream_randomness", "C59_encrypt_against_stream", "C63_output_genuine", "C64_encrypt_succeeds", "C64_pipeline", "C65_generate_encrypt_decrypt", "C72_unverified_refuted", "C73_encrypt_words", "C76_origin_partial", "C76_stream_origin_partial", "C81_content_hidden", "C81_stream_content_hidden", "C83_anonymous", "C83_sender_hidden", "C83_stream_anonymous", "C83_stream_sender_hidden", "C84_many_files_any_reader_partial", "C84_many_files_partial", "C84_next_file_untouched_partial", "C84_refuted", "C84_stream_next_file_untouched_partial", "C84_stream_refuted", "C85_encryptor_never_panics", "C87_follow_along", "C88_any_form", "C93_both_ends", "C93_discloses", "C93_encryptor_messages", "C95_set_key_midway_partial"], "secs": 17, "early": true, "m": {"edits": [["Pb.v", "m) (push_field 18 (w_n", "m) (push_field 19 (w_n"]], "definition": "marshal_wkey", "desc": "Pb: '18' -> '19' (auto)", "breaks": [], "mod": "Pb", "id": "w0_097"}}
{"mid": "w0_098", "lemmas": ["SshProofs.parse_auth_key"], "hard": [], "failed": ["C38_entries_partial", "C88_any_form"], "secs": 12, "early": true, "m": {"edits": [["Ssh.v", " (take i inp) (drop i inp", " (take i inp) (take i inp"]], "definition": "parse_authorized_key", "desc": "Ssh: 'drop' -> 'take' (auto)", "breaks": [], "mod": "Ssh", "id": "w0_098"}}
{"mid": "w0_099", "lemmas": ["Thm_Debug.digit_hex"], "hard": [], "failed": ["C93_discloses", "C93_encryptor_messages"], "secs": 2, "early": true, "m": {"edits": [["Debug.v", "= z2b (if d <? 10 then", "= z2b (if d <? 11 then"]], "definition": "hex_digit", "desc": "Debug: '10' -> '11' (auto)", "breaks": [], "mod": "Debug", "id": "w0_099"}}
{"mid": "w0_100", "error": "edit does not compile: File \"./theories/KeyFiles.v\", line 31, characters 43-51:\nError: No interpretation for string \"pkhash\".\n\n", "m": {"edits": [["KeyFiles.v", "(ss_comment r) ++ y_opt E \"p", "(ss_comment r) ++ [] E \"p"]], "definition": "yaml_sig", "desc": "KeyFiles: '++ y_opt' -> '++ []' (auto)", "breaks": [], "mod": "KeyFiles", "id": "w0_100"}}
{"mid": "w0_101", "lemmas": ["ToyExt.toyE_keeps", "Thm_KeyFiles.yaml_priv_marker"], "hard": [], "failed": ["C34_private_round_trip_partial", "C42_stored_objects", "C43_pair_usable_partial", "C65_generate_encrypt_decrypt", "C66_generate_sign_verify", "C73_encrypt_words", "C73_sign_words", "C98_rewritten_key"], "secs": 14, "early": true, "m": {"edits": [["KeyFiles.v", "tes := if z =? 0 then", "tes := if z =? 1 then"]], "definition": "y_optint", "desc": "KeyFiles: '0' -> '1' (auto)", "breaks": [], "mod": "KeyFiles", "id": "w0_101"}}
{"mid": "w0_102", "lemmas": ["BytesLemmas.unbe32_be32"], "hard": [], "failed": ["C01_encrypt_decrypt_round_trip", "C01_encrypt_succeeds", "C02_stream_round_trip", "C02_stream_writes_succeed", "C03_encrypted_file_streams", "C03_stream_file_decrypts", "C04_fragmentation_independent", "C04_stream_agrees_with_encrypt", "C04_stream_write_sizes_irrelevant", "C05_file_format", "C05_stream_format", "C06_chunks", "C06_stream_chunks", "C07_nonces_distinct_partial", "C07_refuted_counter_wraps", "C07_refuted_second_encrypt", "C07_stream_nonces_distinct_partial", "C07_stream_refuted_counter_wraps", "C08_accepted_header", "C08_tampered_header", "C08_tampered_stream_header", "C09_truncated_file", "C09_truncated_stream", "C10_complete_partial", "C10_refuted_truncation", "C10_stream_complete_partial", "C11_released_data_genuine", "C13_content_signed_partial", "C13_refuted_recipient_forges", "C13_stream_signed_partial", "C14_refuted", "C16_recipients_agree", "C20_refuted", "C21_encrypt_errors_partial", "C23_refuted", "C24_recipients_partial", "C24_refuted", "C27_writes", "C29_refuted", "C29_single_reader_partial", "C33_openssh_line", "C35_public_partial", "C36_openssh_refuted", "C36_private_panics_exactly", "C36_public_panics_exactly", "C37_bad_blob_rejected", "C37_blob_exact", "C37_line_exact", "C37_line_partial", "C38_entries_partial", "C39_container_exact", "C39_section_unique", "C43_pair_usable_partial", "C47_verify_exact", "C48_encrypt_succeeds", "C51_encrypt_then_decrypt", "C52_sign_then_verify", "C53_crash_exactly_partial", "C54_refuted", "C54_round_trip_partial", "C54_string_exact", "C56_decrypt_ends", "C56_encrypt_ends", "C56_sign_ends", "C57_encrypt_size", "C57_stream_size", "C58_file_randomness", "C58_stream_randomness", "C59_encrypt_against_stream", "C62_verify_report", "C63_output_genuine", "C64_encrypt_succeeds", "C64_pipeline", "C65_generate_encrypt_decrypt", "C66_generate_sign_verify", "C67_one_key", "C67_private_exact", "C67_public_exact", "C68_only_outputs", "C69_stream_and_decrypt_agree", "C70_one_file_per_encryptor", "C72_unverified_refuted", "C73_encrypt_words", "C73_sign_words", "C74_failure_changes_nothing_partial", "C75_permissions", "C76_origin_partial", "C76_stream_origin_partial", "C77_concurrent_runs", "C78_history_partial", "C79_verify_command", "C81_content_hidden", "C81_stream_content_hidden", "C83_anonymous", "C83_sender_hidden", "C83_stream_anonymous", "C83_stream_sender_hidden", "C84_many_files_any_reader_partial", "C84_many_files_partial", "C84_next_file_untouched_partial", "C84_refuted", "C84_stream_next_file_untouched_partial", "C84_stream_refuted", "C85_encryptor_never_panics", "C87_follow_along", "C88_any_form", "C92_printed_signature_verifies", "C93_both_ends", "C93_discloses", "C93_encryptor_messages", "C95_set_key_midway_partial", "C98_rewritten_key"], "secs": 2, "early": true, "m": {"edits": [["Bytes.v", "\n  [z2b (z / 2^24); z2", "\n  [z2b (z / 2^25); z2"]], "definition": "be32", "desc": "Bytes: '24' -> '25' (auto)", "breaks": [], "mod": "Bytes", "id": "w0_102"}}
{"mid": "w0_103", "lemmas": ["Thm_KeyFiles.marshal_private_spec"], "hard": [], "failed": ["C34_comment_refuted", "C34_private_round_trip_partial", "C42_stored_objects", "C43_generate_exit_status", "C43_pair_usable_partial", "C65_generate_encrypt_decrypt", "C66_generate_sign_verify", "C73_encrypt_words", "C73_sign_words", "C80_generate", "C80_marshal", "C80_sign", "C92_sign_exit_status", "C92_sign_to_stdout", "C98_rewritten_key"], "secs": 13, "early": true, "m": {"edits": [["KeyFiles.v", "gcm_seal C ae (take gcm_n", "gcm_seal C ae (drop gcm_n"]], "definition": "marshal_private", "desc": "KeyFiles: 'take' -> 'drop' (auto)", "breaks": [], "mod": "KeyFiles", "id": "w0_103"}}
{"mid": "w0_104", "lemmas": ["KeysProofs.curve_of_spec"], "hard": [], "failed": ["C41_public_key_conversion"], "secs": 246, "early": true, "m": {"edits": [["Keys.v", "ianY := zeros (32 - le", "ianY := zeros (33 - le"]], "definition": "curve_of", "desc": "Keys: '32' -> '33' (auto)", "breaks": [], "mod": "Keys", "id": "w0_104"}}
{"mid": "w0_105", "lemmas": ["StreamRead.stream_read_left"], "hard": [], "failed": ["C02_stream_round_trip", "C03_encrypted_file_streams", "C03_stream_file_decrypts", "C09_truncated_stream", "C10_stream_complete_partial", "C11_released_data_genuine", "C13_stream_signed_partial", "C29_single_reader_partial", "C63_output_genuine", "C69_stream_and_decrypt_agree", "C76_stream_origin_partial", "C84_many_files_any_reader_partial", "C84_stream_next_file_untouched_partial", "C84_stream_refuted", "C88_any_form"], "secs": 92, "early": true, "m": {"edits": [["Stream.v", "am d, Ok (mkEr 0 0 0 ", "am d, Ok (mkEr 1 0 0 "]], "definition": "new_stream_reader", "desc": "Stream: '0' -> '1' (auto)", "breaks": [], "mod": "Stream", "id": "w0_105"}}
{"mid": "w0_106", "lemmas": ["CliProofs.get_pass_ok"], "hard": [], "failed": ["C43_generate", "C43_generate_exit_status", "C44_no_overwrite_partial", "C44_old_or_new_partial", "C45_decrypt_succeeds", "C45_decrypt_to_file_partial", "C45_test_mode", "C46_refuted", "C46_sender_partial", "C48_encrypt_exact", "C48_encrypt_succeeds", "C48_unresolved", "C49_sign_partial", "C50_new_pair_partial", "C51_encrypt_then_decrypt", "C52_sign_then_verify", "C56_decrypt_ends", "C56_encrypt_ends", "C56_sign_ends", "C63_decrypt_to_stdout", "C63_output_genuine", "C64_encrypt_succeeds", "C64_encrypt_to_stdout", "C64_pipeline", "C65_generate_encrypt_decrypt", "C66_generate_sign_verify", "C68_only_outputs", "C72_unverified_refuted", "C73_encrypt_words", "C73_sign_words", "C74_failure_changes_nothing_partial", "C75_permissions", "C77_concurrent_runs", "C78_history_partial", "C80_generate", "C80_sign", "C92_printed_signature_verifies", "C92_sign_exit_status", "C92_sign_to_stdout"], "secs": 4, "early": true, "m": {"edits": [["Cli.v", "Ok []", "Ok [x00]"]], "definition": "get_pass", "desc": "Cli: 'Ok []' -> 'Ok [x00]' (auto)", "breaks": [], "mod": "Cli", "id": "w0_106"}}
{"mid": "w0_093", "lemmas": [], "hard": [], "failed": [], "secs": 689, "m": {"edits": [["Bytes.v", "b2z d\n  | _ => 0\n  en", "b2z d\n  | _ => 1\n  en"]], "definition": "unbe32", "desc": "Bytes: '0' -> '1' (auto)", "breaks": [], "mod": "Bytes", "id": "w0_093"}}
{"mid": "w0_108", "lemmas": ["Thm_Reads.C97_decrypt"], "hard": [], "failed": ["C97_decrypt"], "secs": 6, "early": true, "m": {"edits": [["Told.v", "if do_test o ", "if negb (do_test o) "]], "definition": "decrypt_told", "desc": "Told: 'if do_test o' -> 'if negb (do_test o)' (auto)", "breaks": [], "mod": "Told", "id": "w0_108"}}
{"mid": "w0_109", "lemmas": ["EncryptProofs.enc_loop_S"], "hard": [], "failed": ["C01_encrypt_decrypt_round_trip", "C01_encrypt_succeeds", "C02_stream_round_trip", "C03_encrypted_file_streams", "C03_stream_file_decrypts", "C04_fragmentation_independent", "C04_stream_agrees_with_encrypt", "C05_file_format", "C06_chunks", "C07_nonces_distinct_partial", "C07_refuted_counter_wraps", "C07_refuted_second_encrypt", "C08_tampered_header", "C09_truncated_file", "C09_truncated_stream", "C10_complete_partial", "C10_refuted_truncation", "C10_stream_complete_partial", "C11_released_data_genuine", "C13_refuted_recipient_forges", "C14_refuted", "C16_recipients_agree", "C17_every_history", "C17_no_recipient_after_start", "C18_encrypt_every_history", "C20_refuted", "C21_encrypt_errors_partial", "C23_refuted", "C24_recipients_partial", "C24_refuted", "C29_refuted", "C44_old_or_new_partial", "C48_encrypt_exact", "C48_encrypt_succeeds", "C48_unresolved", "C51_encrypt_then_decrypt", "C57_encrypt_size", "C58_file_randomness", "C59_encrypt_against_stream", "C63_output_genuine", "C64_encrypt_succeeds", "C64_encrypt_to_stdout", "C64_pipeline", "C65_generate_encrypt_decrypt", "C70_one_file_per_encryptor", "C72_unverified_refuted", "C73_encrypt_words", "C74_failure_changes_nothing_partial", "C76_origin_partial", "C76_stream_origin_partial", "C81_content_hidden", "C83_anonymous", "C83_sender_hidden", "C84_many_files_any_reader_partial", "C84_many_files_partial", "C84_next_file_untouched_partial", "C84_refuted", "C84_stream_next_file_untouched_partial", "C84_stream_refuted", "C85_encryptor_never_panics", "C88_any_form", "C93_both_ends", "C93_discloses", "C93_encryptor_messages", "C95_set_key_midway_partial"], "secs": 9, "early": true, "m": {"edits": [["Encrypt.v", " + 1", " + 2"]], "definition": "enc_loop", "desc": "Encrypt: '+ 1' -> '+ 2' (auto)", "breaks": [], "mod": "Encrypt", "id": "w0_109"}}
{"mid": "w0_110", "lemmas": ["PbProofs.push_field_spec"], "hard": [], "failed": ["C01_encrypt_decrypt_round_trip", "C01_encrypt_succeeds", "C02_stream_round_trip", "C02_stream_writes_succeed", "C03_encrypted_file_streams", "C03_stream_file_decrypts", "C04_fragmentation_independent", "C04_stream_agrees_with_encrypt", "C04_stream_write_sizes_irrelevant", "C05_file_format", "C05_stream_format", "C06_chunks", "C06_stream_chunks", "C07_nonces_distinct_partial", "C07_refuted_counter_wraps", "C07_refuted_second_encrypt", "C07_stream_nonces_distinct_partial", "C07_stream_refuted_counter_wraps", "C08_tampered_header", "C08_tampered_stream_header", "C09_truncated_file", "C09_truncated_stream", "C10_complete_partial", "C10_refuted_truncation", "C10_stream_complete_partial", "C11_released_data_genuine", "C13_refuted_recipient_forges", "C14_refuted", "C16_recipients_agree", "C20_refuted", "C21_encrypt_errors_partial", "C23_refuted", "C24_recipients_partial", "C24_refuted", "C25_header_codec_round_trip", "C26_reencode", "C27_writes", "C29_refuted", "C48_encrypt_succeeds", "C51_encrypt_then_decrypt", "C56_encrypt_ends", "C57_encrypt_size", "C57_stream_size", "C58_file_randomness", "C58_stream_randomness", "C59_encrypt_against_stream", "C63_output_genuine", "C64_encrypt_succeeds", "C64_pipeline", "C65_generate_encrypt_decrypt", "C72_unverified_refuted", "C73_encrypt_words", "C76_origin_partial", "C76_stream_origin_partial", "C81_content_hidden", "C81_stream_content_hidden", "C83_anonymous", "C83_sender_hidden", "C83_stream_anonymous", "C83_stream_sender_hidden", "C84_many_files_any_reader_partial", "C84_many_files_partial", "C84_next_file_untouched_partial", "C84_refuted", "C84_stream_next_file_untouched_partial", "C84_stream_refuted", "C85_encryptor_never_panics", "C87_follow_along", "C88_any_form", "C93_both_ends", "C93_discloses", "C93_encryptor_messages", "C95_set_key_midway_partial"], "secs": 13, "early": true, "m": {"edits": [["Pb.v", " bytes :=\n  if 0 <? l", " bytes :=\n  if 1 <? l"]], "definition": "push_field", "desc": "Pb: '0' -> '1' (auto)", "breaks": [], "mod": "Pb", "id": "w0_110"}}
{"mid": "w0_111", "lemmas": ["SshProofs.opt_end_options"], "hard": [], "failed": ["C38_entries_partial", "C88_any_form"], "secs": 20, "early": true, "m": {"edits": [["Ssh.v", "2 && ((i =? 0) || negb", "2 && ((i =? 0) && negb"]], "definition": "opt_end", "desc": "Ssh: '||' -> '&&' (auto)", "breaks": [], "mod": "Ssh", "id": "w0_111"}}
{"mid": "w0_107", "lemmas": ["LocalProofs.local_rand"], "hard": [], "failed": ["C91_objects_independent", "C94_caches", "C94_goroutines_partial"], "secs": 150, "early": true, "m": {"edits": [["GoIO.v", "(pos g + Z.max 0 n)).", "(pos g + Z.max 1 n))."]], "definition": "rand_buf", "desc": "GoIO: '0' -> '1' (auto)", "breaks": [], "mod": "GoIO", "id": "w0_107"}}
{"mid": "w0_112", "lemmas": ["Thm_Debug.C93_option"], "hard": [], "failed": ["C93_option"], "secs": 10, "early": true, "m": {"edits": [["Debug.v", "g\") false then 1 else", "g\") false then 2 else"]], "definition": "debug_level", "desc": "Debug: '1' -> '2' (auto)", "breaks": [], "mod": "Debug", "id": "w0_112"}}
{"mid": "w0_114", "lemmas": ["PbProofs.varint_tag_at"], "hard": [], "failed": ["C01_encrypt_decrypt_round_trip", "C02_stream_round_trip", "C03_encrypted_file_streams", "C03_stream_file_decrypts", "C05_file_format", "C05_stream_format", "C09_truncated_file", "C09_truncated_stream", "C10_complete_partial", "C10_refuted_truncation", "C10_stream_complete_partial", "C11_released_data_genuine", "C13_refuted_recipient_forges", "C14_refuted", "C16_recipients_agree", "C20_refuted", "C23_refuted", "C24_recipients_partial", "C24_refuted", "C29_refuted", "C51_encrypt_then_decrypt", "C63_output_genuine", "C64_pipeline", "C65_generate_encrypt_decrypt", "C72_unverified_refuted", "C73_encrypt_words", "C84_many_files_any_reader_partial", "C84_many_files_partial", "C84_next_file_untouched_partial", "C84_refuted", "C84_stream_next_file_untouched_partial", "C84_stream_refuted", "C87_follow_along", "C88_any_form", "C93_both_ends", "C95_set_key_midway_partial"], "secs": 18, "early": true, "m": {"edits": [["Pb.v", "f fieldNum <=? 0 then", "f fieldNum <=? 1 then"]], "definition": "get_tag", "desc": "Pb: '0' -> '1' (auto)", "breaks": [], "mod": "Pb", "id": "w0_114"}}
{"mid": "w0_115", "lemmas": ["SshKeyProofs.container_ok"], "hard": [], "failed": ["C39_container_exact", "C67_one_key", "C67_private_exact", "C88_any_form", "C98_rewritten_key"], "secs": 94, "early": true, "m": {"edits": [["Ssh.v", "se if len data <? len ", "se if len data <=? len "]], "definition": "parse_openssh_private", "desc": "Ssh: '<?' -> '<=?' (auto)", "breaks": [], "mod": "Ssh", "id": "w0_115"}}
{"mid": "w0_116", "lemmas": ["BytesLemmas.beq_refl"], "hard": [], "failed": ["C01_encrypt_decrypt_round_trip", "C01_encrypt_succeeds", "C02_stream_round_trip", "C03_encrypted_file_streams", "C03_stream_file_decrypts", "C08_accepted_header", "C08_tampered_header", "C08_tampered_stream_header", "C09_truncated_file", "C09_truncated_stream", "C100_texts", "C10_complete_partial", "C10_refuted_truncation", "C10_stream_complete_partial", "C11_released_data_genuine", "C12_authenticated_means_signed", "C13_content_signed_partial", "C13_refuted_recipient_forges", "C13_stream_signed_partial", "C14_refuted", "C14_signed_file_partial", "C16_recipients_agree", "C20_every_history_partial", "C20_no_panic_partial", "C20_refuted", "C21_refuted", "C23_refuted", "C24_recipients_partial", "C24_refuted", "C28_read_discipline", "C29_refuted", "C29_single_reader_partial", "C30_generated_keys", "C30_signatures_verify", "C30_verify_exact", "C31_file_signature_binds", "C33_openssh_line", "C35_public_partial", "C36_openssh_refuted", "C36_private_panics_exactly", "C36_public_panics_exactly", "C37_bad_blob_rejected", "C37_blob_exact", "C37_line_exact", "C37_line_partial", "C38_entries_partial", "C39_container_exact", "C43_pair_usable_partial", "C44_no_overwrite_partial", "C44_old_or_new_partial", "C44_refuted", "C45_close_refuted", "C45_decrypt_succeeds", "C45_decrypt_to_file_partial", "C45_test_mode", "C46_refuted", "C46_sender_partial", "C47_verify_exact", "C48_encrypt_exact", "C48_encrypt_succeeds", "C48_unresolved", "C49_refuted", "C49_sign_partial", "C50_refuted", "C51_encrypt_then_decrypt", "C52_sign_then_verify", "C53_crash_exactly_partial", "C53_refuted", "C54_refuted", "C54_round_trip_partial", "C54_string_exact", "C55_dispatch", "C56_decrypt_ends", "C56_encrypt_ends", "C56_sign_ends", "C60_authenticated_exactly", "C60_last_call_decides_partial", "C60_refuted", "C61_rejected_exactly", "C62_verify_report", "C63_decrypt_to_stdout", "C63_output_genuine", "C64_encrypt_succeeds", "C64_encrypt_to_stdout", "C64_pipeline", "C65_generate_encrypt_decrypt", "C66_generate_sign_verify", "C67_one_key", "C67_private_exact", "C67_public_exact", "C68_only_outputs", "C69_stream_and_decrypt_agree", "C70_one_file_per_encryptor", "C71_command", "C71_options", "C72_sign_stdout_refuted", "C72_unverified_refuted", "C73_encrypt_words", "C73_sign_words", "C74_failure_changes_nothing_partial", "C74_generate_refuted", "C75_permissions", "C76_origin_partial", "C76_stream_origin_partial", "C77_concurrent_runs", "C78_history_partial", "C79_verified_file", "C79_verify_command", "C80_sign", "C81_content_hidden", "C81_stream_content_hidden", "C82_recipients_hidden", "C83_anonymous", "C83_sender_hidden", "C83_stream_anonymous", "C83_stream_sender_hidden", "C84_many_files_any_reader_partial", "C84_many_files_partial", "C84_next_file_untouched_partial", "C84_refuted", "C84_stream_next_file_untouched_partial", "C84_stream_refuted", "C87_follow_along", "C88_any_form", "C89_key_file_hides", "C90_one_destination", "C92_printed_signature_verifies", "C92_sign_exit_status", "C93_both_ends", "C93_option", "C95_no_panic_refuted", "C95_repeated_call_refuted", "C95_set_key_midway_partial", "C96_every_bad_recipient_named", "C96_truthful", "C97_decrypt", "C97_encrypt", "C97_sign", "C98_rewritten_key", "C99_every_command_line", "C99_misspelt_refuted", "C99_zero_partial"], "secs": 1, "early": true, "m": {"edits": [["Bytes.v", "true", "false"]], "definition": "beq", "desc": "Bytes: 'true' -> 'false' (auto)", "breaks": [], "mod": "Bytes", "id": "w0_116"}}
{"mid": "w0_117", "lemmas": ["SshProofs.parse_key_bytes"], "hard": [], "failed": ["C33_openssh_line", "C35_public_partial", "C37_bad_blob_rejected", "C37_blob_exact", "C37_line_exact", "C37_line_partial", "C38_entries_partial", "C43_pair_usable_partial", "C47_verify_exact", "C52_sign_then_verify", "C53_crash_exactly_partial", "C54_round_trip_partial", "C54_string_exact", "C56_decrypt_ends", "C56_encrypt_ends", "C62_verify_report", "C65_generate_encrypt_decrypt", "C66_generate_sign_verify", "C67_public_exact", "C68_only_outputs", "C73_encrypt_words", "C73_sign_words", "C74_failure_changes_nothing_partial", "C75_permissions", "C77_concurrent_runs", "C78_history_partial", "C79_verify_command", "C88_any_form", "C92_printed_signature_verifies"], "secs": 34, "early": true, "m": {"edits": [["Keys.v", "es) : bytes := take 16 (s", "es) : bytes := drop 16 (s"]], "definition": "pkhash", "desc": "Keys: 'take' -> 'drop' (auto)", "breaks": [], "mod": "Keys", "id": "w0_117"}}
{"mid": "w0_118", "error": "edit does not compile: File \"./theories/Told.v\", line 26, characters 29-33:\nError: No interpretation for string \": \".\n\n", "m": {"edits": [["Told.v", "sprintf (argv0 ++ str \": \"", "sprintf (argv0 ++ [] \": \""]], "definition": "warn", "desc": "Told: '++ str' -> '++ []' (auto)", "breaks": [], "mod": "Told", "id": "w0_118"}}
{"mid": "w0_113", "lemmas": ["Thm_Amplify.er_read_kept_left"], "hard": [], "failed": ["C86_no_amplification"], "secs": 166, "early": true, "m": {"edits": [["Stream.v", "n b then Some (drop m b) ", "n b then Some (take m b) "]], "definition": "er_read_kept", "desc": "Stream: 'drop' -> 'take' (auto)", "breaks": [], "mod": "Stream", "id": "w0_113"}}
{"mid": "w0_119", "lemmas": ["TextProofs.find_byte_app"], "hard": [], "failed": ["C38_entries_partial", "C38_sound", "C38_total_and_linewise", "C44_no_overwrite_partial", "C44_old_or_new_partial", "C48_encrypt_exact", "C48_unresolved", "C51_encrypt_then_decrypt", "C56_encrypt_ends", "C64_encrypt_to_stdout", "C64_pipeline", "C65_generate_encrypt_decrypt", "C68_only_outputs", "C73_encrypt_words", "C74_failure_changes_nothing_partial", "C75_permissions", "C77_concurrent_runs", "C78_history_partial", "C88_any_form", "C96_every_bad_recipient_named"], "secs": 8, "early": true, "m": {"edits": [["GoText.v", "te f l' with Some i => Some (i + 1) | None =", "te f l' with Some i => Some (i + 2) | None ="]], "definition": "find_byte", "desc": "GoText: '+ 1' -> '+ 2' (auto)", "breaks": [], "mod": "GoText", "id": "w0_119"}}
{"mid": "w0_121", "lemmas": ["Thm_Flags.dec_same"], "hard": [], "failed": ["C100_texts", "C71_command", "C71_options", "C72_unverified_refuted", "C73_encrypt_words", "C73_sign_words", "C99_every_command_line", "C99_misspelt_refuted", "C99_zero_partial"], "secs": 10, "early": true, "m": {"edits": [["Flags.v", "er\" (Some x76) false;\n   ", "er\" (Some x76) true;\n   "]], "definition": "dec_flags", "desc": "Flags: 'false' -> 'true' (auto)", "breaks": [], "mod": "Flags", "id": "w0_121"}}
{"mid": "w0_122", "lemmas": ["TextProofs.index_sub_spec"], "hard": [], "failed": ["C34_comment_refuted", "C34_private_round_trip_partial", "C35_private_partial", "C35_stale_refuted", "C36_openssh_refuted", "C36_private_panics_exactly", "C36_private_refuted", "C42_stored_objects", "C43_pair_usable_partial", "C56_decrypt_ends", "C56_encrypt_ends", "C56_sign_ends", "C65_generate_encrypt_decrypt", "C66_generate_sign_verify", "C67_one_key", "C67_private_exact", "C73_encrypt_words", "C73_sign_words", "C80_sign", "C88_any_form", "C98_rewritten_key"], "secs": 9, "early": true, "m": {"edits": [["GoText.v", "ub b then Some 0\n  el", "ub b then Some 1\n  el"]], "definition": "index_sub", "desc": "GoText: '0' -> '1' (auto)", "breaks": [], "mod": "GoText", "id": "w0_122"}}
{"mid": "w0_120", "lemmas": ["StreamRead.er_deliver_spec"], "hard": [], "failed": ["C02_stream_round_trip", "C03_encrypted_file_streams", "C03_stream_file_decrypts", "C09_truncated_stream", "C10_stream_complete_partial", "C11_released_data_genuine", "C13_stream_signed_partial", "C29_refuted", "C29_single_reader_partial", "C63_output_genuine", "C69_stream_and_decrypt_agree", "C76_stream_origin_partial", "C84_many_files_any_reader_partial", "C84_stream_next_file_untouched_partial", "C84_stream_refuted", "C87_follow_along", "C88_any_form", "C95_set_key_midway_partial"], "secs": 76, "early": true, "m": {"edits": [["Stream.v", "r s), (take m (drop (er_o", "r s), (take m (take (er_o"]], "definition": "er_deliver", "desc": "Stream: 'drop' -> 'take' (auto)", "breaks": [], "mod": "Stream", "id": "w0_120"}}
{"mid": "w0_124", "lemmas": ["SshProofs.fields_u32"], "hard": [], "failed": ["C36_openssh_refuted", "C36_private_panics_exactly", "C39_container_exact", "C56_decrypt_ends", "C56_encrypt_ends", "C56_sign_ends", "C67_one_key", "C67_private_exact", "C88_any_form", "C98_rewritten_key"], "secs": 11, "early": true, "m": {"edits": [["Ssh.v", "if len data <? 4 then", "if len data <? 5 then"]], "definition": "ssh_fields", "desc": "Ssh: '4' -> '5' (auto)", "breaks": [], "mod": "Ssh", "id": "w0_124"}}
{"mid": "w0_125", "lemmas": ["ToyExt.field_ok"], "hard": [], "failed": ["C38_entries_partial", "C38_sound", "C38_total_and_linewise", "C44_no_overwrite_partial", "C44_old_or_new_partial", "C48_encrypt_exact", "C48_unresolved", "C51_encrypt_then_decrypt", "C56_encrypt_ends", "C64_encrypt_to_stdout", "C64_pipeline", "C65_generate_encrypt_decrypt", "C68_only_outputs", "C73_encrypt_words", "C74_failure_changes_nothing_partial", "C75_permissions", "C77_concurrent_runs", "C78_history_partial", "C88_any_form", "C96_every_bad_recipient_named"], "secs": 6, "early": true, "m": {"edits": [["KeyFiles.v", "++ v", "++ []"]], "definition": "y_field", "desc": "KeyFiles: '++ v' -> '++ []' (auto)", "breaks": [], "mod": "KeyFiles", "id": "w0_125"}}
{"mid": "w0_126", "lemmas": ["Thm_Cli.cli_decrypt_any"], "hard": [], "failed": ["C44_no_overwrite_partial", "C44_old_or_new_partial", "C45_decrypt_to_file_partial", "C51_encrypt_then_decrypt", "C63_decrypt_to_stdout", "C63_output_genuine", "C64_pipeline", "C65_generate_encrypt_decrypt", "C68_only_outputs", "C72_unverified_refuted", "C73_encrypt_words", "C74_failure_changes_nothing_partial", "C75_permissions", "C77_concurrent_runs", "C78_history_partial"], "secs": 29, "early": true, "m": {"edits": [["Cli.v", "if do_test o ", "if negb (do_test o) "]], "definition": "cli_decrypt", "desc": "Cli: 'if do_test o' -> 'if negb (do_test o)' (auto)", "breaks": [], "mod": "Cli", "id": "w0_126"}}
{"mid": "w0_127", "error": "edit does not compile: File \"./theories/Bytes.v\", line 66, characters 54-58:\nError: Illegal application (Non-functional construction): \nThe expression \"[]\" of type \"list ?A\" cannot be applied to the term\n \"z\" : \"Z\"\n\n", "m": {"edits": [["Bytes.v", "++ be32", "++ []"]], "definition": "be64", "desc": "Bytes: '++ be32' -> '++ []' (auto)", "breaks": [], "mod": "Bytes", "id": "w0_127"}}
{"mid": "w0_128", "error": "edit does not compile: File \"./theories/Cli.v\", line 62, characters 37-43:\nError: No interpretation for string \".pub\".\n\n", "m": {"edits": [["Cli.v", " wo_clean W bn ++ str \".pu", " wo_clean W bn ++ [] \".pu"]], "definition": "cli_generate", "desc": "Cli: '++ str' -> '++ []' (auto)", "breaks": [], "mod": "Cli", "id": "w0_128"}}
{"mid": "w0_129", "lemmas": ["SshProofs.parse_key_bytes"], "hard": [], "failed": ["C33_openssh_line", "C35_public_partial", "C37_bad_blob_rejected", "C37_blob_exact", "C37_line_exact", "C37_line_partial", "C38_entries_partial", "C43_pair_usable_partial", "C47_verify_exact", "C52_sign_then_verify", "C53_crash_exactly_partial", "C54_round_trip_partial", "C54_string_exact", "C56_decrypt_ends", "C56_encrypt_ends", "C62_verify_report", "C65_generate_encrypt_decrypt", "C66_generate_sign_verify", "C67_public_exact", "C68_only_outputs", "C73_encrypt_words", "C73_sign_words", "C74_failure_changes_nothing_partial", "C75_permissions", "C77_concurrent_runs", "C78_history_partial", "C79_verify_command", "C88_any_form", "C92_printed_signature_verifies"], "secs": 85, "early": true, "m": {"edits": [["Keys.v", "if negb (len b =? 32) ", "if negb (negb (len b =? 32)) "]], "definition": "make_public_from_bytes", "desc": "Keys: 'if negb (len b =? 32)' -> 'if negb (negb (len b =? 32))' (auto)", "breaks": [], "mod": "Keys", "id": "w0_129"}}
{"mid": "w0_130", "lemmas": ["PbProofs.slice_app"], "hard": [], "failed": ["C01_encrypt_decrypt_round_trip", "C02_stream_round_trip", "C03_encrypted_file_streams", "C03_stream_file_decrypts", "C05_file_format", "C05_stream_format", "C09_truncated_file", "C09_truncated_stream", "C10_complete_partial", "C10_refuted_truncation", "C10_stream_complete_partial", "C11_released_data_genuine", "C13_refuted_recipient_forges", "C14_refuted", "C16_recipients_agree", "C20_refuted", "C23_refuted", "C24_recipients_partial", "C24_refuted", "C29_refuted", "C51_encrypt_then_decrypt", "C63_output_genuine", "C64_pipeline", "C65_generate_encrypt_decrypt", "C72_unverified_refuted", "C73_encrypt_words", "C84_many_files_any_reader_partial", "C84_many_files_partial", "C84_next_file_untouched_partial", "C84_refuted", "C84_stream_next_file_untouched_partial", "C84_stream_refuted", "C87_follow_along", "C88_any_form", "C93_both_ends", "C95_set_key_midway_partial"], "secs": 29, "early": true, "m": {"edits": [["GoErr.v", "bytes :=\n  if (0 <=? ", "bytes :=\n  if (1 <=? "]], "definition": "slice", "desc": "GoErr: '0' -> '1' (auto)", "breaks": [], "mod": "GoErr", "id": "w0_130"}}
{"mid": "w0_131", "lemmas": ["EncryptProofs.wrap_key_spec"], "hard": [], "failed": ["C01_encrypt_decrypt_round_trip", "C01_encrypt_succeeds", "C02_stream_round_trip", "C02_stream_writes_succeed", "C03_encrypted_file_streams", "C03_stream_file_decrypts", "C04_fragmentation_independent", "C04_stream_agrees_with_encrypt", "C04_stream_write_sizes_irrelevant", "C05_file_format", "C05_stream_format", "C06_chunks", "C06_stream_chunks", "C07_nonces_distinct_partial", "C07_refuted_counter_wraps", "C07_refuted_second_encrypt", "C07_stream_nonces_distinct_partial", "C07_stream_refuted_counter_wraps", "C08_tampered_header", "C08_tampered_stream_header", "C09_truncated_file", "C09_truncated_stream", "C10_complete_partial", "C10_refuted_truncation", "C10_stream_complete_partial", "C11_released_data_genuine", "C13_refuted_recipient_forges", "C14_refuted", "C16_own_entry_opens", "C16_recipients_agree", "C20_refuted", "C21_encrypt_errors_partial", "C23_chunk_size_partial", "C23_refuted", "C24_recipients_partial", "C24_refuted", "C27_writes", "C29_refuted", "C48_encrypt_succeeds", "C51_encrypt_then_decrypt", "C56_encrypt_ends", "C57_encrypt_size", "C57_stream_size", "C58_file_randomness", "C58_stream_randomness", "C59_encrypt_against_stream", "C61_rejected_exactly", "C63_output_genuine", "C64_encrypt_succeeds", "C64_pipeline", "C65_generate_encrypt_decrypt", "C72_unverified_refuted", "C73_encrypt_words", "C76_origin_partial", "C76_stream_origin_partial", "C81_content_hidden", "C81_stream_content_hidden", "C82_recipients_hidden", "C83_anonymous", "C83_sender_hidden", "C83_stream_anonymous", "C83_stream_sender_hidden", "C84_many_files_any_reader_partial", "C84_many_files_partial", "C84_next_file_untouched_partial", "C84_refuted", "C84_stream_next_file_untouched_partial", "C84_stream_refuted", "C85_encryptor_never_panics", "C87_follow_along", "C88_any_form", "C93_both_ends", "C93_discloses", "C95_set_key_midway_partial"], "secs": 22, "early": true, "m": {"edits": [["Crypto.v", " : bytes) : res bytes :=\n  if negb (len scalar", " : bytes) : res bytes :=\n  if id (len scalar"]], "definition": "X25519", "desc": "Crypto: 'negb (' -> 'id (' (auto)", "breaks": [], "mod": "Crypto", "id": "w0_131"}}
{"mid": "w0_123", "lemmas": ["Thm_KeyFiles.C36_private_refuted"], "hard": [], "failed": ["C36_private_refuted"], "secs": 245, "early": true, "m": {"edits": [["Bytes.v", ") : Z := z mod 2^64.\n", ") : Z := z mod 3^64.\n"]], "definition": "u64", "desc": "Bytes: '2' -> '3' (auto)", "breaks": [], "mod": "Bytes", "id": "w0_123"}}
{"mid": "w0_133", "lemmas": ["Thm_Race.inv_begin"], "hard": [], "failed": ["C94_caches", "C94_goroutines_partial"], "secs": 8, "early": true, "m": {"edits": [["Race.v", "\n  | PkCache k 0 => m", "\n  | PkCache k 1 => m"]], "definition": "cells_of", "desc": "Race: '0' -> '1' (auto)", "breaks": [], "mod": "Race", "id": "w0_133"}}
{"mid": "w0_132", "lemmas": ["EncryptProofs.encrypt_spec"], "hard": [], "failed": ["C01_encrypt_decrypt_round_trip", "C01_encrypt_succeeds", "C02_stream_round_trip", "C03_encrypted_file_streams", "C03_stream_file_decrypts", "C04_fragmentation_independent", "C04_stream_agrees_with_encrypt", "C05_file_format", "C06_chunks", "C07_nonces_distinct_partial", "C07_refuted_counter_wraps", "C07_refuted_second_encrypt", "C08_tampered_header", "C09_truncated_file", "C09_truncated_stream", "C10_complete_partial", "C10_refuted_truncation", "C10_stream_complete_partial", "C11_released_data_genuine", "C13_refuted_recipient_forges", "C14_refuted", "C16_recipients_agree", "C20_refuted", "C21_encrypt_errors_partial", "C23_refuted", "C24_recipients_partial", "C24_refuted", "C29_refuted", "C48_encrypt_succeeds", "C51_encrypt_then_decrypt", "C57_encrypt_size", "C58_file_randomness", "C59_encrypt_against_stream", "C63_output_genuine", "C64_encrypt_succeeds", "C64_pipeline", "C65_generate_encrypt_decrypt", "C72_unverified_refuted", "C73_encrypt_words", "C76_origin_partial", "C76_stream_origin_partial", "C81_content_hidden", "C83_anonymous", "C83_sender_hidden", "C84_many_files_any_reader_partial", "C84_many_files_partial", "C84_next_file_untouched_partial", "C84_refuted", "C84_stream_next_file_untouched_partial", "C84_stream_refuted", "C88_any_form", "C93_both_ends", "C93_discloses", "C95_set_key_midway_partial"], "secs": 19, "early": true, "m": {"edits": [["Encrypt.v", "size r)) e r w 0 g in", "size r)) e r w 1 g in"]], "definition": "encrypt", "desc": "Encrypt: '0' -> '1' (auto)", "breaks": [], "mod": "Encrypt", "id": "w0_132"}}
{"mid": "w0_135", "lemmas": ["DecryptProofs.dec_chunk_spec"], "hard": [], "failed": ["C01_encrypt_decrypt_round_trip", "C02_stream_round_trip", "C03_encrypted_file_streams", "C03_stream_file_decrypts", "C09_truncated_file", "C09_truncated_stream", "C10_complete_partial", "C10_refuted_truncation", "C10_stream_complete_partial", "C11_released_data_genuine", "C13_content_signed_partial", "C13_refuted_recipient_forges", "C13_stream_signed_partial", "C14_refuted", "C29_refuted", "C29_single_reader_partial", "C51_encrypt_then_decrypt", "C63_output_genuine", "C64_pipeline", "C65_generate_encrypt_decrypt", "C69_stream_and_decrypt_agree", "C73_encrypt_words", "C76_origin_partial", "C76_stream_origin_partial", "C84_many_files_any_reader_partial", "C84_many_files_partial", "C84_next_file_untouched_partial", "C84_refuted", "C84_stream_next_file_untouched_partial", "C84_stream_refuted", "C87_follow_along", "C88_any_form", "C95_set_key_midway_partial"], "secs": 18, "early": true, "m": {"edits": [["Decrypt.v", "++ b", "++ []"]], "definition": "dec_chunk", "desc": "Decrypt: '++ b' -> '++ []' (auto)", "breaks": [], "mod": "Decrypt", "id": "w0_135"}}
{"mid": "w0_136", "lemmas": ["EncryptProofs.add_sender_sig_spec"], "hard": [], "failed": ["C01_encrypt_decrypt_round_trip", "C01_encrypt_succeeds", "C02_stream_round_trip", "C02_stream_writes_succeed", "C03_encrypted_file_streams", "C03_stream_file_decrypts", "C04_fragmentation_independent", "C04_stream_agrees_with_encrypt", "C04_stream_write_sizes_irrelevant", "C05_file_format", "C05_stream_format", "C06_chunks", "C06_stream_chunks", "C07_nonces_distinct_partial", "C07_refuted_counter_wraps", "C07_refuted_second_encrypt", "C07_stream_nonces_distinct_partial", "C07_stream_refuted_counter_wraps", "C08_tampered_header", "C08_tampered_stream_header", "C09_truncated_file", "C09_truncated_stream", "C10_complete_partial", "C10_refuted_truncation", "C10_stream_complete_partial", "C11_released_data_genuine", "C13_refuted_recipient_forges", "C14_refuted", "C16_own_entry_opens", "C16_recipients_agree", "C20_refuted", "C21_encrypt_errors_partial", "C23_chunk_size_partial", "C23_refuted", "C24_recipients_partial", "C24_refuted", "C27_writes", "C29_refuted", "C48_encrypt_succeeds", "C51_encrypt_then_decrypt", "C56_encrypt_ends", "C57_encrypt_size", "C57_stream_size", "C58_file_randomness", "C58_stream_randomness", "C59_encrypt_against_stream", "C61_rejected_exactly", "C63_output_genuine", "C64_encrypt_succeeds", "C64_pipeline", "C65_generate_encrypt_decrypt", "C72_unverified_refuted", "C73_encrypt_words", "C76_origin_partial", "C76_stream_origin_partial", "C81_content_hidden", "C81_stream_content_hidden", "C82_recipients_hidden", "C83_anonymous", "C83_sender_hidden", "C83_stream_anonymous", "C83_stream_sender_hidden", "C84_many_files_any_reader_partial", "C84_many_files_partial", "C84_next_file_untouched_partial", "C84_refuted", "C84_stream_next_file_untouched_partial", "C84_stream_refuted", "C85_encryptor_never_panics", "C87_follow_along", "C88_any_form", "C93_both_ends", "C93_discloses", "C95_set_key_midway_partial"], "secs": 16, "early": true, "m": {"edits": [["Encrypt.v", "eros sig_size, false)\n   ", "eros sig_size, true)\n   "]], "definition": "add_sender_sig", "desc": "Encrypt: 'false' -> 'true' (auto)", "breaks": [], "mod": "Encrypt", "id": "w0_136"}}
{"mid": "w0_137", "lemmas": ["Thm_Usage.calls_texts"], "hard": [], "failed": ["C100_texts"], "secs": 3, "early": true, "m": {"edits": [["Usage.v", "if get_bool s (str \"version\") false ", "if negb (get_bool s (str \"version\") false) "]], "definition": "main_texts", "desc": "Usage: 'if get_bool s (str \"version\") false' -> 'if negb (get_bool s (str \"version\") false)' (auto)", "breaks": [], "mod": "Usage", "id": "w0_137"}}
{"mid": "w0_138", "lemmas": ["CliProofs.enc_recipients_spec"], "hard": [], "failed": ["C44_old_or_new_partial", "C48_encrypt_exact", "C48_unresolved", "C51_encrypt_then_decrypt", "C56_encrypt_ends", "C64_encrypt_to_stdout", "C64_pipeline", "C65_generate_encrypt_decrypt", "C73_encrypt_words", "C74_failure_changes_nothing_partial"], "secs": 8, "early": true, "m": {"edits": [["Cli.v", "if is_user fn ", "if negb (is_user fn) "]], "definition": "enc_recipients", "desc": "Cli: 'if is_user fn' -> 'if negb (is_user fn)' (auto)", "breaks": [], "mod": "Cli", "id": "w0_138"}}
{"mid": "w0_139", "lemmas": ["EncryptProofs.enc_block_spec"], "hard": [], "failed": ["C01_encrypt_decrypt_round_trip", "C01_encrypt_succeeds", "C02_stream_round_trip", "C02_stream_writes_succeed", "C03_encrypted_file_streams", "C03_stream_file_decrypts", "C04_fragmentation_independent", "C04_stream_agrees_with_encrypt", "C04_stream_write_sizes_irrelevant", "C05_file_format", "C05_stream_format", "C06_chunks", "C06_stream_chunks", "C07_nonces_distinct_partial", "C07_refuted_counter_wraps", "C07_refuted_second_encrypt", "C07_stream_nonces_distinct_partial", "C07_stream_refuted_counter_wraps", "C08_tampered_header", "C08_tampered_stream_header", "C09_truncated_file", "C09_truncated_stream", "C10_complete_partial", "C10_refuted_truncation", "C10_stream_complete_partial", "C11_released_data_genuine", "C13_refuted_recipient_forges", "C14_refuted", "C16_recipients_agree", "C20_refuted", "C21_encrypt_errors_partial", "C23_refuted", "C24_recipients_partial", "C24_refuted", "C27_writes", "C29_refuted", "C48_encrypt_succeeds", "C51_encrypt_then_decrypt", "C56_encrypt_ends", "C57_encrypt_size", "C57_stream_size", "C58_file_randomness", "C58_stream_randomness", "C59_encrypt_against_stream", "C63_output_genuine", "C64_encrypt_succeeds", "C64_pipeline", "C65_generate_encrypt_decrypt", "C72_unverified_refuted", "C73_encrypt_words", "C76_origin_partial", "C76_stream_origin_partial", "C81_content_hidden", "C81_stream_content_hidden", "C83_anonymous", "C83_sender_hidden", "C83_stream_anonymous", "C83_stream_sender_hidden", "C84_many_files_any_reader_partial", "C84_many_files_partial", "C84_next_file_untouched_partial", "C84_refuted", "C84_stream_next_file_untouched_partial", "C84_stream_refuted", "C85_encryptor_never_panics", "C87_follow_along", "C88_any_form", "C93_both_ends", "C93_discloses", "C95_set_key_midway_partial"], "secs": 9, "early": true, "m": {"edits": [["Encrypt.v", "++ pt", "++ []"]], "definition": "enc_block", "desc": "Encrypt: '++ pt' -> '++ []' (auto)", "breaks": [], "mod": "Encrypt", "id": "w0_139"}}
{"mid": "w0_140", "lemmas": ["FlagsProofs.parse_bool_cases"], "hard": [], "failed": ["C100_texts", "C71_command", "C71_options", "C72_unverified_refuted", "C73_encrypt_words", "C73_sign_words", "C93_option", "C99_every_command_line", "C99_misspelt_refuted", "C99_zero_partial"], "secs": 5, "early": true, "m": {"edits": [["Flags.v", "if existsb (beq s) [str \"1\"; str \"t\"; str \"T\"; str \"TRUE\"; str \"true\"; str \"True\"] ", "if negb (existsb (beq s) [str \"1\"; str \"t\"; str \"T\"; str \"TRUE\"; str \"true\"; str \"True\"]) "]], "definition": "parse_bool", "desc": "Flags: 'if existsb (beq s) [str \"1\"; str \"t\"; str \"T\"; str \"TRUE\"; str \"true\"; str \"True\"]' -> 'if negb (existsb (beq s) [str \"1\"; str \"t\"; str \"T\"; str \"TRUE\"; str \"true\"; str \"True\"])' (auto)", "breaks": [], "mod": "Flags", "id": "w0_140"}}
{"mid": "w0_134", "lemmas": ["SshKeyProofs.good_pad_inv"], "hard": [], "failed": ["C35_private_partial", "C39_container_exact", "C43_pair_usable_partial", "C52_sign_then_verify", "C56_encrypt_ends", "C56_sign_ends", "C65_generate_encrypt_decrypt", "C66_generate_sign_verify", "C67_one_key", "C67_private_exact", "C73_encrypt_words", "C73_sign_words", "C80_sign", "C88_any_form", "C92_printed_signature_verifies", "C92_sign_exit_status", "C92_sign_to_stdout", "C98_rewritten_key"], "secs": 95, "early": true, "m": {"edits": [["Ssh.v", "_pad pad' (i + 1) end", "_pad pad' (i + 2) end"]], "definition": "good_pad", "desc": "Ssh: '1' -> '2' (auto)", "breaks": [], "mod": "Ssh", "id": "w0_134"}}
{"mid": "w0_142", "lemmas": ["TextProofs.not_prefix_head"], "hard": [], "failed": ["C37_line_partial", "C38_entries_partial", "C88_any_form"], "secs": 14, "early": true, "m": {"edits": [["GoText.v", " _ :: _, [] => false\n  en", " _ :: _, [] => true\n  en"]], "definition": "is_prefix", "desc": "GoText: 'false' -> 'true' (auto)", "breaks": [], "mod": "GoText", "id": "w0_142"}}
{"mid": "w0_143", "lemmas": [], "hard": [], "failed": [], "secs": 73, "m": {"edits": [["Told.v", "\"%!s(MISSING)\" ++ s) | N", "\"%!s(MISSING)\" ++ []) | N"]], "definition": "sprintf", "desc": "Told: '++ s' -> '++ []' (auto)", "breaks": [], "mod": "Told", "id": "w0_143"}}
{"mid": "w0_144", "lemmas": ["OpenProofs.new_decryptor_spec"], "hard": [], "failed": ["C01_encrypt_decrypt_round_trip", "C02_stream_round_trip", "C03_encrypted_file_streams", "C03_stream_file_decrypts", "C08_accepted_header", "C08_tampered_header", "C08_tampered_stream_header", "C09_truncated_file", "C09_truncated_stream", "C10_complete_partial", "C10_refuted_truncation", "C10_stream_complete_partial", "C11_released_data_genuine", "C13_content_signed_partial", "C13_refuted_recipient_forges", "C13_stream_signed_partial", "C14_refuted", "C16_recipients_agree", "C20_refuted", "C23_refuted", "C24_recipients_partial", "C24_refuted", "C29_refuted", "C29_single_reader_partial", "C51_encrypt_then_decrypt", "C63_output_genuine", "C64_pipeline", "C65_generate_encrypt_decrypt", "C69_stream_and_decrypt_agree", "C70_one_file_per_encryptor", "C72_unverified_refuted", "C73_encrypt_words", "C76_origin_partial", "C76_stream_origin_partial", "C84_many_files_any_reader_partial", "C84_many_files_partial", "C84_next_file_untouched_partial", "C84_refuted", "C84_stream_next_file_untouched_partial", "C84_stream_refuted", "C87_follow_along", "C88_any_form", "C93_both_ends", "C95_set_key_midway_partial"], "secs": 99, "early": true, "m": {"edits": [["Decrypt.v", "if 1048576 <? varSize ", "if negb (1048576 <? varSize) "]], "definition": "new_decryptor", "desc": "Decrypt: 'if 1048576 <? varSize' -> 'if negb (1048576 <? varSize)' (auto)", "breaks": [], "mod": "Decrypt", "id": "w0_144"}}
{"mid": "w0_145", "lemmas": ["SshKeyProofs.section_ok"], "hard": [], "failed": ["C39_container_exact", "C67_one_key", "C67_private_exact", "C88_any_form", "C98_rewritten_key"], "secs": 113, "early": true, "m": {"edits": [["Ssh.v", "b (len priv =? 64) the", "b (len priv =? 65) the"]], "definition": "open_section", "desc": "Ssh: '64' -> '65' (auto)", "breaks": [], "mod": "Ssh", "id": "w0_145"}}
{"mid": "w0_146", "lemmas": ["Thm_Reads.C97_encrypt"], "hard": [], "failed": ["C97_encrypt"], "secs": 6, "early": true, "m": {"edits": [["Told.v", "| Ok blk =>\n      match (if 0 <? len (eo_k", "| Ok blk =>\n      match (if 0 <=? len (eo_k"]], "definition": "encrypt_told", "desc": "Told: '<?' -> '<=?' (auto)", "breaks": [], "mod": "Told", "id": "w0_146"}}
{"mid": "w0_147", "lemmas": ["SshProofs.unmarshal_inv"], "hard": [], "failed": ["C33_openssh_line", "C35_private_partial", "C35_public_partial", "C36_private_panics_exactly", "C36_private_partial", "C37_bad_blob_rejected", "C37_blob_exact", "C37_line_exact", "C37_line_partial", "C38_sound", "C39_container_exact", "C43_pair_usable_partial", "C47_verify_exact", "C52_sign_then_verify", "C53_crash_exactly_partial", "C54_round_trip_partial", "C54_string_exact", "C56_decrypt_ends", "C56_encrypt_ends", "C56_sign_ends", "C62_verify_report", "C65_generate_encrypt_decrypt", "C66_generate_sign_verify", "C67_one_key", "C67_private_exact", "C67_public_exact", "C68_only_outputs", "C73_encrypt_words", "C73_sign_words", "C74_failure_changes_nothing_partial", "C75_permissions", "C77_concurrent_runs", "C78_history_partial", "C79_verify_command", "C80_sign", "C88_any_form", "C92_printed_signature_verifies", "C92_sign_exit_status", "C92_sign_to_stdout", "C98_rewritten_key"], "secs": 17, "early": true, "m": {"edits": [["Ssh.v", "if len data =? 0 then", "if len data =? 1 then"]], "definition": "ssh_unmarshal", "desc": "Ssh: '0' -> '1' (auto)", "breaks": [], "mod": "Ssh", "id": "w0_147"}}
{"mid": "w0_148", "lemmas": ["Thm_Chain.C53_crash_exactly_partial"], "hard": [], "failed": ["C53_crash_exactly_partial"], "secs": 44, "early": true, "m": {"edits": [["Cli.v", "ok then 0 else 1) C E", "ok then 0 else 2) C E"]], "definition": "cli_verify", "desc": "Cli: '1' -> '2' (auto)", "breaks": [], "mod": "Cli", "id": "w0_148"}}
{"mid": "w0_149", "lemmas": ["StreamProofs.new_stream_writer_spec"], "hard": [], "failed": ["C02_stream_round_trip", "C02_stream_writes_succeed", "C03_encrypted_file_streams", "C03_stream_file_decrypts", "C04_stream_agrees_with_encrypt", "C04_stream_write_sizes_irrelevant", "C05_stream_format", "C06_stream_chunks", "C07_stream_nonces_distinct_partial", "C07_stream_refuted_counter_wraps", "C08_tampered_stream_header", "C09_truncated_file", "C09_truncated_stream", "C10_complete_partial", "C10_refuted_truncation", "C10_stream_complete_partial", "C11_released_data_genuine", "C13_refuted_recipient_forges", "C14_refuted", "C20_refuted", "C27_writes", "C29_refuted", "C57_stream_size", "C58_stream_randomness", "C59_encrypt_against_stream", "C63_output_genuine", "C72_unverified_refuted", "C76_origin_partial", "C76_stream_origin_partial", "C81_stream_content_hidden", "C83_stream_anonymous", "C83_stream_sender_hidden", "C84_many_files_any_reader_partial", "C84_many_files_partial", "C84_next_file_untouched_partial", "C84_refuted", "C84_stream_next_file_untouched_partial", "C84_stream_refuted", "C87_follow_along", "C88_any_form", "C93_discloses", "C95_set_key_midway_partial"], "secs": 58, "early": true, "m": {"edits": [["Stream.v", "w, Ok (mkEw [] 0 None", "w, Ok (mkEw [] 1 None"]], "definition": "new_stream_writer", "desc": "Stream: '0' -> '1' (auto)", "breaks": [], "mod": "Stream", "id": "w0_149"}}
{"mid": "w0_150", "lemmas": ["FlagsProofs.letters_parse"], "hard": [], "failed": ["C100_texts", "C71_command", "C71_options", "C72_unverified_refuted", "C73_encrypt_words", "C73_sign_words", "C93_option", "C99_every_command_line", "C99_misspelt_refuted", "C99_zero_partial"], "secs": 7, "early": true, "m": {"edits": [["Flags.v", "<?", "<=?"]], "definition": "parse_short", "desc": "Flags: '<?' -> '<=?' (auto)", "breaks": [], "mod": "Flags", "id": "w0_150"}}
{"mid": "w0_151", "lemmas": ["EncryptProofs.be32_u32"], "hard": [], "failed": ["C01_encrypt_decrypt_round_trip", "C01_encrypt_succeeds", "C02_stream_round_trip", "C02_stream_writes_succeed", "C03_encrypted_file_streams", "C03_stream_file_decrypts", "C04_fragmentation_independent", "C04_stream_agrees_with_encrypt", "C04_stream_write_sizes_irrelevant", "C05_file_format", "C05_stream_format", "C06_chunks", "C06_stream_chunks", "C07_nonces_distinct_partial", "C07_refuted_counter_wraps", "C07_refuted_second_encrypt", "C07_stream_nonces_distinct_partial", "C07_stream_refuted_counter_wraps", "C08_tampered_header", "C08_tampered_stream_header", "C09_truncated_file", "C09_truncated_stream", "C10_complete_partial", "C10_refuted_truncation", "C10_stream_complete_partial", "C11_released_data_genuine", "C13_content_signed_partial", "C13_refuted_recipient_forges", "C13_stream_signed_partial", "C14_refuted", "C16_recipients_agree", "C20_refuted", "C21_encrypt_errors_partial", "C23_refuted", "C24_recipients_partial", "C24_refuted", "C27_writes", "C29_refuted", "C29_single_reader_partial", "C48_encrypt_succeeds", "C51_encrypt_then_decrypt", "C56_encrypt_ends", "C57_encrypt_size", "C57_stream_size", "C58_file_randomness", "C58_stream_randomness", "C59_encrypt_against_stream", "C63_output_genuine", "C64_encrypt_succeeds", "C64_pipeline", "C65_generate_encrypt_decrypt", "C69_stream_and_decrypt_agree", "C72_unverified_refuted", "C73_encrypt_words", "C76_origin_partial", "C76_stream_origin_partial", "C81_content_hidden", "C81_stream_content_hidden", "C83_anonymous", "C83_sender_hidden", "C83_stream_anonymous", "C83_stream_sender_hidden", "C84_many_files_any_reader_partial", "C84_many_files_partial", "C84_next_file_untouched_partial", "C84_refuted", "C84_stream_next_file_untouched_partial", "C84_stream_refuted", "C85_encryptor_never_panics", "C87_follow_along", "C88_any_form", "C93_both_ends", "C93_discloses", "C93_encryptor_messages", "C95_set_key_midway_partial"], "secs": 40, "early": true, "m": {"edits": [["Bytes.v", ": Z := z mod 2^32.\nDef", ": Z := z mod 2^33.\nDef"]], "definition": "u32", "desc": "Bytes: '32' -> '33' (auto)", "breaks": [], "mod": "Bytes", "id": "w0_151"}}
{"mid": "w0_152", "lemmas": ["Thm_KeyFiles.C35_private_partial"], "hard": [], "failed": ["C35_private_partial", "C80_sign"], "secs": 121, "early": true, "m": {"edits": [["Ssh.v", "if pem_encrypted b ", "if negb (pem_encrypted b) "]], "definition": "parse_ssh_private", "desc": "Ssh: 'if pem_encrypted b' -> 'if negb (pem_encrypted b)' (auto)", "breaks": [], "mod": "Ssh", "id": "w0_152"}}
