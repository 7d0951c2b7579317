{"mid": "q002", "lemmas": ["CliProofs.slurp_ok"], "hard": [], "failed": ["C103_zero_means_done", "C105_past", "C105_past_generate", "C44_no_overwrite_partial", "C44_old_or_new_partial", "C45_decrypt_succeeds", "C45_decrypt_to_file_partial", "C45_test_mode", "C46_refuted", "C46_sender_partial", "C47_verify_exact", "C48_encrypt_exact", "C48_encrypt_succeeds", "C48_unresolved", "C49_sign_partial", "C51_encrypt_then_decrypt", "C52_sign_then_verify", "C53_crash_exactly_partial", "C56_decrypt_ends", "C56_encrypt_ends", "C56_sign_ends", "C62_verify_report", "C63_decrypt_to_stdout", "C63_output_genuine", "C64_encrypt_succeeds", "C64_encrypt_to_stdout", "C64_pipeline", "C65_generate_encrypt_decrypt", "C66_generate_sign_verify", "C68_only_outputs", "C72_unverified_refuted", "C73_encrypt_words", "C73_sign_words", "C74_failure_changes_nothing_partial", "C75_permissions", "C75_who_may", "C77_concurrent_runs", "C78_history_partial", "C79_verify_command", "C80_sign", "C92_printed_signature_verifies", "C92_sign_exit_status", "C92_sign_to_stdout", "C96_every_bad_recipient_named", "C96_truthful"], "secs": 6, "early": true, "m": {"id": "q002", "definition": "slurp", "desc": "a file that may not be read is read", "breaks": ["C47"], "edits": [["Cli.v", "read_file (wo_fs W) (wo_place W p) (wo_refused W p)", "read_file (wo_fs W) (wo_place W p) None"]]}}
{"mid": "q001", "lemmas": ["Base64Proofs.b64_decode_iff"], "hard": [], "failed": ["C103_zero_means_done", "C105_past", "C105_past_generate", "C32_signature_reading_exact", "C32_signature_round_trip", "C33_openssh_line", "C33_public_round_trip", "C33_yaml_exact", "C34_private_round_trip_partial", "C35_public_partial", "C36_private_panics_exactly", "C36_private_partial", "C36_private_refuted", "C36_public_panics_exactly", "C37_bad_blob_rejected", "C37_blob_exact", "C37_line_exact", "C37_line_partial", "C38_entries_partial", "C38_sound", "C40_decode_exact", "C40_refused", "C40_round_trip", "C42_stored_objects", "C43_pair_usable_partial", "C47_verify_exact", "C52_sign_then_verify", "C53_crash_exactly_partial", "C54_refuted", "C54_round_trip_partial", "C54_string_exact", "C56_decrypt_ends", "C56_encrypt_ends", "C56_sign_ends", "C62_verify_report", "C65_generate_encrypt_decrypt", "C66_generate_sign_verify", "C67_one_key", "C67_private_exact", "C67_public_exact", "C68_only_outputs", "C73_encrypt_words", "C73_sign_words", "C74_failure_changes_nothing_partial", "C75_permissions", "C75_who_may", "C77_concurrent_runs", "C78_history_partial", "C79_verify_command", "C88_any_form", "C92_printed_signature_verifies", "C98_rewritten_key"], "secs": 6, "early": true, "m": {"id": "q001", "definition": "b64_decode", "desc": "wrong text gives no bytes instead of an error", "breaks": ["C40"], "edits": [["Base64.v", "| None => Fail (EMsg \"illegal base64 data\") end", "| None => Ok [] end"]]}}
{"mid": "q003", "lemmas": ["Thm_Commands.map_in_holds"], "hard": [], "failed": ["C103_zero_means_done", "C105_past", "C105_past_generate", "C47_verify_exact", "C49_sign_partial", "C52_sign_then_verify", "C62_verify_report", "C66_generate_sign_verify", "C68_only_outputs", "C73_sign_words", "C74_failure_changes_nothing_partial", "C75_permissions", "C75_who_may", "C77_concurrent_runs", "C78_history_partial", "C79_verify_command", "C80_sign", "C92_printed_signature_verifies", "C92_sign_exit_status", "C92_sign_to_stdout"], "secs": 41, "early": true, "m": {"id": "q003", "definition": "map_in", "desc": "a missing file counts as empty", "breaks": ["C47", "C49"], "edits": [["Cli.v", "| None => Unopenable enoent", "| None => wo_mapped W p []"]]}}
{"mid": "q004", "lemmas": ["Thm_Commands.map_in_holds"], "hard": [], "failed": ["C103_zero_means_done", "C105_past", "C105_past_generate", "C47_verify_exact", "C49_sign_partial", "C52_sign_then_verify", "C62_verify_report", "C66_generate_sign_verify", "C68_only_outputs", "C73_sign_words", "C74_failure_changes_nothing_partial", "C75_permissions", "C75_who_may", "C77_concurrent_runs", "C78_history_partial", "C79_verify_command", "C80_sign", "C92_printed_signature_verifies", "C92_sign_exit_status", "C92_sign_to_stdout"], "secs": 42, "early": true, "m": {"id": "q004", "definition": "map_in", "desc": "permission to read is not checked", "breaks": ["C49"], "edits": [["Cli.v", "match wo_refused W p with Some e => Unopenable e | None => wo_mapped W p b end", "wo_mapped W p b"]]}}
{"mid": "q005", "lemmas": ["Thm_Debug.ecalls_silent"], "hard": [], "failed": ["C93_encryptor_messages"], "secs": 6, "early": true, "m": {"id": "q005", "definition": "ecalls_debug", "desc": "messages of later calls are those of a fresh Encryptor", "breaks": ["C93"], "edits": [["Debug.v", "ecalls_debug C level (fst (estep C st c)) cs'", "ecalls_debug C level st cs'"]]}}
{"mid": "q006", "lemmas": ["Thm_Debug.C93_decryptor_messages"], "hard": [], "failed": ["C93_decryptor_messages"], "secs": 7, "early": true, "m": {"id": "q006", "definition": "dcalls_debug", "desc": "messages of later calls are those of a fresh Decryptor", "breaks": ["C93"], "edits": [["Debug.v", "dcalls_debug C level (fst (dstep C st c)) cs'", "dcalls_debug C level st cs'"]]}}
{"mid": "q008", "lemmas": ["DecryptProofs.dec_loop_spec"], "hard": [], "failed": ["C01_encrypt_decrypt_round_trip", "C02_stream_round_trip", "C03_encrypted_file_streams", "C03_stream_file_decrypts", "C09_truncated_file", "C10_complete_partial", "C10_refuted_truncation", "C11_released_data_genuine", "C13_content_signed_partial", "C13_refuted_recipient_forges", "C14_refuted", "C51_encrypt_then_decrypt", "C63_output_genuine", "C64_pipeline", "C65_generate_encrypt_decrypt", "C69_stream_and_decrypt_agree", "C73_encrypt_words", "C76_origin_partial", "C84_many_files_any_reader_partial", "C84_many_files_partial", "C84_next_file_untouched_partial", "C84_refuted", "C88_any_form"], "secs": 22, "early": true, "m": {"id": "q008", "definition": "d_set_eof", "desc": "the reader's end is forgotten", "breaks": ["C28"], "edits": [["Decrypt.v", "(d_hdrsum d) (d_auth d) eof (d_stream d).", "(d_hdrsum d) (d_auth d) (d_eof d) (d_stream d)."]]}}
{"mid": "q009", "lemmas": ["StreamRead.dlive_set_eof"], "hard": [], "failed": ["C02_stream_round_trip", "C03_encrypted_file_streams", "C03_stream_file_decrypts", "C09_truncated_stream", "C10_stream_complete_partial", "C11_released_data_genuine", "C13_stream_signed_partial", "C20_every_history_partial", "C20_no_panic_partial", "C28_read_discipline", "C29_refuted", "C29_single_reader_partial", "C63_output_genuine", "C69_stream_and_decrypt_agree", "C76_stream_origin_partial", "C84_many_files_any_reader_partial", "C84_stream_next_file_untouched_partial", "C84_stream_refuted", "C87_follow_along", "C88_any_form", "C95_set_key_midway_partial"], "secs": 126, "early": true, "m": {"id": "q009", "definition": "d_set_eof", "desc": "the sender's authentication is set to the end mark", "breaks": ["C12"], "edits": [["Decrypt.v", "(d_hdrsum d) (d_auth d) eof (d_stream d).", "(d_hdrsum d) eof eof (d_stream d)."]]}}
{"mid": "q007", "lemmas": ["Thm_Encrypt.C01_encrypt_decrypt_round_trip"], "hard": [], "failed": ["C01_encrypt_decrypt_round_trip", "C51_encrypt_then_decrypt", "C64_pipeline", "C65_generate_encrypt_decrypt", "C73_encrypt_words"], "secs": 157, "early": true, "m": {"id": "q007", "definition": "authenticated_sender", "desc": "always false", "breaks": ["C12"], "edits": [["Decrypt.v", "authenticated_sender (d : decryptor) : bool := d_auth d", "authenticated_sender (d : decryptor) : bool := false"]]}}
{"mid": "q010", "lemmas": ["EncryptProofs.full_header_code"], "hard": [], "failed": ["C01_encrypt_decrypt_round_trip", "C01_encrypt_succeeds", "C02_stream_round_trip", "C02_stream_writes_succeed", "C03_encrypted_file_streams", "C03_stream_file_decrypts", "C04_fragmentation_independent", "C04_stream_agrees_with_encrypt", "C04_stream_write_sizes_irrelevant", "C05_file_format", "C05_stream_format", "C06_chunks", "C06_stream_chunks", "C07_nonces_distinct_partial", "C07_refuted_counter_wraps", "C07_refuted_second_encrypt", "C07_stream_nonces_distinct_partial", "C07_stream_refuted_counter_wraps", "C08_tampered_header", "C08_tampered_stream_header", "C09_truncated_file", "C09_truncated_stream", "C104_header", "C10_complete_partial", "C10_refuted_truncation", "C10_stream_complete_partial", "C11_released_data_genuine", "C13_refuted_recipient_forges", "C14_refuted", "C16_recipients_agree", "C20_refuted", "C21_encrypt_errors_partial", "C23_refuted", "C24_recipients_partial", "C24_refuted", "C27_writes", "C29_refuted", "C48_encrypt_succeeds", "C51_encrypt_then_decrypt", "C56_encrypt_ends", "C57_encrypt_size", "C57_stream_size", "C58_file_randomness", "C58_stream_randomness", "C59_encrypt_against_stream", "C63_output_genuine", "C64_encrypt_succeeds", "C64_pipeline", "C65_generate_encrypt_decrypt", "C72_unverified_refuted", "C73_encrypt_words", "C76_origin_partial", "C76_stream_origin_partial", "C81_content_hidden", "C81_stream_content_hidden", "C83_anonymous", "C83_sender_hidden", "C83_stream_anonymous", "C83_stream_sender_hidden", "C84_many_files_any_reader_partial", "C84_many_files_partial", "C84_next_file_untouched_partial", "C84_refuted", "C84_stream_next_file_untouched_partial", "C84_stream_refuted", "C85_encryptor_never_panics", "C87_follow_along", "C88_any_form", "C93_both_ends", "C93_discloses", "C93_encryptor_messages", "C95_set_key_midway_partial"], "secs": 11, "early": true, "m": {"id": "q010", "definition": "magic", "desc": "another magic", "breaks": ["C05"], "edits": [["Encrypt.v", "magic : bytes := str \"SigTool\"", "magic : bytes := str \"sigtool\""]]}}
{"mid": "q011", "lemmas": ["EncryptProofs.wrap_key_spec"], "hard": [], "failed": ["C01_encrypt_decrypt_round_trip", "C01_encrypt_succeeds", "C02_stream_round_trip", "C02_stream_writes_succeed", "C03_encrypted_file_streams", "C03_stream_file_decrypts", "C04_fragmentation_independent", "C04_stream_agrees_with_encrypt", "C04_stream_write_sizes_irrelevant", "C05_file_format", "C05_stream_format", "C06_chunks", "C06_stream_chunks", "C07_nonces_distinct_partial", "C07_refuted_counter_wraps", "C07_refuted_second_encrypt", "C07_stream_nonces_distinct_partial", "C07_stream_refuted_counter_wraps", "C08_tampered_header", "C08_tampered_stream_header", "C09_truncated_file", "C09_truncated_stream", "C10_complete_partial", "C10_refuted_truncation", "C10_stream_complete_partial", "C11_released_data_genuine", "C13_refuted_recipient_forges", "C14_refuted", "C16_own_entry_opens", "C16_recipients_agree", "C20_refuted", "C21_encrypt_errors_partial", "C23_chunk_size_partial", "C23_refuted", "C24_recipients_partial", "C24_refuted", "C27_writes", "C29_refuted", "C48_encrypt_succeeds", "C51_encrypt_then_decrypt", "C56_encrypt_ends", "C57_encrypt_size", "C57_stream_size", "C58_file_randomness", "C58_stream_randomness", "C59_encrypt_against_stream", "C61_rejected_exactly", "C63_output_genuine", "C64_encrypt_succeeds", "C64_pipeline", "C65_generate_encrypt_decrypt", "C72_unverified_refuted", "C73_encrypt_words", "C76_origin_partial", "C76_stream_origin_partial", "C81_content_hidden", "C81_stream_content_hidden", "C82_recipients_hidden", "C83_anonymous", "C83_sender_hidden", "C83_stream_anonymous", "C83_stream_sender_hidden", "C84_many_files_any_reader_partial", "C84_many_files_partial", "C84_next_file_untouched_partial", "C84_refuted", "C84_stream_next_file_untouched_partial", "C84_stream_refuted", "C85_encryptor_never_panics", "C87_follow_along", "C88_any_form", "C93_both_ends", "C93_discloses", "C95_set_key_midway_partial"], "secs": 11, "early": true, "m": {"id": "q011", "definition": "wrap_receiver", "desc": "another label for wrapping keys", "breaks": ["C05"], "edits": [["Encrypt.v", "str \"Receiver Key\"", "str \"Recipient Key\""]]}}
{"mid": "q012", "lemmas": ["EncryptProofs.add_sender_sig_spec"], "hard": [], "failed": ["C01_encrypt_decrypt_round_trip", "C01_encrypt_succeeds", "C02_stream_round_trip", "C02_stream_writes_succeed", "C03_encrypted_file_streams", "C03_stream_file_decrypts", "C04_fragmentation_independent", "C04_stream_agrees_with_encrypt", "C04_stream_write_sizes_irrelevant", "C05_file_format", "C05_stream_format", "C06_chunks", "C06_stream_chunks", "C07_nonces_distinct_partial", "C07_refuted_counter_wraps", "C07_refuted_second_encrypt", "C07_stream_nonces_distinct_partial", "C07_stream_refuted_counter_wraps", "C08_tampered_header", "C08_tampered_stream_header", "C09_truncated_file", "C09_truncated_stream", "C10_complete_partial", "C10_refuted_truncation", "C10_stream_complete_partial", "C11_released_data_genuine", "C13_refuted_recipient_forges", "C14_refuted", "C16_own_entry_opens", "C16_recipients_agree", "C20_refuted", "C21_encrypt_errors_partial", "C23_chunk_size_partial", "C23_refuted", "C24_recipients_partial", "C24_refuted", "C27_writes", "C29_refuted", "C48_encrypt_succeeds", "C51_encrypt_then_decrypt", "C56_encrypt_ends", "C57_encrypt_size", "C57_stream_size", "C58_file_randomness", "C58_stream_randomness", "C59_encrypt_against_stream", "C61_rejected_exactly", "C63_output_genuine", "C64_encrypt_succeeds", "C64_pipeline", "C65_generate_encrypt_decrypt", "C72_unverified_refuted", "C73_encrypt_words", "C76_origin_partial", "C76_stream_origin_partial", "C81_content_hidden", "C81_stream_content_hidden", "C82_recipients_hidden", "C83_anonymous", "C83_sender_hidden", "C83_stream_anonymous", "C83_stream_sender_hidden", "C84_many_files_any_reader_partial", "C84_many_files_partial", "C84_next_file_untouched_partial", "C84_refuted", "C84_stream_next_file_untouched_partial", "C84_stream_refuted", "C85_encryptor_never_panics", "C87_follow_along", "C88_any_form", "C93_both_ends", "C93_discloses", "C95_set_key_midway_partial"], "secs": 12, "early": true, "m": {"id": "q012", "definition": "wrap_sender", "desc": "the same label for sender and receiver", "breaks": ["C05"], "edits": [["Encrypt.v", "str \"Sender Sig\"", "str \"Receiver Key\""]]}}
{"mid": "q013", "lemmas": ["EncryptProofs.enc_start_spec"], "hard": [], "failed": ["C01_encrypt_decrypt_round_trip", "C01_encrypt_succeeds", "C02_stream_round_trip", "C02_stream_writes_succeed", "C03_encrypted_file_streams", "C03_stream_file_decrypts", "C04_fragmentation_independent", "C04_stream_agrees_with_encrypt", "C04_stream_write_sizes_irrelevant", "C05_file_format", "C05_stream_format", "C06_chunks", "C06_stream_chunks", "C07_nonces_distinct_partial", "C07_refuted_counter_wraps", "C07_refuted_second_encrypt", "C07_stream_nonces_distinct_partial", "C07_stream_refuted_counter_wraps", "C08_tampered_header", "C08_tampered_stream_header", "C09_truncated_file", "C09_truncated_stream", "C104_header", "C10_complete_partial", "C10_refuted_truncation", "C10_stream_complete_partial", "C11_released_data_genuine", "C13_refuted_recipient_forges", "C14_refuted", "C16_recipients_agree", "C20_refuted", "C21_encrypt_errors_partial", "C23_refuted", "C24_recipients_partial", "C24_refuted", "C27_writes", "C29_refuted", "C48_encrypt_succeeds", "C51_encrypt_then_decrypt", "C56_encrypt_ends", "C57_encrypt_size", "C57_stream_size", "C58_file_randomness", "C58_stream_randomness", "C59_encrypt_against_stream", "C63_output_genuine", "C64_encrypt_succeeds", "C64_pipeline", "C65_generate_encrypt_decrypt", "C72_unverified_refuted", "C73_encrypt_words", "C76_origin_partial", "C76_stream_origin_partial", "C81_content_hidden", "C81_stream_content_hidden", "C83_anonymous", "C83_sender_hidden", "C83_stream_anonymous", "C83_stream_sender_hidden", "C84_many_files_any_reader_partial", "C84_many_files_partial", "C84_next_file_untouched_partial", "C84_refuted", "C84_stream_next_file_untouched_partial", "C84_stream_refuted", "C85_encryptor_never_panics", "C87_follow_along", "C88_any_form", "C93_both_ends", "C93_discloses", "C93_encryptor_messages", "C95_set_key_midway_partial"], "secs": 15, "early": true, "m": {"id": "q013", "definition": "data_key_expansion", "desc": "another label for the data keys", "breaks": ["C05"], "edits": [["Encrypt.v", "str \"Data Key Expansion\"", "str \"Data Key\""]]}}
{"mid": "q014", "lemmas": ["EncryptProofs.add_sender_sig_spec"], "hard": [], "failed": ["C01_encrypt_decrypt_round_trip", "C01_encrypt_succeeds", "C02_stream_round_trip", "C02_stream_writes_succeed", "C03_encrypted_file_streams", "C03_stream_file_decrypts", "C04_fragmentation_independent", "C04_stream_agrees_with_encrypt", "C04_stream_write_sizes_irrelevant", "C05_file_format", "C05_stream_format", "C06_chunks", "C06_stream_chunks", "C07_nonces_distinct_partial", "C07_refuted_counter_wraps", "C07_refuted_second_encrypt", "C07_stream_nonces_distinct_partial", "C07_stream_refuted_counter_wraps", "C08_tampered_header", "C08_tampered_stream_header", "C09_truncated_file", "C09_truncated_stream", "C10_complete_partial", "C10_refuted_truncation", "C10_stream_complete_partial", "C11_released_data_genuine", "C13_refuted_recipient_forges", "C14_refuted", "C16_own_entry_opens", "C16_recipients_agree", "C20_refuted", "C21_encrypt_errors_partial", "C23_chunk_size_partial", "C23_refuted", "C24_recipients_partial", "C24_refuted", "C27_writes", "C29_refuted", "C48_encrypt_succeeds", "C51_encrypt_then_decrypt", "C56_encrypt_ends", "C57_encrypt_size", "C57_stream_size", "C58_file_randomness", "C58_stream_randomness", "C59_encrypt_against_stream", "C61_rejected_exactly", "C63_output_genuine", "C64_encrypt_succeeds", "C64_pipeline", "C65_generate_encrypt_decrypt", "C72_unverified_refuted", "C73_encrypt_words", "C76_origin_partial", "C76_stream_origin_partial", "C81_content_hidden", "C81_stream_content_hidden", "C82_recipients_hidden", "C83_anonymous", "C83_sender_hidden", "C83_stream_anonymous", "C83_stream_sender_hidden", "C84_many_files_any_reader_partial", "C84_many_files_partial", "C84_next_file_untouched_partial", "C84_refuted", "C84_stream_next_file_untouched_partial", "C84_stream_refuted", "C85_encryptor_never_panics", "C87_follow_along", "C88_any_form", "C93_both_ends", "C93_discloses", "C95_set_key_midway_partial"], "secs": 13, "early": true, "m": {"id": "q014", "definition": "expand", "desc": "salt and label swapped", "breaks": ["C05"], "edits": [["Encrypt.v", "hkdf_sha512 C shared salt ad n.", "hkdf_sha512 C shared ad salt n."]]}}
{"mid": "q015", "lemmas": ["EncryptProofs.add_sender_sig_spec"], "hard": [], "failed": ["C01_encrypt_decrypt_round_trip", "C01_encrypt_succeeds", "C02_stream_round_trip", "C02_stream_writes_succeed", "C03_encrypted_file_streams", "C03_stream_file_decrypts", "C04_fragmentation_independent", "C04_stream_agrees_with_encrypt", "C04_stream_write_sizes_irrelevant", "C05_file_format", "C05_stream_format", "C06_chunks", "C06_stream_chunks", "C07_nonces_distinct_partial", "C07_refuted_counter_wraps", "C07_refuted_second_encrypt", "C07_stream_nonces_distinct_partial", "C07_stream_refuted_counter_wraps", "C08_tampered_header", "C08_tampered_stream_header", "C09_truncated_file", "C09_truncated_stream", "C10_complete_partial", "C10_refuted_truncation", "C10_stream_complete_partial", "C11_released_data_genuine", "C13_refuted_recipient_forges", "C14_refuted", "C16_own_entry_opens", "C16_recipients_agree", "C20_refuted", "C21_encrypt_errors_partial", "C23_chunk_size_partial", "C23_refuted", "C24_recipients_partial", "C24_refuted", "C27_writes", "C29_refuted", "C48_encrypt_succeeds", "C51_encrypt_then_decrypt", "C56_encrypt_ends", "C57_encrypt_size", "C57_stream_size", "C58_file_randomness", "C58_stream_randomness", "C59_encrypt_against_stream", "C61_rejected_exactly", "C63_output_genuine", "C64_encrypt_succeeds", "C64_pipeline", "C65_generate_encrypt_decrypt", "C72_unverified_refuted", "C73_encrypt_words", "C76_origin_partial", "C76_stream_origin_partial", "C81_content_hidden", "C81_stream_content_hidden", "C82_recipients_hidden", "C83_anonymous", "C83_sender_hidden", "C83_stream_anonymous", "C83_stream_sender_hidden", "C84_many_files_any_reader_partial", "C84_many_files_partial", "C84_next_file_untouched_partial", "C84_refuted", "C84_stream_next_file_untouched_partial", "C84_stream_refuted", "C85_encryptor_never_panics", "C87_follow_along", "C88_any_form", "C93_both_ends", "C93_discloses", "C95_set_key_midway_partial"], "secs": 12, "early": true, "m": {"id": "q015", "definition": "expand", "desc": "salt not used", "breaks": ["C05"], "edits": [["Encrypt.v", "hkdf_sha512 C shared salt ad n.", "hkdf_sha512 C shared [] ad n."]]}}
{"mid": "q017", "lemmas": ["EncryptProofs.write_trailer_spec"], "hard": [], "failed": ["C01_encrypt_decrypt_round_trip", "C01_encrypt_succeeds", "C02_stream_round_trip", "C02_stream_writes_succeed", "C03_encrypted_file_streams", "C03_stream_file_decrypts", "C04_fragmentation_independent", "C04_stream_agrees_with_encrypt", "C04_stream_write_sizes_irrelevant", "C05_file_format", "C05_stream_format", "C06_chunks", "C06_stream_chunks", "C07_nonces_distinct_partial", "C07_refuted_counter_wraps", "C07_refuted_second_encrypt", "C07_stream_nonces_distinct_partial", "C07_stream_refuted_counter_wraps", "C08_tampered_header", "C08_tampered_stream_header", "C09_truncated_file", "C09_truncated_stream", "C10_complete_partial", "C10_refuted_truncation", "C10_stream_complete_partial", "C11_released_data_genuine", "C13_refuted_recipient_forges", "C14_refuted", "C16_recipients_agree", "C20_refuted", "C21_encrypt_errors_partial", "C23_refuted", "C24_recipients_partial", "C24_refuted", "C27_writes", "C29_refuted", "C48_encrypt_succeeds", "C51_encrypt_then_decrypt", "C56_encrypt_ends", "C57_encrypt_size", "C57_stream_size", "C58_file_randomness", "C58_stream_randomness", "C59_encrypt_against_stream", "C63_output_genuine", "C64_encrypt_succeeds", "C64_pipeline", "C65_generate_encrypt_decrypt", "C72_unverified_refuted", "C73_encrypt_words", "C76_origin_partial", "C76_stream_origin_partial", "C81_content_hidden", "C81_stream_content_hidden", "C83_anonymous", "C83_sender_hidden", "C83_stream_anonymous", "C83_stream_sender_hidden", "C84_many_files_any_reader_partial", "C84_many_files_partial", "C84_next_file_untouched_partial", "C84_refuted", "C84_stream_next_file_untouched_partial", "C84_stream_refuted", "C85_encryptor_never_panics", "C87_follow_along", "C88_any_form", "C93_both_ends", "C93_discloses", "C95_set_key_midway_partial"], "secs": 27, "early": true, "m": {"id": "q017", "definition": "cause", "desc": "only one layer is unwrapped", "breaks": ["C21"], "edits": [["GoErr.v", "EWrap _ e' => cause e'", "EWrap _ e' => e'"]]}}
{"mid": "q016", "lemmas": ["Thm_Size.add_recipients_rng"], "hard": [], "failed": ["C58_file_randomness", "C58_session_randomness", "C58_stream_randomness"], "secs": 258, "early": true, "m": {"id": "q016", "definition": "e_with_hdr", "desc": "adding a recipient restarts the Encryptor", "breaks": ["C17"], "edits": [["Encrypt.v", "(e_auth e) (e_started e) (e_stream e).\n", "(e_auth e) false (e_stream e).\n"]]}}
{"mid": "q018", "lemmas": [], "hard": [], "failed": [], "secs": 750, "m": {"id": "q018", "definition": "wrapf", "desc": "an error is turned into another", "breaks": ["C21"], "edits": [["GoErr.v", "match r with Fail e => Fail (EWrap ctx e) | _ => r end", "match r with Fail e => Fail (EMsg ctx) | _ => r end"]]}}
{"mid": "q020", "lemmas": ["IOProofs.fullwrite_None"], "hard": [], "failed": ["C01_encrypt_decrypt_round_trip", "C01_encrypt_succeeds", "C02_stream_round_trip", "C02_stream_writes_succeed", "C03_encrypted_file_streams", "C03_stream_file_decrypts", "C04_fragmentation_independent", "C04_stream_agrees_with_encrypt", "C04_stream_write_sizes_irrelevant", "C05_file_format", "C05_stream_format", "C06_chunks", "C06_stream_chunks", "C07_nonces_distinct_partial", "C07_refuted_counter_wraps", "C07_refuted_second_encrypt", "C07_stream_nonces_distinct_partial", "C07_stream_refuted_counter_wraps", "C08_tampered_header", "C08_tampered_stream_header", "C09_truncated_file", "C09_truncated_stream", "C103_zero_means_done", "C104_header", "C105_past", "C105_past_generate", "C10_complete_partial", "C10_refuted_truncation", "C10_stream_complete_partial", "C11_released_data_genuine", "C13_content_signed_partial", "C13_refuted_recipient_forges", "C14_refuted", "C16_recipients_agree", "C20_refuted", "C21_encrypt_errors_partial", "C22_fullwrite_all_or_error", "C23_refuted", "C24_recipients_partial", "C24_refuted", "C27_writes", "C29_refuted", "C42_stored_objects", "C42_write_atomic", "C42_write_outcome", "C43_generate", "C43_generate_exit_status", "C44_old_or_new_partial", "C45_decrypt_to_file_partial", "C46_sender_partial", "C48_encrypt_exact", "C48_encrypt_succeeds", "C48_unresolved", "C49_sign_partial", "C50_new_pair_partial", "C51_encrypt_then_decrypt", "C52_sign_then_verify", "C56_encrypt_ends", "C57_encrypt_size", "C57_stream_size", "C58_file_randomness", "C58_stream_randomness", "C59_encrypt_against_stream", "C62_verify_report", "C63_decrypt_to_stdout", "C63_output_genuine", "C64_encrypt_succeeds", "C64_encrypt_to_stdout", "C64_pipeline", "C65_generate_encrypt_decrypt", "C66_generate_sign_verify", "C68_only_outputs", "C69_stream_and_decrypt_agree", "C70_one_file_per_encryptor", "C72_unverified_refuted", "C73_encrypt_words", "C73_sign_words", "C74_failure_changes_nothing_partial", "C75_generated_pair", "C75_library", "C75_permissions", "C75_who_may", "C76_origin_partial", "C76_stream_origin_partial", "C77_concurrent_runs", "C78_history_partial", "C80_generate", "C80_sign", "C81_content_hidden", "C81_stream_content_hidden", "C83_anonymous", "C83_sender_hidden", "C83_stream_anonymous", "C83_stream_sender_hidden", "C84_many_files_any_reader_partial", "C84_many_files_partial", "C84_next_file_untouched_partial", "C84_refuted", "C84_stream_next_file_untouched_partial", "C84_stream_refuted", "C85_encryptor_never_panics", "C86_no_amplification", "C87_follow_along", "C88_any_form", "C92_printed_signature_verifies", "C92_sign_to_stdout", "C93_both_ends", "C93_discloses", "C93_encryptor_messages", "C95_set_key_midway_partial", "C97_generate"], "secs": 8, "early": true, "m": {"id": "q020", "definition": "fullwrite", "desc": "the error is dropped", "breaks": ["C22"], "edits": [["GoIO.v", "| (e, o, s) => (e, w_with_out w o s)", "| (e, o, s) => (None, w_with_out w o s)"]]}}
{"mid": "q021", "lemmas": ["IOProofs.fullwrite_None"], "hard": [], "failed": ["C01_encrypt_decrypt_round_trip", "C01_encrypt_succeeds", "C02_stream_round_trip", "C02_stream_writes_succeed", "C03_encrypted_file_streams", "C03_stream_file_decrypts", "C04_fragmentation_independent", "C04_stream_agrees_with_encrypt", "C04_stream_write_sizes_irrelevant", "C05_file_format", "C05_stream_format", "C06_chunks", "C06_stream_chunks", "C07_nonces_distinct_partial", "C07_refuted_counter_wraps", "C07_refuted_second_encrypt", "C07_stream_nonces_distinct_partial", "C07_stream_refuted_counter_wraps", "C08_tampered_header", "C08_tampered_stream_header", "C09_truncated_file", "C09_truncated_stream", "C103_zero_means_done", "C104_header", "C105_past", "C105_past_generate", "C10_complete_partial", "C10_refuted_truncation", "C10_stream_complete_partial", "C11_released_data_genuine", "C13_content_signed_partial", "C13_refuted_recipient_forges", "C14_refuted", "C16_recipients_agree", "C20_refuted", "C21_encrypt_errors_partial", "C22_fullwrite_all_or_error", "C23_refuted", "C24_recipients_partial", "C24_refuted", "C27_writes", "C29_refuted", "C42_stored_objects", "C42_write_atomic", "C42_write_outcome", "C43_generate", "C43_generate_exit_status", "C44_old_or_new_partial", "C45_decrypt_to_file_partial", "C46_sender_partial", "C48_encrypt_exact", "C48_encrypt_succeeds", "C48_unresolved", "C49_sign_partial", "C50_new_pair_partial", "C51_encrypt_then_decrypt", "C52_sign_then_verify", "C56_encrypt_ends", "C57_encrypt_size", "C57_stream_size", "C58_file_randomness", "C58_stream_randomness", "C59_encrypt_against_stream", "C62_verify_report", "C63_decrypt_to_stdout", "C63_output_genuine", "C64_encrypt_succeeds", "C64_encrypt_to_stdout", "C64_pipeline", "C65_generate_encrypt_decrypt", "C66_generate_sign_verify", "C68_only_outputs", "C69_stream_and_decrypt_agree", "C70_one_file_per_encryptor", "C72_unverified_refuted", "C73_encrypt_words", "C73_sign_words", "C74_failure_changes_nothing_partial", "C75_generated_pair", "C75_library", "C75_permissions", "C75_who_may", "C76_origin_partial", "C76_stream_origin_partial", "C77_concurrent_runs", "C78_history_partial", "C80_generate", "C80_sign", "C81_content_hidden", "C81_stream_content_hidden", "C83_anonymous", "C83_sender_hidden", "C83_stream_anonymous", "C83_stream_sender_hidden", "C84_many_files_any_reader_partial", "C84_many_files_partial", "C84_next_file_untouched_partial", "C84_refuted", "C84_stream_next_file_untouched_partial", "C84_stream_refuted", "C85_encryptor_never_panics", "C86_no_amplification", "C87_follow_along", "C88_any_form", "C92_printed_signature_verifies", "C92_sign_to_stdout", "C93_both_ends", "C93_discloses", "C93_encryptor_messages", "C95_set_key_midway_partial", "C97_generate"], "secs": 8, "early": true, "m": {"id": "q021", "definition": "fullwrite", "desc": "what was written is written again", "breaks": ["C22"], "edits": [["GoIO.v", "| (e, o, s) => (e, w_with_out w o s)", "| (e, o, s) => (e, w_with_out w (o ++ buf) s)"]]}}
{"mid": "q022", "lemmas": ["Thm_KeyFiles.yaml_priv_marker"], "hard": [], "failed": ["C34_private_round_trip_partial", "C42_stored_objects", "C43_pair_usable_partial", "C65_generate_encrypt_decrypt", "C66_generate_sign_verify", "C73_encrypt_words", "C73_sign_words", "C98_rewritten_key"], "secs": 11, "early": true, "m": {"id": "q022", "definition": "sk_algo", "desc": "another algorithm name", "breaks": ["C34", "C67"], "edits": [["KeyFiles.v", "str \"scrypt-sha256\"", "str \"scrypt\""]]}}
{"mid": "q023", "lemmas": ["Thm_KeyFiles.marker_line"], "hard": [], "failed": ["C34_private_round_trip_partial", "C42_stored_objects", "C43_pair_usable_partial", "C65_generate_encrypt_decrypt", "C66_generate_sign_verify", "C73_encrypt_words", "C73_sign_words", "C98_rewritten_key"], "secs": 17, "early": true, "m": {"id": "q023", "definition": "ssh_marker", "desc": "any PEM counts as OpenSSH", "breaks": ["C39", "C67"], "edits": [["KeyFiles.v", "str \"OPENSSH PRIVATE KEY-\"", "str \"PRIVATE KEY-\""]]}}
{"mid": "q024", "lemmas": ["Thm_Commands.read_sig_ok"], "hard": [], "failed": ["C103_zero_means_done", "C105_past", "C105_past_generate", "C47_verify_exact", "C52_sign_then_verify", "C53_crash_exactly_partial", "C62_verify_report", "C66_generate_sign_verify", "C68_only_outputs", "C73_sign_words", "C74_failure_changes_nothing_partial", "C75_permissions", "C75_who_may", "C77_concurrent_runs", "C78_history_partial", "C79_verify_command", "C92_printed_signature_verifies"], "secs": 66, "early": true, "m": {"id": "q024", "definition": "read_signature", "desc": "a file that cannot be parsed gives an empty signature", "breaks": ["C32", "C47"], "edits": [["KeyFiles.v", "| (s, Ok _) => Ok s\n  | (_, Fail e) => Fail e", "| (s, Ok _) => Ok s\n  | (s, Fail e) => Ok s"]]}}
{"mid": "q025", "lemmas": ["CliProofs.read_private_loaded"], "hard": [], "failed": ["C103_zero_means_done", "C43_pair_usable_partial", "C52_sign_then_verify", "C56_encrypt_ends", "C56_sign_ends", "C65_generate_encrypt_decrypt", "C66_generate_sign_verify", "C73_encrypt_words", "C73_sign_words", "C92_printed_signature_verifies", "C92_sign_exit_status", "C92_sign_to_stdout"], "secs": 18, "early": true, "m": {"id": "q025", "definition": "make_private_key", "desc": "a key that cannot be parsed gives an empty key", "breaks": ["C34"], "edits": [["KeyFiles.v", "| (sk, Ok _) => Ok sk\n  | (_, Fail e) => Fail e", "| (sk, Ok _) => Ok sk\n  | (sk, Fail e) => Ok sk"]]}}
{"mid": "q026", "lemmas": ["CliProofs.make_public_loaded"], "hard": [], "failed": ["C103_zero_means_done", "C105_past", "C105_past_generate", "C43_pair_usable_partial", "C47_verify_exact", "C52_sign_then_verify", "C53_crash_exactly_partial", "C56_decrypt_ends", "C56_encrypt_ends", "C62_verify_report", "C65_generate_encrypt_decrypt", "C66_generate_sign_verify", "C68_only_outputs", "C73_encrypt_words", "C73_sign_words", "C74_failure_changes_nothing_partial", "C75_permissions", "C75_who_may", "C77_concurrent_runs", "C78_history_partial", "C79_verify_command", "C92_printed_signature_verifies"], "secs": 17, "early": true, "m": {"id": "q026", "definition": "make_public_key", "desc": "a key that cannot be parsed gives an empty key", "breaks": ["C33"], "edits": [["KeyFiles.v", "| (pk, Ok _) => Ok pk\n  | (_, Fail e) => Fail e", "| (pk, Ok _) => Ok pk\n  | (pk, Fail e) => Ok pk"]]}}
{"mid": "q019", "lemmas": [], "hard": [], "failed": [], "secs": 688, "m": {"id": "q019", "definition": "wrapo", "desc": "an error is dropped", "breaks": ["C21"], "edits": [["GoErr.v", "match o with Some e => Some (EWrap ctx e) | None => None end", "None"]]}}
{"mid": "q027", "lemmas": ["Thm_Crash.private_crash"], "hard": [], "failed": ["C56_decrypt_ends", "C56_encrypt_ends", "C56_sign_ends"], "secs": 91, "early": true, "m": {"id": "q027", "definition": "make_private_key", "desc": "parse errors are reported as panics", "breaks": ["C36"], "edits": [["KeyFiles.v", "| (sk, Ok _) => Ok sk\n  | (_, Fail e) => Fail e", "| (sk, Ok _) => Ok sk\n  | (_, Fail e) => Panic \"x\""]]}}
{"mid": "q029", "lemmas": ["DecryptProofs.process_trailer_spec"], "hard": [], "failed": ["C01_encrypt_decrypt_round_trip", "C02_stream_round_trip", "C03_encrypted_file_streams", "C03_stream_file_decrypts", "C09_truncated_file", "C09_truncated_stream", "C10_complete_partial", "C10_refuted_truncation", "C10_stream_complete_partial", "C11_released_data_genuine", "C13_content_signed_partial", "C13_refuted_recipient_forges", "C13_stream_signed_partial", "C14_refuted", "C29_refuted", "C29_single_reader_partial", "C51_encrypt_then_decrypt", "C63_output_genuine", "C64_pipeline", "C65_generate_encrypt_decrypt", "C69_stream_and_decrypt_agree", "C73_encrypt_words", "C76_origin_partial", "C76_stream_origin_partial", "C84_many_files_any_reader_partial", "C84_many_files_partial", "C84_next_file_untouched_partial", "C84_refuted", "C84_stream_next_file_untouched_partial", "C84_stream_refuted", "C87_follow_along", "C88_any_form", "C95_set_key_midway_partial"], "secs": 24, "early": true, "m": {"id": "q029", "definition": "verify_message", "desc": "digest not taken", "breaks": ["C30", "C31"], "edits": [["Sign.v", "Ed_Verify C (pk_Pk pk) (msg_digest C ck) (sig_Sig s)", "Ed_Verify C (pk_Pk pk) ck (sig_Sig s)"]]}}
{"mid": "q030", "lemmas": ["DecryptProofs.process_trailer_spec"], "hard": [], "failed": ["C01_encrypt_decrypt_round_trip", "C02_stream_round_trip", "C03_encrypted_file_streams", "C03_stream_file_decrypts", "C09_truncated_file", "C09_truncated_stream", "C10_complete_partial", "C10_refuted_truncation", "C10_stream_complete_partial", "C11_released_data_genuine", "C13_content_signed_partial", "C13_refuted_recipient_forges", "C13_stream_signed_partial", "C14_refuted", "C29_refuted", "C29_single_reader_partial", "C51_encrypt_then_decrypt", "C63_output_genuine", "C64_pipeline", "C65_generate_encrypt_decrypt", "C69_stream_and_decrypt_agree", "C73_encrypt_words", "C76_origin_partial", "C76_stream_origin_partial", "C84_many_files_any_reader_partial", "C84_many_files_partial", "C84_next_file_untouched_partial", "C84_refuted", "C84_stream_next_file_untouched_partial", "C84_stream_refuted", "C87_follow_along", "C88_any_form", "C95_set_key_midway_partial"], "secs": 22, "early": true, "m": {"id": "q030", "definition": "verify_message", "desc": "every signature verifies", "breaks": ["C79"], "edits": [["Sign.v", "Ed_Verify C (pk_Pk pk) (msg_digest C ck) (sig_Sig s)", "Ok true"]]}}
{"mid": "q031", "lemmas": ["FlagsProofs.p_sets_good"], "hard": [], "failed": ["C100_texts", "C103_zero_means_done", "C71_command", "C71_options", "C72_unverified_refuted", "C73_encrypt_words", "C73_sign_words", "C93_option", "C99_every_command_line", "C99_misspelt_refuted", "C99_zero_partial"], "secs": 7, "early": true, "m": {"id": "q031", "definition": "p_set", "desc": "the later value of a repeated option is lost", "breaks": ["C71"], "edits": [["Flags.v", "PGood ((n, v) :: s) a | _ => p end.\nDefinition p_arg", "PGood (s ++ [(n, v)]) a | _ => p end.\nDefinition p_arg"]]}}
{"mid": "q028", "lemmas": ["Toy.toy_ys_ok"], "hard": [], "failed": ["C21_refuted", "C44_refuted", "C45_close_refuted", "C46_refuted", "C49_refuted", "C50_refuted", "C53_refuted", "C60_refuted", "C74_generate_refuted", "C95_no_panic_refuted", "C95_repeated_call_refuted"], "secs": 139, "early": true, "m": {"id": "q028", "definition": "unbe", "desc": "little-endian", "breaks": ["C41"], "edits": [["Keys.v", "unle (rev l)", "unle l"]]}}
{"mid": "q032", "lemmas": ["FlagsProofs.command_line_parse"], "hard": [], "failed": ["C100_texts", "C103_zero_means_done", "C71_command", "C71_options", "C72_unverified_refuted", "C73_encrypt_words", "C73_sign_words", "C93_option", "C99_every_command_line", "C99_misspelt_refuted", "C99_zero_partial"], "secs": 6, "early": true, "m": {"id": "q032", "definition": "p_arg", "desc": "arguments in the opposite order", "breaks": ["C71"], "edits": [["Flags.v", "PGood s (a :: l)", "PGood s (l ++ [a])"]]}}
{"mid": "q033", "lemmas": ["FlagsProofs.letters_parse"], "hard": [], "failed": ["C100_texts", "C103_zero_means_done", "C71_command", "C71_options", "C72_unverified_refuted", "C73_encrypt_words", "C73_sign_words", "C93_option", "C99_every_command_line", "C99_misspelt_refuted", "C99_zero_partial"], "secs": 6, "early": true, "m": {"id": "q033", "definition": "s_set", "desc": "letters of a group in the opposite order", "breaks": ["C71"], "edits": [["Flags.v", "SGood ((n, v) :: s) a", "SGood (s ++ [(n, v)]) a"]]}}
{"mid": "q035", "lemmas": ["Thm_Paths.element_noslash"], "hard": [], "failed": ["C101_clean", "C101_generate_names", "C101_spellings"], "secs": 2, "early": true, "m": {"id": "q035", "definition": "element", "desc": "the slash belongs to the element", "breaks": ["C101"], "edits": [["Paths.v", "if Byte.eqb c x2f then [] else c :: element r' end", "if Byte.eqb c x2f then [c] else c :: element r' end"]]}}
{"mid": "q034", "lemmas": ["FlagsProofs.by_name_in"], "hard": [], "failed": ["C100_texts", "C103_zero_means_done", "C71_command", "C71_options", "C72_unverified_refuted", "C73_encrypt_words", "C73_sign_words", "C99_every_command_line", "C99_misspelt_refuted", "C99_zero_partial"], "secs": 6, "early": true, "m": {"id": "q034", "definition": "by_name", "desc": "options may be abbreviated", "breaks": ["C71"], "edits": [["Flags.v", "find (fun f => beq (fg_name f) n) fs", "find (fun f => is_prefix n (fg_name f)) fs"]]}}
{"mid": "q036", "lemmas": ["Thm_Paths.clean_loop_is"], "hard": [], "failed": ["C101_clean", "C101_generate_names", "C101_spellings"], "secs": 3, "early": true, "m": {"id": "q036", "definition": "at_end", "desc": "the end of the text does not end an element", "breaks": ["C101"], "edits": [["Paths.v", "at_end (r : bytes) : bool := match r with [] => true", "at_end (r : bytes) : bool := match r with [] => false"]]}}
{"mid": "q037", "lemmas": ["Thm_Paths.after_shape"], "hard": [], "failed": ["C101_clean", "C101_generate_names", "C101_spellings"], "secs": 2, "early": true, "m": {"id": "q037", "definition": "after", "desc": "the slash is skipped, too", "breaks": ["C101"], "edits": [["Paths.v", "if Byte.eqb c x2f then r else after r' end", "if Byte.eqb c x2f then r' else after r' end"]]}}
{"mid": "q038", "lemmas": ["Thm_Paths.C101_program_name"], "hard": [], "failed": ["C101_program_name"], "secs": 6, "early": true, "m": {"id": "q038", "definition": "strip_slashes", "desc": "only one slash is cut off", "breaks": ["C101"], "edits": [["Paths.v", "if Byte.eqb c x2f then strip_slashes r else", "if Byte.eqb c x2f then r else"]]}}
{"mid": "q039", "lemmas": ["SshProofs.parse_enc_ok"], "hard": [], "failed": ["C103_zero_means_done", "C105_past", "C105_past_generate", "C33_openssh_line", "C35_public_partial", "C37_bad_blob_rejected", "C37_blob_exact", "C37_line_exact", "C37_line_partial", "C38_entries_partial", "C43_pair_usable_partial", "C47_verify_exact", "C52_sign_then_verify", "C53_crash_exactly_partial", "C54_round_trip_partial", "C54_string_exact", "C56_decrypt_ends", "C56_encrypt_ends", "C62_verify_report", "C65_generate_encrypt_decrypt", "C66_generate_sign_verify", "C67_public_exact", "C68_only_outputs", "C73_encrypt_words", "C73_sign_words", "C74_failure_changes_nothing_partial", "C75_permissions", "C75_who_may", "C77_concurrent_runs", "C78_history_partial", "C79_verify_command", "C88_any_form", "C92_printed_signature_verifies"], "secs": 13, "early": true, "m": {"id": "q039", "definition": "algo_ed25519", "desc": "another algorithm name", "breaks": ["C37"], "edits": [["Ssh.v", "algo_ed25519 : bytes := str \"ssh-ed25519\"", "algo_ed25519 : bytes := str \"ssh-rsa\""]]}}
{"mid": "q041", "lemmas": ["SshProofs.parse_auth_last"], "hard": [], "failed": ["C103_zero_means_done", "C105_past", "C105_past_generate", "C38_entries_partial", "C38_sound", "C38_total_and_linewise", "C44_no_overwrite_partial", "C44_old_or_new_partial", "C48_encrypt_exact", "C48_unresolved", "C51_encrypt_then_decrypt", "C56_encrypt_ends", "C64_encrypt_to_stdout", "C64_pipeline", "C65_generate_encrypt_decrypt", "C68_only_outputs", "C73_encrypt_words", "C74_failure_changes_nothing_partial", "C75_permissions", "C75_who_may", "C77_concurrent_runs", "C78_history_partial", "C88_any_form", "C96_every_bad_recipient_named"], "secs": 65, "early": true, "m": {"id": "q041", "definition": "parse_authorized_keys", "desc": "the last line is not read", "breaks": ["C38"], "edits": [["Ssh.v", "auth_loop C (List.length inp) inp []", "auth_loop C (Nat.pred (List.length inp)) inp []"]]}}
{"mid": "q040", "lemmas": ["SshKeyProofs.container_ok"], "hard": [], "failed": ["C39_container_exact", "C67_one_key", "C67_private_exact", "C88_any_form", "C98_rewritten_key"], "secs": 80, "early": true, "m": {"id": "q040", "definition": "openssh_magic", "desc": "the magic has no zero byte", "breaks": ["C39"], "edits": [["Ssh.v", "str \"openssh-key-v1\" ++ [x00]", "str \"openssh-key-v1\""]]}}
{"mid": "q043", "lemmas": [], "hard": [], "failed": [], "secs": 17, "m": {"id": "q043", "definition": "version_text", "desc": "product and repository swapped", "breaks": ["C100"], "edits": [["Usage.v", "[tg_base T; bn_product B; bn_repo B]", "[tg_base T; bn_repo B; bn_product B]"]]}}
{"mid": "q044", "lemmas": ["Thm_Usage.C100_usage_is_true"], "hard": [], "failed": ["C100_usage_is_true"], "secs": 7, "early": true, "m": {"id": "q044", "definition": "usage_text", "desc": "the name of the program is missing once", "breaks": ["C100"], "edits": [["Usage.v", "fill usage_format [tg_base T; tg_base T]", "fill usage_format [tg_base T]"]]}}
{"mid": "q045", "lemmas": ["Thm_Usage.C100_usage_is_true"], "hard": [], "failed": ["C100_usage_is_true"], "secs": 8, "early": true, "m": {"id": "q045", "definition": "sign_texts", "desc": "help of sign shows the options of verify", "breaks": ["C100"], "edits": [["Usage.v", "[fill sign_format [tg_base T]; bn_options B Sign]", "[fill sign_format [tg_base T]; bn_options B Verify]"]]}}
{"mid": "q046", "lemmas": ["FsProofs.follow_like"], "hard": [], "failed": ["C103_zero_means_done", "C105_past", "C105_past_generate", "C42_stored_objects", "C42_write_atomic", "C43_generate", "C44_old_or_new_partial", "C45_decrypt_to_file_partial", "C48_encrypt_exact", "C48_unresolved", "C49_sign_partial", "C50_new_pair_partial", "C51_encrypt_then_decrypt", "C52_sign_then_verify", "C65_generate_encrypt_decrypt", "C66_generate_sign_verify", "C68_only_outputs", "C73_encrypt_words", "C73_sign_words", "C74_failure_changes_nothing_partial", "C78_history_partial", "C80_sign"], "secs": 5, "early": true, "m": {"id": "q046", "definition": "follow", "desc": "symbolic links are not followed", "breaks": ["C42", "C68"], "edits": [["Fs.v", "match n with O => None | S n' => follow n' f t end", "None"]]}}
{"mid": "q047", "lemmas": ["Thm_PbBuf.puts_store"], "hard": [], "failed": ["C102_as_used", "C102_header_buffer", "C102_key_buffer", "C104_header"], "secs": 4, "early": true, "m": {"id": "q047", "definition": "store", "desc": "the rest of the buffer is shifted", "breaks": ["C102"], "edits": [["PbBuf.v", "take i d ++ [x] ++ drop (i + 1) d", "take i d ++ [x] ++ drop i d"]]}}
{"mid": "q048", "lemmas": ["Thm_PbBuf.C102_key_buffer"], "hard": [], "failed": ["C102_key_buffer"], "secs": 6, "early": true, "m": {"id": "q048", "definition": "wkey_to", "desc": "the whole buffer is given to the key", "breaks": ["C102"], "edits": [["PbBuf.v", "let size := size_wkey m in\n  front <- slice d 0 size", "let size := size_wkey m in\n  front <- slice d 0 (len d)"]]}}
{"mid": "q049", "lemmas": ["Thm_Mem.C104_encrypt_call"], "hard": [], "failed": ["C104_encrypt_call"], "secs": 7, "early": true, "m": {"id": "q049", "definition": "encrypt_mem", "desc": "the chunk buffer is not made again by start", "breaks": ["C104"], "edits": [["Mem.v", "(e, zeros (e_buflen e), w, rs) in", "(e, eb, w, rs) in"]]}}
{"mid": "q050", "lemmas": ["Thm_Mem.C104_encrypt_call"], "hard": [], "failed": ["C104_encrypt_call"], "secs": 7, "early": true, "m": {"id": "q050", "definition": "encrypt_mem", "desc": "destination not closed", "breaks": ["C104"], "edits": [["Mem.v", "match w_close w with\n                  | (None, w) => (e, r, w, g, Ok tt)\n                  | (Some x, w) => (e, r, w, g, Fail x)\n                  end\n        | x => (e, r, w, g, x)", "(e, r, w, g, Ok tt)\n        | x => (e, r, w, g, x)"]]}}
{"mid": "q051", "lemmas": ["Thm_Race.wp_draw"], "hard": [], "failed": ["C94_caches", "C94_goroutines_partial"], "secs": 2, "early": true, "m": {"id": "q051", "definition": "draw", "desc": "the random source is not advanced", "breaks": ["C94"], "edits": [["Race.v", "let '(b, g') := rand_buf n g in (k b, g')", "let '(b, g') := rand_buf n g in (k b, g)"]]}}
{"mid": "q052", "lemmas": ["Thm_Race.wp_conv_pk"], "hard": [], "failed": ["C94_caches", "C94_goroutines_partial"], "secs": 2, "early": true, "m": {"id": "q052", "definition": "pk_with", "desc": "the cache is not set", "breaks": ["C94"], "edits": [["Race.v", "mkPub (pk_Pk pk) (pk_comment pk) c (pk_hash pk)", "mkPub (pk_Pk pk) (pk_comment pk) (pk_ck pk) (pk_hash pk)"]]}}
{"mid": "q042", "lemmas": ["SshKeyProofs.container_inv"], "hard": [], "failed": ["C103_zero_means_done", "C35_private_partial", "C39_container_exact", "C43_pair_usable_partial", "C52_sign_then_verify", "C56_encrypt_ends", "C56_sign_ends", "C65_generate_encrypt_decrypt", "C66_generate_sign_verify", "C67_one_key", "C67_private_exact", "C73_encrypt_words", "C73_sign_words", "C80_sign", "C88_any_form", "C92_printed_signature_verifies", "C92_sign_exit_status", "C92_sign_to_stdout", "C98_rewritten_key"], "secs": 83, "early": true, "m": {"id": "q042", "definition": "call_getpw", "desc": "no password function: an empty password", "breaks": ["C36", "C39"], "edits": [["Ssh.v", "match f with Some r => r | None => Panic \"nil function call\" end", "match f with Some r => r | None => Ok [] end"]]}}
