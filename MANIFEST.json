{
 "claims": [
  {
   "property": "C01",
   "status": "proved",
   "theorems": [
    "C01_encrypt_decrypt_round_trip",
    "C01_encrypt_succeeds"
   ],
   "note": "Round trip for every session with block size < 2^30 and at most 15885 recipients (the exact limits, C23/C24)."
  },
  {
   "property": "C02",
   "status": "proved",
   "theorems": [
    "C02_stream_writes_succeed",
    "C02_stream_round_trip"
   ],
   "note": ""
  },
  {
   "property": "C03",
   "status": "proved",
   "theorems": [
    "C03_stream_file_decrypts",
    "C03_encrypted_file_streams"
   ],
   "note": ""
  },
  {
   "property": "C04",
   "status": "proved",
   "theorems": [
    "C04_fragmentation_independent",
    "C04_stream_write_sizes_irrelevant",
    "C04_stream_agrees_with_encrypt"
   ],
   "note": ""
  },
  {
   "property": "C05",
   "status": "proved",
   "theorems": [
    "C05_file_format",
    "C05_big_endian",
    "C05_frame_word",
    "C05_frame_nonce",
    "C05_stream_format"
   ],
   "note": ""
  },
  {
   "property": "C06",
   "status": "proved",
   "theorems": [
    "C06_chunks",
    "C06_stream_chunks"
   ],
   "note": ""
  },
  {
   "property": "C07",
   "status": "partial",
   "theorems": [
    "C07_nonces_distinct_partial",
    "C07_refuted_second_encrypt",
    "C07_refuted_counter_wraps",
    "C07_stream_nonces_distinct_partial",
    "C07_stream_refuted_counter_wraps"
   ],
   "note": "Within one Encrypt over fewer than 2^32 full chunks, and one stream of at most 2^32 chunks, all nonces differ; both bounds are sharp (the counter wraps: C07_refuted_counter_wraps, C07_stream_refuted_counter_wraps); and a second Encrypt on the same Encryptor reuses them."
  },
  {
   "property": "C08",
   "status": "proved",
   "theorems": [
    "C08_tampered_stream_header",
    "C08_accepted_header",
    "C08_tampered_header"
   ],
   "note": "A changed length field moves the place of the checksum, so C08_tampered_header keeps the length field; C08_accepted_header covers every input."
  },
  {
   "property": "C09",
   "status": "proved",
   "theorems": [
    "C09_truncated_stream",
    "C09_truncated_file"
   ],
   "note": ""
  },
  {
   "property": "C10",
   "status": "partial",
   "theorems": [
    "C10_stream_complete_partial",
    "C10_complete_partial",
    "C10_refuted_truncation"
   ],
   "note": "Proved: without AEAD forgery Decrypt returns nil only with the complete plaintext, or when the body is a truncation at a frame boundary followed by the keyless 4-byte end marker 80 00 00 00. The full statement is false of the code because of that marker: C10_refuted_truncation."
  },
  {
   "property": "C11",
   "status": "proved",
   "theorems": [
    "C11_released_data_genuine"
   ],
   "note": ""
  },
  {
   "property": "C12",
   "status": "proved",
   "theorems": [
    "C12_authenticated_means_signed"
   ],
   "note": ""
  },
  {
   "property": "C13",
   "status": "partial",
   "theorems": [
    "C13_stream_signed_partial",
    "C13_content_signed_partial",
    "C13_refuted_recipient_forges"
   ],
   "note": "Proved: the sender signed the HMAC of exactly the frames output, or the stream ended with the bare end marker 80 00 00 00. The full statement is false: C13_refuted_recipient_forges."
  },
  {
   "property": "C14",
   "status": "partial",
   "theorems": [
    "C14_signed_file_partial",
    "C14_refuted"
   ],
   "note": "Refuted: SetPrivateKey with an expected sender key on an anonymous file succeeds with AuthenticatedSender()=false."
  },
  {
   "property": "C15",
   "status": "proved",
   "theorems": [
    "C15_not_a_recipient"
   ],
   "note": ""
  },
  {
   "property": "C16",
   "status": "proved",
   "theorems": [
    "C16_own_entry_opens",
    "C16_recipients_agree"
   ],
   "note": ""
  },
  {
   "property": "C17",
   "status": "proved",
   "theorems": [
    "C17_every_history",
    "C17_no_recipient_after_start",
    "C17_failed_add_changes_nothing"
   ],
   "note": ""
  },
  {
   "property": "C18",
   "status": "proved",
   "theorems": [
    "C18_encrypt_every_history",
    "C18_decrypt_every_history",
    "C18_nothing_after_decrypt_every_history",
    "C18_encrypt_after_stream_writer",
    "C18_decrypt_after_stream_reader",
    "C18_nothing_after_decrypt"
   ],
   "note": ""
  },
  {
   "property": "C19",
   "status": "proved",
   "theorems": [
    "C19_new_decryptor_total"
   ],
   "note": ""
  },
  {
   "property": "C20",
   "status": "partial",
   "theorems": [
    "C20_no_panic_partial",
    "C20_refuted",
    "C20_every_history_partial"
   ],
   "note": "Proved: after a successful SetPrivateKey neither Decrypt nor stream Read panics. Refuted: Decrypt after a failed SetPrivateKey panics (nil AEAD) instead of reporting ErrNoKey."
  },
  {
   "property": "C21",
   "status": "partial",
   "theorems": [
    "C21_encrypt_errors_partial",
    "C21_decrypt_write_errors",
    "C21_refuted",
    "C21_read_loop"
   ],
   "note": "Refuted: source errors io.ErrUnexpectedEOF and io.ErrClosedPipe are treated as end of file."
  },
  {
   "property": "C22",
   "status": "proved",
   "theorems": [
    "C22_fullwrite_all_or_error",
    "C22_write_loop"
   ],
   "note": ""
  },
  {
   "property": "C23",
   "status": "partial",
   "theorems": [
    "C23_chunk_size_partial",
    "C23_refuted"
   ],
   "note": "Proved below 2^30; refuted at and above: files with a chunk size of 1 GiB or more cannot be decrypted."
  },
  {
   "property": "C24",
   "status": "partial",
   "theorems": [
    "C24_recipients_partial",
    "C24_refuted"
   ],
   "note": "Proved up to 15885 recipients; refuted beyond: the header exceeds the decoder's limit."
  },
  {
   "property": "C25",
   "status": "proved",
   "theorems": [
    "C25_header_codec_round_trip"
   ],
   "note": ""
  },
  {
   "property": "C26",
   "status": "proved",
   "theorems": [
    "C26_decoder_total_and_exact",
    "C26_reencode"
   ],
   "note": ""
  },
  {
   "property": "C27",
   "status": "proved",
   "theorems": [
    "C27_sticky_errors",
    "C27_writes"
   ],
   "note": ""
  },
  {
   "property": "C28",
   "status": "proved",
   "theorems": [
    "C28_read_discipline",
    "C28_sticky_errors"
   ],
   "note": ""
  },
  {
   "property": "C29",
   "status": "partial",
   "theorems": [
    "C29_single_reader_partial",
    "C29_refuted"
   ],
   "note": "Proved for one reader per Decryptor; refuted for two."
  },
  {
   "property": "C30",
   "status": "proved",
   "theorems": [
    "C30_signatures_verify",
    "C30_key_objects_named",
    "C30_generated_keys",
    "C30_verify_exact"
   ],
   "note": ""
  },
  {
   "property": "C31",
   "status": "proved",
   "theorems": [
    "C31_size_is_hashed",
    "C31_file_signature_binds",
    "C31_hash_input_injective"
   ],
   "note": ""
  },
  {
   "property": "C32",
   "status": "proved",
   "theorems": [
    "C32_signature_round_trip",
    "C32_signature_reading_exact"
   ],
   "note": ""
  },
  {
   "property": "C33",
   "status": "proved",
   "theorems": [
    "C33_public_round_trip",
    "C33_yaml_exact",
    "C33_openssh_line"
   ],
   "note": ""
  },
  {
   "property": "C34",
   "status": "partial",
   "theorems": [
    "C34_private_round_trip_partial",
    "C34_failure_changes_nothing",
    "C34_comment_refuted"
   ],
   "note": "Proved for every comment whose YAML form does not contain the text OPENSSH PRIVATE KEY-; C34_comment_refuted: with such a comment the file cannot be read back."
  },
  {
   "property": "C35",
   "status": "partial",
   "theorems": [
    "C35_public_partial",
    "C35_private_partial",
    "C35_stale_refuted"
   ],
   "note": "Proved for loads from OpenSSH text and for objects whose curve key is not cached yet; C35_stale_refuted: loading YAML into a used object keeps the old curve key."
  },
  {
   "property": "C36",
   "status": "partial",
   "theorems": [
    "C36_private_panics_exactly",
    "C36_public_panics_exactly",
    "C36_private_partial",
    "C36_private_refuted",
    "C36_openssh_refuted"
   ],
   "note": "Refuted as stated; proved instead: the exact set of public and of private key files that crash the parser (C36_public_panics_exactly, C36_private_panics_exactly); the refuted theorems exhibit each kind."
  },
  {
   "property": "C37",
   "status": "partial",
   "theorems": [
    "C37_blob_exact",
    "C37_line_exact",
    "C37_line_partial",
    "C37_bad_blob_rejected",
    "C37_comment_refuted"
   ],
   "note": "Blob and line grammar are exact; C37_line_partial: comment of one word. C37_comment_refuted: a line without comment or with a comment of several words is not accepted."
  },
  {
   "property": "C38",
   "status": "partial",
   "theorems": [
    "C38_total_and_linewise",
    "C38_entries_partial",
    "C38_sound",
    "C38_options_refuted"
   ],
   "note": "Total, line by line, sound, and complete for entries whose options field does not contain a quoted word that is itself base64; C38_options_refuted shows the failure for those."
  },
  {
   "property": "C39",
   "status": "proved",
   "theorems": [
    "C39_container_exact",
    "C39_section_unique"
   ],
   "note": ""
  },
  {
   "property": "C40",
   "status": "proved",
   "theorems": [
    "C40_decode_exact",
    "C40_round_trip",
    "C40_refused"
   ],
   "note": ""
  },
  {
   "property": "C41",
   "status": "proved",
   "theorems": [
    "C41_public_key_conversion",
    "C41_private_key_conversion",
    "C41_conversions_agree"
   ],
   "note": ""
  },
  {
   "property": "C42",
   "status": "proved",
   "theorems": [
    "C42_write_atomic",
    "C42_stored_objects",
    "C42_write_outcome"
   ],
   "note": ""
  },
  {
   "property": "C43",
   "status": "partial",
   "theorems": [
    "C43_generate_exit_status",
    "C43_generate",
    "C43_pair_usable_partial"
   ],
   "note": "C43_generate is the whole statement about the files. C43_pair_usable_partial (both texts are read back as one key pair) excludes comments containing the OpenSSH marker, see C34."
  },
  {
   "property": "C44",
   "status": "partial",
   "theorems": [
    "C44_no_overwrite_partial",
    "C44_old_or_new_partial",
    "C44_refuted"
   ],
   "note": "Refuted with --overwrite: the same-file check in the code is dead (shadowed variable), so input and output may be the same file. Proved: without --overwrite nothing is done; with it the file holds at every moment the old or the complete new content."
  },
  {
   "property": "C45",
   "status": "partial",
   "theorems": [
    "C45_decrypt_to_file_partial",
    "C45_close_refuted",
    "C45_test_mode",
    "C45_decrypt_succeeds"
   ],
   "note": "All or nothing proved; refuted for the exit status: errors of the final fsync/close/rename are ignored (exit 0, file unchanged)."
  },
  {
   "property": "C46",
   "status": "partial",
   "theorems": [
    "C46_sender_partial",
    "C46_refuted"
   ],
   "note": "Proved: exit 0 means signed by that sender or an anonymous file. Refuted as stated: an anonymous file passes with any -v key."
  },
  {
   "property": "C47",
   "status": "proved",
   "theorems": [
    "C47_verify_exact"
   ],
   "note": ""
  },
  {
   "property": "C48",
   "status": "proved",
   "theorems": [
    "C48_encrypt_exact",
    "C48_unresolved",
    "C48_encrypt_succeeds"
   ],
   "note": ""
  },
  {
   "property": "C49",
   "status": "partial",
   "theorems": [
    "C49_sign_partial",
    "C49_refuted"
   ],
   "note": "All or nothing proved; refuted for the exit status: errors of writing and closing the signature file are ignored."
  },
  {
   "property": "C50",
   "status": "partial",
   "theorems": [
    "C50_new_pair_partial",
    "C50_refuted"
   ],
   "note": "Proved for new files. Refuted with --overwrite: a crash between the two files leaves the new private key beside the old public key."
  },
  {
   "property": "C51",
   "status": "proved",
   "theorems": [
    "C51_encrypt_then_decrypt"
   ],
   "note": "Hypotheses: at most 15885 recipients and block size < 1 GiB (C23, C24), no accidental opening of another recipient's wrapped key (no_accident), no I/O errors on the second output."
  },
  {
   "property": "C52",
   "status": "proved",
   "theorems": [
    "C52_sign_then_verify"
   ],
   "note": "Hypotheses: no I/O errors on the signature file (C49_refuted), YAML keeps the comment, the signature file is not the input."
  },
  {
   "property": "C53",
   "status": "partial",
   "theorems": [
    "C53_crash_exactly_partial",
    "C53_refuted"
   ],
   "note": "Exact condition for a crash proved; refuted: verify with the string of a key of another type dereferences nil."
  },
  {
   "property": "C54",
   "status": "partial",
   "theorems": [
    "C54_string_exact",
    "C54_round_trip_partial",
    "C54_refuted"
   ],
   "note": "Exact; the round trip holds for keys whose first four bytes are > 28 big-endian; refuted for keys starting with four zero bytes."
  },
  {
   "property": "C55",
   "status": "proved",
   "theorems": [
    "C55_dispatch"
   ],
   "note": "pflag and go-utils' Abbrev are modelled from their documentation (external)."
  },
  {
   "property": "C56",
   "status": "proved",
   "theorems": [
    "C56_encrypt_ends",
    "C56_decrypt_ends",
    "C56_sign_ends",
    "C56_generate_ends"
   ],
   "note": "Hypotheses: files smaller than 4 GiB, fewer than 2^40 arguments, ParseSize returns a size or an error. Running out of memory is not modelled."
  },
  {
   "property": "C57",
   "status": "proved",
   "theorems": [
    "C57_encrypt_size",
    "C57_stream_size"
   ],
   "note": ""
  },
  {
   "property": "C58",
   "status": "proved",
   "theorems": [
    "C58_stream_randomness",
    "C58_session_randomness",
    "C58_file_randomness"
   ],
   "note": ""
  },
  {
   "property": "C59",
   "status": "proved",
   "theorems": [
    "C59_encrypt_against_stream"
   ],
   "note": ""
  },
  {
   "property": "C60",
   "status": "partial",
   "theorems": [
    "C60_authenticated_exactly",
    "C60_last_call_decides_partial",
    "C60_refuted"
   ],
   "note": "Exact condition for AuthenticatedSender proved (some call of the history succeeded and verified a sender); the last successful call decides everything but that flag. Refuted as stated: after a later call that returns ErrBadSender, AuthenticatedSender still returns true."
  },
  {
   "property": "C61",
   "status": "proved",
   "theorems": [
    "C61_rejected_recipients_leave_no_trace",
    "C61_rejected_exactly"
   ],
   "note": ""
  },
  {
   "property": "C62",
   "status": "proved",
   "theorems": [
    "C62_verify_report"
   ],
   "note": ""
  },
  {
   "property": "C63",
   "status": "proved",
   "theorems": [
    "C63_decrypt_to_stdout",
    "C63_output_genuine"
   ],
   "note": ""
  },
  {
   "property": "C64",
   "status": "proved",
   "theorems": [
    "C64_encrypt_succeeds",
    "C64_encrypt_to_stdout",
    "C64_pipeline"
   ],
   "note": ""
  },
  {
   "property": "C65",
   "status": "proved",
   "theorems": [
    "C65_generate_encrypt_decrypt"
   ],
   "note": ""
  },
  {
   "property": "C66",
   "status": "proved",
   "theorems": [
    "C66_generate_sign_verify"
   ],
   "note": ""
  },
  {
   "property": "C67",
   "status": "proved",
   "theorems": [
    "C67_private_exact",
    "C67_public_exact",
    "C67_one_key"
   ],
   "note": ""
  },
  {
   "property": "C68",
   "status": "proved",
   "theorems": [
    "C68_only_outputs"
   ],
   "note": ""
  },
  {
   "property": "C69",
   "status": "proved",
   "theorems": [
    "C69_stream_and_decrypt_agree"
   ],
   "note": ""
  },
  {
   "property": "C70",
   "status": "proved",
   "theorems": [
    "C70_one_file_per_encryptor"
   ],
   "note": ""
  },
  {
   "property": "C71",
   "status": "proved",
   "theorems": [
    "C71_own_help",
    "C71_options",
    "C71_command"
   ],
   "note": ""
  },
  {
   "property": "C72",
   "status": "partial",
   "theorems": [
    "C72_readme_partial",
    "C72_gen_p_refuted",
    "C72_sign_stdout_refuted",
    "C72_unverified_refuted"
   ],
   "note": "Refuted as stated in three places: gen -p exits with 2 (no such option), sign without -o writes FILE.sig and nothing to standard output, decrypt without -v of a file encrypted with -s fails. All other lines are proved."
  },
  {
   "property": "C73",
   "status": "proved",
   "theorems": [
    "C73_encrypt_words",
    "C73_sign_words"
   ],
   "note": ""
  },
  {
   "property": "C74",
   "status": "partial",
   "theorems": [
    "C74_failure_changes_nothing_partial",
    "C74_generate_refuted"
   ],
   "note": "Missing: generate, whose private key file is in place before its public key file is written (C74_generate_refuted; C50 says what it can leave)."
  },
  {
   "property": "C75",
   "status": "proved",
   "theorems": [
    "C75_permissions",
    "C75_who_may",
    "C75_generated_pair",
    "C75_library"
   ],
   "note": "The lines of crypt.go which would copy the input file's mode are dead: the variable inf they test is shadowed and stays nil."
  },
  {
   "property": "C76",
   "status": "partial",
   "theorems": [
    "C76_origin_partial",
    "C76_stream_origin_partial"
   ],
   "note": "Proved for files that end with the signed trailer. Missing because false: a file that ends with the bare end marker has no trailer and its content may come from any recipient (C13_refuted_recipient_forges)."
  },
  {
   "property": "C77",
   "status": "proved",
   "theorems": [
    "C77_concurrent_runs"
   ],
   "note": ""
  },
  {
   "property": "C78",
   "status": "partial",
   "theorems": [
    "C78_refuted_race",
    "C78_history_partial"
   ],
   "note": "Proved for runs one after the other. False for simultaneous runs: existence is checked first and the file is renamed into place later; two runs of generate can both succeed, one replacing the other's private key, and leave a .pub which is not that of the .key (C78_refuted_race)."
  },
  {
   "property": "C79",
   "status": "proved",
   "theorems": [
    "C79_verified_file",
    "C79_verify_command"
   ],
   "note": ""
  },
  {
   "property": "C80",
   "status": "proved",
   "theorems": [
    "C80_marshal",
    "C80_generate",
    "C80_sign"
   ],
   "note": ""
  },
  {
   "property": "C81",
   "status": "proved",
   "theorems": [
    "C81_content_hidden",
    "C81_stream_content_hidden"
   ],
   "note": "Non-probabilistic hiding: the statement exhibits, for each alternative content, another law-abiding crypto record giving the same file. It makes no computational claim about AES-GCM itself."
  },
  {
   "property": "C82",
   "status": "proved",
   "theorems": [
    "C82_recipients_hidden"
   ],
   "note": "The number of recipients is not hidden (one wrapped key each)."
  },
  {
   "property": "C83",
   "status": "proved",
   "theorems": [
    "C83_sender_hidden",
    "C83_anonymous",
    "C83_stream_sender_hidden",
    "C83_stream_anonymous"
   ],
   "note": "Non-probabilistic hiding, as for C81. The trailer signature's own anonymity is idealised: the alternative functions may sign this one trailer message differently."
  },
  {
   "property": "C84",
   "status": "partial",
   "theorems": [
    "C84_next_file_untouched_partial",
    "C84_many_files_partial",
    "C84_refuted",
    "C84_stream_next_file_untouched_partial",
    "C84_many_files_any_reader_partial",
    "C84_stream_refuted"
   ],
   "note": "False of the code for files whose last frame is empty (Encrypt on a multiple of the block size, or nothing written to a stream): the decryptor stops at the four-byte end marker and leaves the 16-byte seal and the 64-byte trailer in the source (C84_refuted, with an instance where the next file is not found). Proved for all other files."
  },
  {
   "property": "C85",
   "status": "proved",
   "theorems": [
    "C85_encryptor_never_panics"
   ],
   "note": ""
  },
  {
   "property": "C86",
   "status": "proved",
   "theorems": [
    "C86_no_amplification"
   ],
   "note": ""
  },
  {
   "property": "C87",
   "status": "proved",
   "theorems": [
    "C87_follow_along"
   ],
   "note": ""
  },
  {
   "property": "C88",
   "status": "proved",
   "theorems": [
    "C88_any_form"
   ],
   "note": ""
  },
  {
   "property": "C89",
   "status": "proved",
   "theorems": [
    "C89_key_file_hides"
   ],
   "note": ""
  },
  {
   "property": "C90",
   "status": "proved",
   "theorems": [
    "C90_one_destination"
   ],
   "note": ""
  },
  {
   "property": "C91",
   "status": "proved",
   "theorems": [
    "C91_objects_independent"
   ],
   "note": "calls follow one another whole: a call is not interrupted in the middle (data races between goroutines are the Go memory model's business)."
  },
  {
   "property": "C92",
   "status": "proved",
   "theorems": [
    "C92_sign_to_stdout",
    "C92_printed_signature_verifies",
    "C92_sign_exit_status"
   ],
   "note": ""
  },
  {
   "property": "C93",
   "status": "proved",
   "theorems": [
    "C93_silent",
    "C93_encryptor_messages",
    "C93_decryptor_messages",
    "C93_discloses",
    "C93_both_ends",
    "C93_option"
   ],
   "note": "The text that sigtool itself prints with --debug is that of the one Encryptor or Decryptor it uses; other texts on standard error are not modelled."
  },
  {
   "property": "C94",
   "status": "partial",
   "theorems": [
    "C94_goroutines_partial",
    "C94_caches",
    "C94_no_waiting",
    "C94_torn_refuted"
   ],
   "note": "Proved for accesses to the cache variable that are one step each (C94_goroutines_partial, C94_caches, C94_no_waiting for every program). Go does not promise that: a slice has several words, and where they are read and written one by one AddRecipient can fail on a good key that another goroutine is adding for the first time (C94_torn_refuted, a data race in the code)."
  },
  {
   "property": "C95",
   "status": "partial",
   "theorems": [
    "C95_set_key_midway_partial",
    "C95_repeated_call_refuted",
    "C95_no_panic_refuted"
   ],
   "note": "Proved: the data is always in order and complete at io.EOF (up to a panic); for unsigned files, and for calls rejected with ErrBadKey, the extra calls change nothing. Refuted for signed files: a second successful call restarts the HMAC, so the genuine trailer is rejected (C95_repeated_call_refuted), and a call rejected for want of the sender's key makes the next Reads panic (C95_no_panic_refuted)."
  },
  {
   "property": "C96",
   "status": "partial",
   "theorems": [
    "C96_missing_arguments",
    "C96_advice_works",
    "C96_same_outcome",
    "C96_success_is_silent",
    "C96_failure_is_reported",
    "C96_every_bad_recipient_named",
    "C96_texts",
    "C96_program_name_refuted",
    "C96_no_sender_warning",
    "C96_truthful"
   ],
   "note": "Partial: the statement about the layout is refuted for a program name with % (die.go:32-33 builds a format from os.Args[0]); proved for all others. What pflag and the Go run time print themselves is not modelled."
  },
  {
   "property": "C97",
   "status": "proved",
   "theorems": [
    "C97_verify",
    "C97_sign",
    "C97_decrypt",
    "C97_encrypt",
    "C97_generate"
   ],
   "note": ""
  },
  {
   "property": "C98",
   "status": "proved",
   "theorems": [
    "C98_rewritten_key"
   ],
   "note": ""
  },
  {
   "property": "C99",
   "status": "partial",
   "theorems": [
    "C99_every_command_line",
    "C99_zero_partial",
    "C99_misspelt_refuted"
   ],
   "note": "Refuted for encrypt and decrypt: pflag calls the Usage function of the flag set before it ends the program for a wrong option, and encryptUsage/decryptUsage call os.Exit(0). So `sigtool encrypt --output=x to.pub file` (the option is --outfile) encrypts nothing and exits with 0 (C99_misspelt_refuted). C99_every_command_line classifies all command lines; C99_zero_partial is the claim without misspelt options of encrypt and decrypt. That pflag calls Usage first (failf) is taken from the published source of spf13/pflag."
  },
  {
   "property": "C100",
   "status": "partial",
   "theorems": [
    "C100_texts",
    "C100_usage_is_true",
    "C100_version",
    "C100_options_missing_refuted"
   ],
   "note": "Refuted in one point: encryptUsage and decryptUsage announce `Options:` on standard output but print the list to standard error (no SetOutput before PrintDefaults): C100_options_missing_refuted. What PrintDefaults prints is a parameter."
  },
  {
   "property": "C101",
   "status": "proved",
   "theorems": [
    "C101_clean",
    "C101_spellings",
    "C101_generate_names",
    "C101_program_name"
   ],
   "note": "path.Clean and path.Base are Go's standard library, modelled from their source; the file names of generate are wo_clean of the world elsewhere, here the world's wo_clean is that function."
  },
  {
   "property": "C102",
   "status": "proved",
   "theorems": [
    "C102_header_buffer",
    "C102_key_buffer",
    "C102_as_used"
   ],
   "note": ""
  },
  {
   "property": "C103",
   "status": "proved",
   "theorems": [
    "C103_zero_means_done"
   ],
   "note": "The excluded cases are the subject of C99 (misspelt options of encrypt and decrypt), C45 and C49 (a failing close is not reported by decrypt; failing writes and closes are not reported by sign)."
  },
  {
   "property": "C104",
   "status": "proved",
   "theorems": [
    "C104_header",
    "C104_chunk",
    "C104_encrypt",
    "C104_encrypt_call",
    "C104_stream"
   ],
   "note": ""
  },
  {
   "property": "C105",
   "status": "proved",
   "theorems": [
    "C105_past",
    "C105_past_generate"
   ],
   "note": "C68 (what a command can change, also when stopped) by induction over the history, then C97 (what a command depends on)."
  },
  {
   "property": "C106",
   "status": "proved",
   "theorems": [
    "C106_order"
   ],
   "note": "C105 in both directions, and the effect of one SafeFile on a path that is no link."
  }
 ]
}