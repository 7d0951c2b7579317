{"mid": "t001", "lemmas": ["Thm_Debug.debug_message", "Thm_Debug.start_silent", "Thm_Debug.C93_silent", "Thm_Debug.C93_decryptor_messages", "Thm_Debug.C93_both_ends"], "hard": [], "failed": ["C93_both_ends", "C93_decryptor_messages", "C93_discloses", "C93_encryptor_messages", "C93_silent"], "secs": 15, "m": {"id": "t001", "edits": [["Debug.v", "if level <=? 0 then []", "if level <? 0 then []"]], "definition": "debug", "desc": "debugging always on", "breaks": ["C93"]}}
{"mid": "t002", "lemmas": ["Thm_Debug.debug_message", "Thm_Debug.start_silent", "Thm_Debug.C93_silent", "Thm_Debug.C93_decryptor_messages", "Thm_Debug.C93_both_ends"], "hard": [], "failed": ["C93_both_ends", "C93_decryptor_messages", "C93_discloses", "C93_encryptor_messages", "C93_silent"], "secs": 15, "m": {"id": "t002", "edits": [["Debug.v", "if level <=? 0 then []", "if level <=? 1 then []"]], "definition": "debug", "desc": "level 1 is off", "breaks": ["C93"]}}
{"mid": "t003", "lemmas": ["Thm_Debug.digit_hex"], "hard": [], "failed": ["C93_discloses", "C93_encryptor_messages"], "secs": 6, "m": {"id": "t003", "edits": [["Debug.v", "87 + d", "55 + d"]], "definition": "hex_digit", "desc": "upper-case digits", "breaks": ["C93"]}}
{"mid": "t004", "lemmas": ["Thm_Debug.debug_message"], "hard": [], "failed": ["C93_discloses", "C93_encryptor_messages"], "secs": 6, "m": {"id": "t004", "edits": [["Debug.v", "str \"aes-key: \" ++ hex key", "str \"aes-key: \" ++ hex hmackey"]], "definition": "debug_text", "desc": "HMAC key and data key swapped in the message", "breaks": ["C93"]}}
{"mid": "t006", "lemmas": ["Thm_Debug.start_message", "Thm_Debug.C93_both_ends"], "hard": [], "failed": ["C93_both_ends", "C93_discloses", "C93_encryptor_messages"], "secs": 9, "m": {"id": "t006", "edits": [["Debug.v", "sha256 C (fixed_header (size_header (e_hdr e)) ++ varHdr)", "sha256 C (fixed_header (size_header (e_hdr e)))"]], "definition": "start_debug", "desc": "encrypt prints checksum of the fixed header only", "breaks": ["C93"]}}
{"mid": "t005", "lemmas": ["Thm_Debug.start_message", "Thm_Debug.C93_both_ends"], "hard": [], "failed": ["C93_both_ends", "C93_discloses", "C93_encryptor_messages"], "secs": 11, "m": {"id": "t005", "edits": [["Debug.v", "dkey (e_nonce e') hmackey)", "dkey (e_nonce e) hmackey)"]], "definition": "start_debug", "desc": "the nonce of the first chunk of zeros is printed", "breaks": ["C93"]}}
{"mid": "t008", "lemmas": ["Thm_Debug.estep_message", "Thm_Debug.C93_silent", "Thm_Debug.C93_discloses"], "hard": [], "failed": ["C93_discloses", "C93_encryptor_messages", "C93_silent"], "secs": 11, "m": {"id": "t008", "edits": [["Debug.v", "| EStream wr => if e_started e then [] else start_debug C level e wr", "| EStream wr => []"]], "definition": "estep_debug", "desc": "NewStreamWriter prints nothing", "breaks": ["C93"]}}
{"mid": "t007", "lemmas": ["Thm_Debug.started_silent", "Thm_Debug.C93_silent", "Thm_Debug.C93_discloses", "Thm_Debug.C93_both_ends"], "hard": [], "failed": ["C93_both_ends", "C93_discloses", "C93_encryptor_messages", "C93_silent"], "secs": 14, "m": {"id": "t007", "edits": [["Debug.v", "if e_stream e then [] else if e_started e then [] else start_debug", "if e_stream e then [] else start_debug"]], "definition": "estep_debug", "desc": "a second Encrypt prints again", "breaks": ["C93"]}}
{"mid": "t009", "lemmas": ["Thm_Debug.C93_silent", "Thm_Debug.C93_decryptor_messages"], "hard": [], "failed": ["C93_decryptor_messages", "C93_silent"], "secs": 9, "m": {"id": "t009", "edits": [["Debug.v", "      | (d, _, Ok _) =>\n", "      | (d, _, _) =>\n"], ["Debug.v", "          end\n      | _ => []\n      end\n  | _ => []\n  end.\n(** what each", "          end\n      end\n  | _ => []\n  end.\n(** what each"]], "definition": "dstep_debug", "desc": "message of a failed SetPrivateKey", "breaks": ["C93"]}}
{"mid": "t010", "lemmas": ["Thm_Debug.C93_both_ends"], "hard": [], "failed": ["C93_both_ends"], "secs": 8, "m": {"id": "t010", "edits": [["Debug.v", "debug_text \"decrypt\"", "debug_text \"encrypt\""]], "definition": "dstep_debug", "desc": "decrypt says encrypt", "breaks": ["C93"]}}
{"mid": "t012", "lemmas": ["Thm_Debug.C93_option"], "hard": [], "failed": ["C93_option"], "secs": 8, "m": {"id": "t012", "edits": [["Debug.v", "(str \"debug\") false then", "(str \"debug\") true then"]], "definition": "debug_level", "desc": "--debug always on", "breaks": ["C93"]}}
{"mid": "t011", "lemmas": ["Thm_Debug.C93_option"], "hard": [], "failed": ["C93_option"], "secs": 9, "m": {"id": "t011", "edits": [["Debug.v", "then 1 else 0)", "then 0 else 1)"]], "definition": "debug_level", "desc": "--debug inverted", "breaks": ["C93"]}}
{"mid": "t014", "lemmas": ["Thm_Race.wp_conv_pk", "Thm_Race.C94_goroutines_partial", "Thm_Race.C94_caches"], "hard": [], "failed": ["C94_caches", "C94_goroutines_partial"], "secs": 14, "m": {"id": "t014", "edits": [["Race.v", "Store (PkCache k 0) (Some out) (K (Ok out))", "Store (PkCache k 0) None (Store (PkCache k 0) (Some out) (K (Ok out)))"]], "definition": "conv_pk", "desc": "the cache is cleared before it is filled", "breaks": ["C94"]}}
{"mid": "t013", "lemmas": ["Thm_Race.wp_conv_pk", "Thm_Race.C94_goroutines_partial", "Thm_Race.C94_caches"], "hard": [], "failed": ["C94_caches", "C94_goroutines_partial"], "secs": 15, "m": {"id": "t013", "edits": [["Race.v", "Store (PkCache k 0) (Some out) (K (Ok out))", "Store (PkCache k 0) (Some (pk_Pk pk)) (Store (PkCache k 0) (Some out) (K (Ok out)))"]], "definition": "conv_pk", "desc": "the unconverted key is published", "breaks": ["C94"]}}
{"mid": "t015", "lemmas": ["Thm_Race.wp_conv_sk", "Thm_Race.C94_goroutines_partial", "Thm_Race.C94_caches"], "hard": [], "failed": ["C94_caches", "C94_goroutines_partial"], "secs": 14, "m": {"id": "t015", "edits": [["Race.v", "| None => Store (SkCache k 0) (Some (fst", "| None => Store (SkCache k 0) (Some (take 32 (sha512 C (take 32 (sk_Sk sk))))) (Store (SkCache k 0) (Some (fst"], ["Race.v", "(Load (SkCache k 0) (fun c' => K (slice c')))\n    end).", "(Load (SkCache k 0) (fun c' => K (slice c'))))\n    end)."]], "definition": "conv_sk", "desc": "the clamping is done after publishing", "breaks": ["C94"]}}
{"mid": "t016", "lemmas": ["Thm_Race.wp_conv_pk", "Thm_Race.C94_goroutines_partial", "Thm_Race.C94_caches"], "hard": [], "failed": ["C94_caches", "C94_goroutines_partial"], "secs": 15, "m": {"id": "t016", "edits": [["Race.v", "  Load (PkCache k 0) (fun c =>\n    match c with\n    | Some _ => Load (PkCache k 0)", "  Load (PkCache 0 0) (fun c =>\n    match c with\n    | Some _ => Load (PkCache 0 0)"]], "definition": "conv_pk", "desc": "the cache of the first key is used for all", "breaks": ["C94"]}}
{"mid": "t017", "lemmas": ["Thm_Race.wp_call", "Thm_Race.C94_goroutines_partial", "Thm_Race.C94_caches"], "hard": [], "failed": ["C94_caches", "C94_goroutines_partial"], "secs": 12, "m": {"id": "t017", "edits": [["Race.v", "if e_started e then K e (Fail ErrEncStarted)\n  else conv", "conv"]], "definition": "add_prog", "desc": "started is not checked", "breaks": ["C94"]}}
{"mid": "t018", "lemmas": ["Thm_Race.wp_call", "Thm_Race.C94_goroutines_partial", "Thm_Race.C94_caches"], "hard": [], "failed": ["C94_caches", "C94_goroutines_partial"], "secs": 13, "m": {"id": "t018", "edits": [["Race.v", "        | Fail x => K e (Fail (EWrap \"wrap\" x))\n        | Panic p => K e (Panic p)\n        end\n    end).\n\n(** encrypt.go:469", "        | Fail x => draw 12 (fun _ => K e (Fail (EWrap \"wrap\" x)))\n        | Panic p => K e (Panic p)\n        end\n    end).\n\n(** encrypt.go:469"]], "definition": "add_prog", "desc": "the nonce is drawn before the key exchange is checked", "breaks": ["C94"]}}
{"mid": "t019", "lemmas": ["Thm_Race.wp_find", "Thm_Race.C94_goroutines_partial", "Thm_Race.C94_caches"], "hard": [], "failed": ["C94_caches", "C94_goroutines_partial"], "secs": 14, "m": {"id": "t019", "edits": [["Race.v", "| Ok None => find_prog C conv h ks' sk K", "| Ok None => K (Fail ErrBadKey)"]], "definition": "find_prog", "desc": "only the first wrapped key is tried", "breaks": ["C94"]}}
{"mid": "t020", "lemmas": ["Thm_Race.set_rest_same", "Thm_Race.C94_goroutines_partial", "Thm_Race.C94_caches"], "hard": [], "failed": ["C94_caches", "C94_goroutines_partial"], "secs": 16, "m": {"id": "t020", "edits": [["Race.v", "match verify_sender C (d_hdr d) key senderPk with", "match Ok (A:=bool) false with"]], "definition": "set_rest", "desc": "the sender is not verified", "breaks": ["C94"]}}
{"mid": "t021", "lemmas": ["Thm_Race.wp_call", "Thm_Race.C94_goroutines_partial", "Thm_Race.C94_caches"], "hard": [], "failed": ["C94_caches", "C94_goroutines_partial"], "secs": 13, "m": {"id": "t021", "edits": [["Race.v", "draw aes_key_size (fun key => draw salt_size (fun salt =>", "draw salt_size (fun salt => draw aes_key_size (fun key =>"]], "definition": "call_prog", "desc": "salt drawn before the file key", "breaks": ["C94"]}}
{"mid": "t022", "lemmas": ["Thm_Race.inv_step", "Thm_Race.C94_goroutines_partial", "Thm_Race.C94_caches"], "hard": [], "failed": ["C94_caches", "C94_goroutines_partial"], "secs": 12, "m": {"id": "t022", "edits": [["Race.v", "put g (m_cells m) (mkGo", "put (m_rng m) (m_cells m) (mkGo"]], "definition": "step", "desc": "a draw does not move the random source", "breaks": ["C94"]}}
{"mid": "t023", "lemmas": ["Thm_Race.inv_step", "Thm_Race.C94_goroutines_partial", "Thm_Race.C94_caches", "Thm_Race.finish_call"], "hard": [], "failed": ["C94_caches", "C94_goroutines_partial", "C94_no_waiting"], "secs": 15, "m": {"id": "t023", "edits": [["Race.v", "(mkGo (t_todo t) None l (t_done t ++ [(c, r)]))", "(mkGo (t_todo t) None l (t_done t ++ [(c, r); (c, r)]))"]], "definition": "step", "desc": "a call returns twice", "breaks": ["C94"]}}
{"mid": "t024", "lemmas": ["Thm_Race.inv_step", "Thm_Race.C94_goroutines_partial", "Thm_Race.C94_caches", "Thm_Race.finish_call", "Thm_Race.C94_torn_refuted"], "hard": [], "failed": ["C94_caches", "C94_goroutines_partial", "C94_no_waiting", "C94_torn_refuted"], "secs": 15, "m": {"id": "t024", "edits": [["Race.v", "(mkGo (t_todo t) None l (t_done t ++ [(c, r)]))", "(mkGo (t_todo t) None (t_loc t) (t_done t ++ [(c, r)]))"]], "definition": "step", "desc": "the result of a call is lost", "breaks": ["C94"]}}
{"mid": "t026", "lemmas": ["Thm_Amplify.sane_keep"], "hard": [], "failed": ["C86_no_amplification"], "secs": 268, "m": {"id": "t026", "edits": [["Stream.v", "if 0 <? er_len s then (s, Some (take (er_len s) (drop (er_off s) (d_buf d)))) else x", "(s, None)"]], "definition": "er_keep", "desc": "unread data is lost by SetPrivateKey", "breaks": ["C85"]}}
{"mid": "t025", "lemmas": ["Thm_Sign.C41_public_key_conversion", "Thm_Together.curve_same"], "hard": [], "failed": ["C41_public_key_conversion", "C91_objects_independent", "C94_caches", "C94_goroutines_partial"], "secs": 377, "m": {"id": "t025", "edits": [["Keys.v", "(pk_comment pk) (Some c) (pk_hash pk))", "(pk_comment pk) (Some (pk_Pk pk)) (pk_hash pk))"]], "definition": "to_curve_pk", "desc": "the cache holds the unconverted key", "breaks": ["C91", "C94"]}}
{"mid": "t027", "lemmas": ["Thm_Amplify.sane_keep"], "hard": [], "failed": ["C86_no_amplification"], "secs": 276, "m": {"id": "t027", "edits": [["Stream.v", "Some (take (er_len s) (drop (er_off s) (d_buf d)))", "Some (drop (er_off s) (d_buf d))"]], "definition": "er_keep", "desc": "the whole buffer is kept", "breaks": ["C85"]}}
{"mid": "t028", "lemmas": ["Thm_Amplify.er_read_kept_left"], "hard": [], "failed": ["C86_no_amplification"], "secs": 282, "m": {"id": "t028", "edits": [["Stream.v", "if m <? len b then Some (drop m b) else None", "if m <? len b then Some b else None"]], "definition": "er_read_kept", "desc": "kept data is delivered twice", "breaks": ["C85"]}}
{"mid": "t029", "lemmas": [], "hard": [], "failed": [], "secs": 291, "m": {"id": "t029", "edits": [["Stream.v", "(er_blk s) None, if m <? len b", "(er_blk s) (Some IoEOF), if m <? len b"]], "definition": "er_read_kept", "desc": "kept data ends the stream", "breaks": ["C85"]}}
{"mid": "t030", "lemmas": ["StreamProofs.ew_write_spec", "Thm_Stream.C27_sticky_errors"], "hard": [], "failed": ["C02_stream_round_trip", "C02_stream_writes_succeed", "C03_encrypted_file_streams", "C03_stream_file_decrypts", "C04_stream_agrees_with_encrypt", "C04_stream_write_sizes_irrelevant", "C05_stream_format", "C06_stream_chunks", "C07_stream_nonces_distinct_partial", "C08_tampered_stream_header", "C09_truncated_file", "C09_truncated_stream", "C10_complete_partial", "C10_refuted_truncation", "C10_stream_complete_partial", "C11_released_data_genuine", "C13_refuted_recipient_forges", "C14_refuted", "C20_refuted", "C27_sticky_errors", "C27_writes", "C29_refuted", "C57_stream_size", "C58_stream_randomness", "C59_encrypt_against_stream", "C63_output_genuine", "C72_unverified_refuted", "C76_origin_partial", "C76_stream_origin_partial", "C81_stream_content_hidden", "C83_stream_anonymous", "C83_stream_sender_hidden", "C84_many_files_any_reader_partial", "C84_many_files_partial", "C84_next_file_untouched_partial", "C84_refuted", "C84_stream_next_file_untouched_partial", "C84_stream_refuted", "C87_follow_along", "C88_any_form", "C93_discloses"], "secs": 294, "m": {"id": "t030", "edits": [["Stream.v", "match rs with Ok _ => len b | _ => 0 end", "match rs with Ok _ => 0 | _ => 0 end"]], "definition": "ew_write", "desc": "Write reports 0 bytes", "breaks": ["C19"]}}
{"mid": "t031", "lemmas": ["StreamProofs.ew_write_spec", "Thm_Stream.C27_sticky_errors"], "hard": [], "failed": ["C02_stream_round_trip", "C02_stream_writes_succeed", "C03_encrypted_file_streams", "C03_stream_file_decrypts", "C04_stream_agrees_with_encrypt", "C04_stream_write_sizes_irrelevant", "C05_stream_format", "C06_stream_chunks", "C07_stream_nonces_distinct_partial", "C08_tampered_stream_header", "C09_truncated_file", "C09_truncated_stream", "C10_complete_partial", "C10_refuted_truncation", "C10_stream_complete_partial", "C11_released_data_genuine", "C13_refuted_recipient_forges", "C14_refuted", "C20_refuted", "C27_sticky_errors", "C27_writes", "C29_refuted", "C57_stream_size", "C58_stream_randomness", "C59_encrypt_against_stream", "C63_output_genuine", "C72_unverified_refuted", "C76_origin_partial", "C76_stream_origin_partial", "C81_stream_content_hidden", "C83_stream_anonymous", "C83_stream_sender_hidden", "C84_many_files_any_reader_partial", "C84_many_files_partial", "C84_next_file_untouched_partial", "C84_refuted", "C84_stream_next_file_untouched_partial", "C84_stream_refuted", "C87_follow_along", "C88_any_form", "C93_discloses"], "secs": 278, "m": {"id": "t031", "edits": [["Stream.v", "match rs with Ok _ => len b | _ => 0 end", "len b"]], "definition": "ew_write", "desc": "a failed Write reports the whole length", "breaks": ["C19"]}}
{"mid": "t032", "lemmas": ["StreamProofs.write_all_err", "LocalProofs.local_write", "Thm_Session.ew_write_flags", "Thm_Calls.ew_write_hdr", "Thm_Calls.estep_headless", "Thm_Stream.write_ops_err", "Thm_Stream.C27_sticky_errors", "Thm_Secret.ew_write_same", "Thm_NoPanic.estep_quiet"], "hard": [], "failed": ["C02_stream_round_trip", "C02_stream_writes_succeed", "C03_encrypted_file_streams", "C03_stream_file_decrypts", "C04_stream_agrees_with_encrypt", "C04_stream_write_sizes_irrelevant", "C05_stream_format", "C06_stream_chunks", "C07_stream_nonces_distinct_partial", "C08_tampered_stream_header", "C09_truncated_file", "C09_truncated_stream", "C10_complete_partial", "C10_refuted_truncation", "C10_stream_complete_partial", "C11_released_data_genuine", "C13_refuted_recipient_forges", "C14_refuted", "C17_every_history", "C17_no_recipient_after_start", "C18_encrypt_after_stream_writer", "C18_encrypt_every_history", "C20_refuted", "C27_sticky_errors", "C27_writes", "C29_refuted", "C57_stream_size", "C58_stream_randomness", "C59_encrypt_against_stream", "C63_output_genuine", "C70_one_file_per_encryptor", "C72_unverified_refuted", "C76_origin_partial", "C76_stream_origin_partial", "C81_stream_content_hidden", "C82_recipients_hidden", "C83_stream_anonymous", "C83_stream_sender_hidden", "C84_many_files_any_reader_partial", "C84_many_files_partial", "C84_next_file_untouched_partial", "C84_refuted", "C84_stream_next_file_untouched_partial", "C84_stream_refuted", "C85_encryptor_never_panics", "C87_follow_along", "C88_any_form", "C91_objects_independent", "C93_discloses", "C93_encryptor_messages", "C94_caches", "C94_goroutines_partial"], "secs": 291, "m": {"id": "t032", "edits": [["Stream.v", "  match ew_err s with\n  | Some x => (e, w, g, s, (0, Fail x))\n  | None =>\n      if len b =? 0 then", "  match (if len b =? 0 then None else ew_err s) with\n  | Some x => (e, w, g, s, (0, Fail x))\n  | None =>\n      if len b =? 0 then"]], "definition": "ew_write", "desc": "an empty Write after an error succeeds", "breaks": ["C19"]}}
{"mid": "t033", "lemmas": ["StreamProofs.ew_loop_spec", "LocalProofs.local_ew_loop", "Thm_Stream.ew_loop_fail"], "hard": [], "failed": ["C02_stream_round_trip", "C02_stream_writes_succeed", "C03_encrypted_file_streams", "C03_stream_file_decrypts", "C04_stream_agrees_with_encrypt", "C04_stream_write_sizes_irrelevant", "C05_stream_format", "C06_stream_chunks", "C07_stream_nonces_distinct_partial", "C08_tampered_stream_header", "C09_truncated_file", "C09_truncated_stream", "C10_complete_partial", "C10_refuted_truncation", "C10_stream_complete_partial", "C11_released_data_genuine", "C13_refuted_recipient_forges", "C14_refuted", "C20_refuted", "C27_sticky_errors", "C27_writes", "C29_refuted", "C57_stream_size", "C58_stream_randomness", "C59_encrypt_against_stream", "C63_output_genuine", "C72_unverified_refuted", "C76_origin_partial", "C76_stream_origin_partial", "C81_stream_content_hidden", "C83_stream_anonymous", "C83_stream_sender_hidden", "C84_many_files_any_reader_partial", "C84_many_files_partial", "C84_next_file_untouched_partial", "C84_refuted", "C84_stream_next_file_untouched_partial", "C84_stream_refuted", "C87_follow_along", "C88_any_form", "C91_objects_independent", "C93_discloses", "C94_caches", "C94_goroutines_partial"], "secs": 263, "m": {"id": "t033", "edits": [["Stream.v", "(e, w, g, mkEw buf (ew_blk s) (Some x), Fail x)\n            | Panic p => (e, w, g, mkEw buf (ew_blk s) (ew_err s), Panic p)", "(e, w, g, mkEw buf (ew_blk s) None, Fail x)\n            | Panic p => (e, w, g, mkEw buf (ew_blk s) (ew_err s), Panic p)"]], "definition": "ew_loop", "desc": "a failed flush is forgotten", "breaks": ["C19"]}}
{"mid": "t034", "lemmas": ["StreamProofs.ew_close_spec", "LocalProofs.local_close", "Thm_Stream.C27_sticky_errors"], "hard": [], "failed": ["C02_stream_round_trip", "C02_stream_writes_succeed", "C03_encrypted_file_streams", "C03_stream_file_decrypts", "C04_stream_agrees_with_encrypt", "C04_stream_write_sizes_irrelevant", "C05_stream_format", "C06_stream_chunks", "C07_stream_nonces_distinct_partial", "C08_tampered_stream_header", "C09_truncated_file", "C09_truncated_stream", "C10_complete_partial", "C10_refuted_truncation", "C10_stream_complete_partial", "C11_released_data_genuine", "C13_refuted_recipient_forges", "C14_refuted", "C20_refuted", "C27_sticky_errors", "C29_refuted", "C57_stream_size", "C58_stream_randomness", "C59_encrypt_against_stream", "C63_output_genuine", "C72_unverified_refuted", "C76_origin_partial", "C76_stream_origin_partial", "C81_stream_content_hidden", "C83_stream_anonymous", "C83_stream_sender_hidden", "C84_many_files_any_reader_partial", "C84_many_files_partial", "C84_next_file_untouched_partial", "C84_refuted", "C84_stream_next_file_untouched_partial", "C84_stream_refuted", "C88_any_form", "C91_objects_independent", "C93_discloses", "C94_caches", "C94_goroutines_partial"], "secs": 258, "m": {"id": "t034", "edits": [["Stream.v", "| Fail x => (e, w, g, mkEw (ew_buf s) (ew_blk s) (Some x), Fail x)", "| Fail x => (e, w, g, s, Fail x)"]], "definition": "ew_close", "desc": "a failed Close may be repeated", "breaks": ["C19"]}}
{"mid": "t035", "lemmas": ["StreamProofs.ew_close_spec", "LocalProofs.local_close", "Thm_Calls.estep_headless"], "hard": [], "failed": ["C02_stream_round_trip", "C02_stream_writes_succeed", "C03_encrypted_file_streams", "C03_stream_file_decrypts", "C04_stream_agrees_with_encrypt", "C04_stream_write_sizes_irrelevant", "C05_stream_format", "C06_stream_chunks", "C07_stream_nonces_distinct_partial", "C08_tampered_stream_header", "C09_truncated_file", "C09_truncated_stream", "C10_complete_partial", "C10_refuted_truncation", "C10_stream_complete_partial", "C11_released_data_genuine", "C13_refuted_recipient_forges", "C14_refuted", "C20_refuted", "C29_refuted", "C57_stream_size", "C58_stream_randomness", "C59_encrypt_against_stream", "C63_output_genuine", "C70_one_file_per_encryptor", "C72_unverified_refuted", "C76_origin_partial", "C76_stream_origin_partial", "C81_stream_content_hidden", "C83_stream_anonymous", "C83_stream_sender_hidden", "C84_many_files_any_reader_partial", "C84_many_files_partial", "C84_next_file_untouched_partial", "C84_refuted", "C84_stream_next_file_untouched_partial", "C84_stream_refuted", "C88_any_form", "C91_objects_independent", "C93_discloses", "C94_caches", "C94_goroutines_partial"], "secs": 250, "m": {"id": "t035", "edits": [["Stream.v", "| Fail x => (e, w, g, mkEw (ew_buf s) (ew_blk s) (Some x), Fail x)", "| Fail x => (e, snd (w_close w), g, mkEw (ew_buf s) (ew_blk s) (Some x), Fail x)"]], "definition": "ew_close", "desc": "the destination is closed after a failed Close", "breaks": ["C19"]}}
{"mid": "t036", "lemmas": ["StreamRead.er_read_spec", "Hostile.er_read_any", "Thm_Stream.C28_sticky_errors", "Thm_Stream.C29_refuted"], "hard": [], "failed": ["C02_stream_round_trip", "C03_encrypted_file_streams", "C03_stream_file_decrypts", "C09_truncated_stream", "C10_stream_complete_partial", "C11_released_data_genuine", "C13_stream_signed_partial", "C20_no_panic_partial", "C28_read_discipline", "C28_sticky_errors", "C29_refuted", "C29_single_reader_partial", "C63_output_genuine", "C69_stream_and_decrypt_agree", "C76_stream_origin_partial", "C84_many_files_any_reader_partial", "C84_stream_next_file_untouched_partial", "C84_stream_refuted", "C87_follow_along", "C88_any_form"], "secs": 254, "m": {"id": "t036", "edits": [["Stream.v", "| (d, Fail x) => (d, mkEr (er_off s) (er_len s) (er_blk s) (Some x), ([], Fail x))", "| (d, Fail x) => (d, s, ([], Fail x))"]], "definition": "er_read", "desc": "a failed stream Read may be repeated", "breaks": ["C21"]}}
{"mid": "t037", "lemmas": ["StreamRead.er_read_spec"], "hard": [], "failed": ["C02_stream_round_trip", "C03_encrypted_file_streams", "C03_stream_file_decrypts", "C09_truncated_stream", "C10_stream_complete_partial", "C11_released_data_genuine", "C13_stream_signed_partial", "C29_refuted", "C29_single_reader_partial", "C63_output_genuine", "C69_stream_and_decrypt_agree", "C76_stream_origin_partial", "C84_many_files_any_reader_partial", "C84_stream_next_file_untouched_partial", "C84_stream_refuted", "C87_follow_along", "C88_any_form"], "secs": 241, "m": {"id": "t037", "edits": [["Stream.v", "er_deliver (d_set_eof d eof) (mkEr 0 m (u32 (er_blk s + 1)) None) n", "er_deliver (d_set_eof d eof) (mkEr 0 m (u32 (er_blk s + 1)) (if eof then Some IoEOF else None)) n"]], "definition": "er_read", "desc": "the last chunk is delivered with EOF at once", "breaks": ["C21"]}}
{"mid": "t038", "lemmas": ["Thm_Calls.set_private_key_flags", "Thm_Decrypt.C20_refuted", "Thm_Race.set_rest_same", "Thm_Race.C94_goroutines_partial", "Thm_Race.C94_caches"], "hard": [], "failed": ["C18_decrypt_every_history", "C18_nothing_after_decrypt_every_history", "C20_refuted", "C72_unverified_refuted", "C94_caches", "C94_goroutines_partial"], "secs": 269, "m": {"id": "t038", "edits": [["Decrypt.v", "| Fail x => (d1 (d_auth d), sk', Fail (EWrap \"decrypt\" x))", "| Fail x => (d, sk', Fail (EWrap \"decrypt\" x))"]], "definition": "set_private_key", "desc": "(a fix) key kept only if the sender is right", "breaks": ["C14"]}}
{"mid": "t039", "lemmas": ["OpenProofs.set_private_key_spec", "Thm_Crash.set_any", "Thm_History.set_shape", "Thm_History.set_again", "Thm_NoPanic.dstep_quiet", "Thm_Race.set_rest_same", "Thm_Race.C94_goroutines_partial", "Thm_Race.C94_caches"], "hard": [], "failed": ["C01_encrypt_decrypt_round_trip", "C02_stream_round_trip", "C03_encrypted_file_streams", "C03_stream_file_decrypts", "C09_truncated_file", "C09_truncated_stream", "C10_complete_partial", "C10_refuted_truncation", "C10_stream_complete_partial", "C11_released_data_genuine", "C12_authenticated_means_signed", "C13_content_signed_partial", "C13_refuted_recipient_forges", "C13_stream_signed_partial", "C14_refuted", "C14_signed_file_partial", "C16_recipients_agree", "C20_every_history_partial", "C20_no_panic_partial", "C28_read_discipline", "C29_refuted", "C29_single_reader_partial", "C46_sender_partial", "C51_encrypt_then_decrypt", "C56_decrypt_ends", "C60_authenticated_exactly", "C60_last_call_decides_partial", "C63_output_genuine", "C64_pipeline", "C65_generate_encrypt_decrypt", "C69_stream_and_decrypt_agree", "C73_encrypt_words", "C76_origin_partial", "C76_stream_origin_partial", "C84_many_files_any_reader_partial", "C84_many_files_partial", "C84_next_file_untouched_partial", "C84_refuted", "C84_stream_next_file_untouched_partial", "C84_stream_refuted", "C87_follow_along", "C88_any_form", "C93_both_ends", "C94_caches", "C94_goroutines_partial"], "secs": 292, "m": {"id": "t039", "edits": [["Decrypt.v", "let auth := d_auth d || signed in", "let auth := signed in"]], "definition": "set_private_key", "desc": "(a fix) auth reset", "breaks": ["C14"]}}
{"mid": "t040", "lemmas": ["OpenProofs.find_key_spec", "Thm_Crash.find_any", "Thm_Together.find_same", "Thm_Race.wp_find", "Thm_Race.C94_goroutines_partial", "Thm_Race.C94_caches"], "hard": [], "failed": ["C01_encrypt_decrypt_round_trip", "C02_stream_round_trip", "C03_encrypted_file_streams", "C03_stream_file_decrypts", "C09_truncated_file", "C09_truncated_stream", "C10_complete_partial", "C10_refuted_truncation", "C10_stream_complete_partial", "C11_released_data_genuine", "C12_authenticated_means_signed", "C13_content_signed_partial", "C13_refuted_recipient_forges", "C13_stream_signed_partial", "C14_refuted", "C14_signed_file_partial", "C15_not_a_recipient", "C16_recipients_agree", "C20_every_history_partial", "C20_no_panic_partial", "C20_refuted", "C28_read_discipline", "C29_refuted", "C29_single_reader_partial", "C46_sender_partial", "C51_encrypt_then_decrypt", "C56_decrypt_ends", "C60_authenticated_exactly", "C60_last_call_decides_partial", "C63_output_genuine", "C64_pipeline", "C65_generate_encrypt_decrypt", "C69_stream_and_decrypt_agree", "C72_unverified_refuted", "C73_encrypt_words", "C76_origin_partial", "C76_stream_origin_partial", "C84_many_files_any_reader_partial", "C84_many_files_partial", "C84_next_file_untouched_partial", "C84_refuted", "C84_stream_next_file_untouched_partial", "C84_stream_refuted", "C87_follow_along", "C88_any_form", "C91_objects_independent", "C93_both_ends", "C94_caches", "C94_goroutines_partial"], "secs": 318, "m": {"id": "t040", "edits": [["Decrypt.v", "| (Fail x, sk') => (Fail (EWrap \"decrypt: can't unwrap key\" x), sk')", "| (Fail x, sk') => find_key C h ks' sk'"]], "definition": "find_key", "desc": "errors while unwrapping are skipped", "breaks": ["C13"]}}
{"mid": "t041", "lemmas": ["RoundTrip.decrypt_spec", "Thm_Cli.C45_close_refuted", "Thm_Commands.C46_refuted"], "hard": [], "failed": ["C01_encrypt_decrypt_round_trip", "C02_stream_round_trip", "C03_encrypted_file_streams", "C03_stream_file_decrypts", "C09_truncated_file", "C10_complete_partial", "C10_refuted_truncation", "C11_released_data_genuine", "C13_content_signed_partial", "C13_refuted_recipient_forges", "C14_refuted", "C45_close_refuted", "C46_refuted", "C51_encrypt_then_decrypt", "C63_output_genuine", "C64_pipeline", "C65_generate_encrypt_decrypt", "C69_stream_and_decrypt_agree", "C73_encrypt_words", "C76_origin_partial", "C84_many_files_any_reader_partial", "C84_many_files_partial", "C84_next_file_untouched_partial", "C84_refuted", "C88_any_form"], "secs": 298, "m": {"id": "t041", "edits": [["Decrypt.v", "else dec_loop C (S (rd_size (d_rd d))) d w 0", "else dec_loop C (S (rd_size (d_rd d))) d w 1"]], "definition": "dec_loop", "desc": "block number starts at 1 for Decrypt", "breaks": ["C02"]}}
{"mid": "t042", "lemmas": ["EncryptProofs.encrypt_spec", "FreeProofs.encrypt_free", "LocalProofs.local_encrypt", "Thm_Calls.C70_one_file_per_encryptor"], "hard": [], "failed": ["C01_encrypt_decrypt_round_trip", "C01_encrypt_succeeds", "C02_stream_round_trip", "C03_encrypted_file_streams", "C03_stream_file_decrypts", "C04_fragmentation_independent", "C04_stream_agrees_with_encrypt", "C05_file_format", "C06_chunks", "C07_nonces_distinct_partial", "C07_refuted_counter_wraps", "C07_refuted_second_encrypt", "C08_tampered_header", "C09_truncated_file", "C09_truncated_stream", "C10_complete_partial", "C10_refuted_truncation", "C10_stream_complete_partial", "C11_released_data_genuine", "C13_refuted_recipient_forges", "C14_refuted", "C16_recipients_agree", "C20_refuted", "C21_encrypt_errors_partial", "C23_refuted", "C24_recipients_partial", "C24_refuted", "C29_refuted", "C44_old_or_new_partial", "C48_encrypt_exact", "C48_encrypt_succeeds", "C48_unresolved", "C51_encrypt_then_decrypt", "C57_encrypt_size", "C58_file_randomness", "C59_encrypt_against_stream", "C63_output_genuine", "C64_encrypt_succeeds", "C64_encrypt_to_stdout", "C64_pipeline", "C65_generate_encrypt_decrypt", "C70_one_file_per_encryptor", "C72_unverified_refuted", "C73_encrypt_words", "C74_failure_changes_nothing_partial", "C76_origin_partial", "C76_stream_origin_partial", "C81_content_hidden", "C83_anonymous", "C83_sender_hidden", "C84_many_files_any_reader_partial", "C84_many_files_partial", "C84_next_file_untouched_partial", "C84_refuted", "C84_stream_next_file_untouched_partial", "C84_stream_refuted", "C88_any_form", "C91_objects_independent", "C93_both_ends", "C93_discloses", "C94_caches", "C94_goroutines_partial"], "secs": 310, "m": {"id": "t042", "edits": [["Encrypt.v", "                  | (Some x, w) => (e, r, w, g, Fail x)\n                  end\n        | x => (e, r, w, g, x)", "                  | (Some x, w) => (e, r, w, g, Fail x)\n                  end\n        | x => (e, r, snd (w_close w), g, x)"]], "definition": "encrypt", "desc": "destination closed also after failures", "breaks": ["C61"]}}
{"mid": "t043", "lemmas": ["EncryptProofs.encrypt_spec", "Support.encrypt_clean", "Support.encrypt_again", "FreeProofs.encrypt_free", "LocalProofs.local_encrypt", "Thm_Session.encrypt_flags", "Thm_Calls.estep_started", "Thm_Calls.estep_chunk", "Thm_Crash.encrypt_any", "Thm_Debug.estep_message", "Thm_Limits.C21_encrypt_errors_partial"], "hard": [], "failed": ["C01_encrypt_decrypt_round_trip", "C01_encrypt_succeeds", "C02_stream_round_trip", "C03_encrypted_file_streams", "C03_stream_file_decrypts", "C04_fragmentation_independent", "C04_stream_agrees_with_encrypt", "C05_file_format", "C06_chunks", "C07_nonces_distinct_partial", "C07_refuted_counter_wraps", "C07_refuted_second_encrypt", "C08_tampered_header", "C09_truncated_file", "C09_truncated_stream", "C10_complete_partial", "C10_refuted_truncation", "C10_stream_complete_partial", "C11_released_data_genuine", "C13_refuted_recipient_forges", "C14_refuted", "C16_recipients_agree", "C17_every_history", "C17_no_recipient_after_start", "C18_encrypt_every_history", "C20_refuted", "C21_encrypt_errors_partial", "C23_refuted", "C24_recipients_partial", "C24_refuted", "C29_refuted", "C44_old_or_new_partial", "C48_encrypt_exact", "C48_encrypt_succeeds", "C48_unresolved", "C51_encrypt_then_decrypt", "C56_encrypt_ends", "C57_encrypt_size", "C58_file_randomness", "C59_encrypt_against_stream", "C63_output_genuine", "C64_encrypt_succeeds", "C64_encrypt_to_stdout", "C64_pipeline", "C65_generate_encrypt_decrypt", "C70_one_file_per_encryptor", "C72_unverified_refuted", "C73_encrypt_words", "C74_failure_changes_nothing_partial", "C76_origin_partial", "C76_stream_origin_partial", "C81_content_hidden", "C83_anonymous", "C83_sender_hidden", "C84_many_files_any_reader_partial", "C84_many_files_partial", "C84_next_file_untouched_partial", "C84_refuted", "C84_stream_next_file_untouched_partial", "C84_stream_refuted", "C88_any_form", "C91_objects_independent", "C93_both_ends", "C93_discloses", "C93_encryptor_messages", "C94_caches", "C94_goroutines_partial"], "secs": 325, "m": {"id": "t043", "edits": [["Encrypt.v", "enc_loop C (S (rd_size r)) e r w 0 g", "enc_loop C (S (rd_size r)) e r w (if e_started e then 0 else 1) g"]], "definition": "encrypt", "desc": "Encrypt after a failed Encrypt starts at block 1", "breaks": ["C62"]}}
{"mid": "t045", "lemmas": ["Thm_Crash.C56_generate_ends", "Thm_Files.C43_generate", "Thm_EndToEnd.gen_code", "Thm_Exit.C43_generate_exit_status", "Thm_Parallel.C78_refuted_race"], "hard": [], "failed": ["C43_generate", "C43_generate_exit_status", "C50_new_pair_partial", "C56_generate_ends", "C65_generate_encrypt_decrypt", "C66_generate_sign_verify", "C73_encrypt_words", "C73_sign_words", "C78_refuted_race"], "secs": 119, "m": {"id": "t045", "edits": [["Cli.v", "done (code_of r) (ops1 ++ ops2)", "done 1 (ops1 ++ ops2)"]], "definition": "cli_generate", "desc": "generate always exits with 1", "breaks": ["C43", "C64"]}}
{"mid": "t044", "lemmas": ["EncryptProofs.wrap_key_spec", "Thm_Cli.C45_close_refuted", "Thm_Commands.C46_refuted", "Thm_History.C60_refuted", "Thm_Secret.C82_recipients_hidden"], "hard": [], "failed": ["C01_encrypt_decrypt_round_trip", "C01_encrypt_succeeds", "C02_stream_round_trip", "C02_stream_writes_succeed", "C03_encrypted_file_streams", "C03_stream_file_decrypts", "C04_fragmentation_independent", "C04_stream_agrees_with_encrypt", "C04_stream_write_sizes_irrelevant", "C05_file_format", "C05_stream_format", "C06_chunks", "C06_stream_chunks", "C07_nonces_distinct_partial", "C07_refuted_counter_wraps", "C07_refuted_second_encrypt", "C07_stream_nonces_distinct_partial", "C08_tampered_header", "C08_tampered_stream_header", "C09_truncated_file", "C09_truncated_stream", "C10_complete_partial", "C10_refuted_truncation", "C10_stream_complete_partial", "C11_released_data_genuine", "C13_refuted_recipient_forges", "C14_refuted", "C16_own_entry_opens", "C16_recipients_agree", "C20_refuted", "C21_encrypt_errors_partial", "C23_chunk_size_partial", "C23_refuted", "C24_recipients_partial", "C24_refuted", "C27_writes", "C29_refuted", "C45_close_refuted", "C46_refuted", "C48_encrypt_succeeds", "C51_encrypt_then_decrypt", "C56_encrypt_ends", "C57_encrypt_size", "C57_stream_size", "C58_file_randomness", "C58_stream_randomness", "C59_encrypt_against_stream", "C60_refuted", "C61_rejected_exactly", "C63_output_genuine", "C64_encrypt_succeeds", "C64_pipeline", "C65_generate_encrypt_decrypt", "C72_unverified_refuted", "C73_encrypt_words", "C76_origin_partial", "C76_stream_origin_partial", "C81_content_hidden", "C81_stream_content_hidden", "C82_recipients_hidden", "C83_anonymous", "C83_sender_hidden", "C83_stream_anonymous", "C83_stream_sender_hidden", "C84_many_files_any_reader_partial", "C84_many_files_partial", "C84_next_file_untouched_partial", "C84_refuted", "C84_stream_next_file_untouched_partial", "C84_stream_refuted", "C85_encryptor_never_panics", "C87_follow_along", "C88_any_form", "C93_both_ends", "C93_discloses"], "secs": 301, "m": {"id": "t044", "edits": [["Encrypt.v", "          let kek := take aes_key_size buf in\n          let nonce := drop aes_key_size buf in\n          (ae <-", "          let kek := take aes_key_size buf in\n          let nonce := take rx_nonce_size buf in\n          (ae <-"]], "definition": "wrap_key", "desc": "wrap nonce taken from the key expansion start", "breaks": ["C02"]}}
{"mid": "t046", "lemmas": ["Thm_Crash.enc_body_ends"], "hard": [], "failed": ["C56_encrypt_ends"], "secs": 111, "m": {"id": "t046", "edits": [["Cli.v", "| (_, _, w, _, r) => (code_of r, w)", "| (_, _, w, _, r) => (2, w)"]], "definition": "enc_body", "desc": "encrypt exits with 2 on failure", "breaks": ["C43"]}}
{"mid": "t047", "lemmas": ["CliProofs.enc_body_spec", "Thm_Pipe.enc_body_any"], "hard": [], "failed": ["C44_old_or_new_partial", "C48_encrypt_exact", "C48_unresolved", "C51_encrypt_then_decrypt", "C64_encrypt_to_stdout", "C64_pipeline", "C65_generate_encrypt_decrypt", "C73_encrypt_words", "C74_failure_changes_nothing_partial"], "secs": 117, "m": {"id": "t047", "edits": [["Cli.v", "| (_, _, w, _, Ok _) => (0, snd (w_close w))\n               | (_, _, w, _, r)", "| (_, _, w, _, Ok _) => (0, w)\n               | (_, _, w, _, r)"]], "definition": "enc_body", "desc": "encrypt's output is not closed (stdout left open)", "breaks": ["C64"]}}
{"mid": "t048", "lemmas": ["Thm_Crash.C56_sign_ends"], "hard": [], "failed": ["C56_sign_ends"], "secs": 122, "m": {"id": "t048", "edits": [["Cli.v", "  | _ => mkOut 1 [] (wo_stdout W)\n  end.\n\n(** ** verify", "  | _ => mkOut 0 [] (wo_stdout W)\n  end.\n\n(** ** verify"]], "definition": "cli_sign", "desc": "sign with a missing file argument exits 0", "breaks": ["C92"]}}
