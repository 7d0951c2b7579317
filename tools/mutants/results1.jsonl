{"mid": "p003", "lemmas": ["SshProofs.unmarshal_inv"], "hard": [], "failed": ["C33_openssh_line", "C35_private_partial", "C35_public_partial", "C36_private_partial", "C37_bad_blob_rejected", "C37_blob_exact", "C37_line_exact", "C37_line_partial", "C38_sound", "C39_container_exact", "C43_pair_usable_partial", "C47_verify_exact", "C52_sign_then_verify", "C53_crash_exactly_partial", "C54_round_trip_partial", "C54_string_exact"], "secs": 202, "m": {"id": "p003", "edits": [["Ssh.v", "| Some (vs, []) => Some vs\n       | _ => None", "| Some (vs, _) => Some vs\n       | _ => None"]], "definition": "ssh_unmarshal", "desc": "trailing data accepted by Unmarshal", "breaks": ["C39"]}}
{"mid": "p002", "lemmas": ["SshProofs.parse_string_S4", "SshProofs.parse_string_inv", "Thm_Ssh.C38_options_refuted", "Thm_Cli.town_auth", "Thm_Chain.c51_code", "Thm_Chain.c51_ops"], "hard": [], "failed": ["C33_openssh_line", "C35_private_partial", "C35_public_partial", "C36_openssh_refuted", "C36_private_partial", "C36_public_panics_exactly", "C37_bad_blob_rejected", "C37_blob_exact", "C37_line_exact", "C37_line_partial", "C38_entries_partial", "C38_options_refuted", "C38_sound", "C39_container_exact", "C43_pair_usable_partial", "C47_verify_exact", "C52_sign_then_verify", "C53_crash_exactly_partial", "C54_refuted", "C54_round_trip_partial", "C54_string_exact"], "secs": 203, "m": {"id": "p002", "edits": [["Ssh.v", "Some (take length inp, drop length inp)", "Some (take length inp, drop (length + 1) inp)"]], "definition": "parse_string", "desc": "string parser drops a byte", "breaks": ["C37", "C39"]}}
{"mid": "p001", "lemmas": ["SshProofs.parse_string_S4", "SshProofs.parse_string_inv", "Thm_Ssh.C38_options_refuted", "Thm_Cli.town_auth", "Thm_Chain.c51_code", "Thm_Chain.c51_ops"], "hard": [], "failed": ["C33_openssh_line", "C35_private_partial", "C35_public_partial", "C36_openssh_refuted", "C36_private_partial", "C36_public_panics_exactly", "C37_bad_blob_rejected", "C37_blob_exact", "C37_line_exact", "C37_line_partial", "C38_entries_partial", "C38_options_refuted", "C38_sound", "C39_container_exact", "C43_pair_usable_partial", "C47_verify_exact", "C52_sign_then_verify", "C53_crash_exactly_partial", "C54_refuted", "C54_round_trip_partial", "C54_string_exact"], "secs": 216, "m": {"id": "p001", "edits": [["Ssh.v", "if u32 (len inp) <? length then None", "if u32 (len inp) <=? length then None"]], "definition": "parse_string", "desc": "a string filling the rest is rejected", "breaks": ["C37", "C39"]}}
{"mid": "p005", "lemmas": ["SshProofs.parse_enc_inv", "SshProofs.parse_enc_none", "SshProofs.parse_enc_no_panic"], "hard": [], "failed": ["C33_openssh_line", "C35_public_partial", "C36_public_panics_exactly", "C37_bad_blob_rejected", "C37_blob_exact", "C37_line_exact", "C37_line_partial", "C38_sound", "C38_total_and_linewise", "C43_pair_usable_partial", "C44_no_overwrite_partial", "C44_old_or_new_partial", "C47_verify_exact", "C48_encrypt_exact", "C48_unresolved", "C51_encrypt_then_decrypt", "C52_sign_then_verify", "C53_crash_exactly_partial", "C54_refuted", "C54_round_trip_partial", "C54_string_exact"], "secs": 203, "m": {"id": "p005", "edits": [["Ssh.v", "if 0 <? len rest then Fail ErrBadTrailers\n               else", ""]], "definition": "parse_enc_pubkey", "desc": "trailing junk accepted", "breaks": ["C37"]}}
{"mid": "p004", "lemmas": ["SshProofs.parse_enc_ok", "SshProofs.parse_enc_inv", "SshProofs.parse_enc_foreign", "SshProofs.parse_enc_no_panic", "Thm_Ssh.C38_options_refuted", "Thm_Chain.C53_refuted"], "hard": [], "failed": ["C33_openssh_line", "C35_public_partial", "C36_public_panics_exactly", "C37_bad_blob_rejected", "C37_blob_exact", "C37_line_exact", "C37_line_partial", "C38_entries_partial", "C38_options_refuted", "C38_sound", "C38_total_and_linewise", "C43_pair_usable_partial", "C44_no_overwrite_partial", "C44_old_or_new_partial", "C47_verify_exact", "C48_encrypt_exact", "C48_unresolved", "C51_encrypt_then_decrypt", "C52_sign_then_verify", "C53_crash_exactly_partial", "C53_refuted", "C54_refuted", "C54_round_trip_partial", "C54_string_exact"], "secs": 204, "m": {"id": "p004", "edits": [["Ssh.v", "if negb (beq algo algo_ed25519) then Ok None\n      else", ""]], "definition": "parse_enc_pubkey", "desc": "algorithm name not checked", "breaks": ["C37", "C38"]}}
{"mid": "p006", "lemmas": ["SshProofs.parse_enc_ok", "SshProofs.parse_enc_inv", "Thm_Cli.town_auth", "Thm_Chain.c51_code", "Thm_Chain.c51_ops"], "hard": [], "failed": ["C33_openssh_line", "C35_public_partial", "C37_bad_blob_rejected", "C37_blob_exact", "C37_line_exact", "C37_line_partial", "C38_entries_partial", "C38_sound", "C43_pair_usable_partial", "C47_verify_exact", "C52_sign_then_verify", "C53_crash_exactly_partial", "C54_round_trip_partial", "C54_string_exact"], "secs": 209, "m": {"id": "p006", "edits": [["Ssh.v", "(trim_space comm)", "comm"]], "definition": "parse_enc_pubkey", "desc": "comment not trimmed", "breaks": ["C37"]}}
{"mid": "p007", "lemmas": ["Thm_Ssh.C37_line_exact", "Thm_KeyFiles.C36_public_panics_exactly"], "hard": [], "failed": ["C33_openssh_line", "C35_public_partial", "C36_public_panics_exactly", "C37_bad_blob_rejected", "C37_line_exact", "C37_line_partial", "C43_pair_usable_partial", "C47_verify_exact", "C52_sign_then_verify", "C53_crash_exactly_partial", "C54_refuted", "C54_round_trip_partial", "C54_string_exact"], "secs": 186, "m": {"id": "p007", "edits": [["Ssh.v", "| [_; v1; v2] => parse_enc_pubkey C v1 v2", "| [v0; v1; v2] => parse_enc_pubkey C v1 v0"]], "definition": "parse_ssh_pubkey", "desc": "key type used as comment", "breaks": ["C37"]}}
{"mid": "p008", "lemmas": ["Thm_Ssh.C37_line_exact", "Thm_Ssh.C37_comment_refuted", "Thm_KeyFiles.yaml_not_ssh", "Thm_KeyFiles.C33_yaml_exact", "Thm_KeyFiles.C36_public_panics_exactly"], "hard": [], "failed": ["C33_openssh_line", "C33_public_round_trip", "C33_yaml_exact", "C35_public_partial", "C36_public_panics_exactly", "C37_bad_blob_rejected", "C37_comment_refuted", "C37_line_exact", "C37_line_partial", "C42_stored_objects", "C43_pair_usable_partial", "C47_verify_exact", "C52_sign_then_verify", "C53_crash_exactly_partial", "C54_refuted", "C54_round_trip_partial", "C54_string_exact"], "secs": 194, "m": {"id": "p008", "edits": [["Ssh.v", "| [_; v1; v2] => parse_enc_pubkey C v1 v2", "| _ :: v1 :: v2 :: _ => parse_enc_pubkey C v1 v2"]], "definition": "parse_ssh_pubkey", "desc": "lines with more than three words accepted", "breaks": ["C37"]}}
{"mid": "p009", "lemmas": ["SshProofs.parse_auth_key", "SshProofs.parse_second_word", "SshProofs.parse_auth_key_sound", "Thm_Cli.town_auth", "Thm_Chain.c51_code", "Thm_Chain.c51_ops"], "hard": [], "failed": ["C38_entries_partial", "C38_sound"], "secs": 237, "m": {"id": "p009", "edits": [["Ssh.v", "parse_enc_pubkey C (take i inp) (drop i inp)", "parse_enc_pubkey C (take i inp) []"]], "definition": "parse_authorized_key", "desc": "comment dropped", "breaks": ["C38"]}}
{"mid": "p011", "lemmas": ["SshProofs.opt_end_quoted", "SshProofs.opt_end_options"], "hard": [], "failed": ["C38_entries_partial"], "secs": 197, "m": {"id": "p011", "edits": [["Ssh.v", "(i =? 0) || negb (Byte.eqb prev x5c)", "true"]], "definition": "opt_end", "desc": "escaped quote ends the quoted string", "breaks": ["C38"]}}
{"mid": "p010", "lemmas": ["SshProofs.opt_end_quoted", "SshProofs.opt_end_options"], "hard": [], "failed": ["C38_entries_partial"], "secs": 207, "m": {"id": "p010", "edits": [["Ssh.v", "if negb inq && is_blank b then i", "if is_blank b then i"]], "definition": "opt_end", "desc": "quoted blanks end the options field", "breaks": ["C38"]}}
{"mid": "p012", "lemmas": ["SshProofs.auth_line_key", "SshProofs.auth_line_options", "SshProofs.auth_line_comment", "SshProofs.auth_line_total", "SshProofs.auth_line_sound"], "hard": [], "failed": ["C38_entries_partial", "C38_sound", "C38_total_and_linewise", "C44_no_overwrite_partial", "C44_old_or_new_partial", "C48_encrypt_exact", "C48_unresolved", "C51_encrypt_then_decrypt"], "secs": 175, "m": {"id": "p012", "edits": [["Ssh.v", "| x23 :: _ => Ok []\n", ""]], "definition": "auth_line", "desc": "comment lines not skipped", "breaks": ["C38"]}}
{"mid": "p014", "lemmas": ["SshProofs.auth_line_key", "SshProofs.auth_line_options", "SshProofs.auth_line_blank", "SshProofs.auth_line_comment", "SshProofs.auth_line_sound"], "hard": [], "failed": ["C38_entries_partial", "C38_sound"], "secs": 209, "m": {"id": "p014", "edits": [["Ssh.v", "let inp := match find_byte (Byte.eqb x0d) inp with Some e => take e inp | None => inp end in", ""]], "definition": "auth_line", "desc": "CR not cut off", "breaks": ["C38"]}}
{"mid": "p016", "lemmas": ["SshProofs.auth_loop_fuel", "SshProofs.parse_auth_cons"], "hard": [], "failed": ["C38_entries_partial", "C38_sound", "C38_total_and_linewise", "C44_no_overwrite_partial", "C44_old_or_new_partial", "C48_encrypt_exact", "C48_unresolved", "C51_encrypt_then_decrypt", "C56_encrypt_ends"], "secs": 262, "m": {"id": "p016", "edits": [["Ssh.v", "(take e inp, drop (e + 1) inp)", "(take e inp, drop (e + 2) inp)"]], "definition": "auth_loop", "desc": "first byte of each following line lost", "breaks": ["C38"]}}
{"mid": "p015", "lemmas": ["SshProofs.auth_loop_acc", "SshProofs.parse_auth_last", "SshProofs.parse_auth_cons"], "hard": [], "failed": ["C38_entries_partial", "C38_sound", "C38_total_and_linewise", "C44_no_overwrite_partial", "C44_old_or_new_partial", "C48_encrypt_exact", "C48_unresolved", "C51_encrypt_then_decrypt", "C56_encrypt_ends"], "secs": 274, "m": {"id": "p015", "edits": [["Ssh.v", "auth_loop C f rest (pka ++ ks)", "auth_loop C f rest (ks ++ pka)"]], "definition": "auth_loop", "desc": "keys returned in reverse order", "breaks": ["C38"]}}
{"mid": "p013", "lemmas": ["SshProofs.auth_line_key", "SshProofs.auth_line_total", "SshProofs.auth_line_sound", "Thm_Ssh.C38_options_refuted"], "hard": [], "failed": ["C38_entries_partial", "C38_options_refuted", "C38_sound", "C38_total_and_linewise", "C44_no_overwrite_partial", "C44_old_or_new_partial", "C48_encrypt_exact", "C48_unresolved", "C51_encrypt_then_decrypt", "C56_encrypt_ends"], "secs": 291, "m": {"id": "p013", "edits": [["Ssh.v", "| Ok None => Ok []\n          | Panic w => Panic w\n          | Fail _ =>", "| Panic w => Panic w\n          | _ =>"]], "definition": "auth_line", "desc": "other key types fall through to the options parser", "breaks": ["C38"]}}
{"mid": "p018", "lemmas": ["SshKeyProofs.extract_ok", "SshKeyProofs.extract_inv", "Thm_KeyFiles.extract_no_panic", "Thm_KeyCrash.extract_inv"], "hard": [], "failed": ["C35_private_partial", "C36_openssh_refuted", "C36_private_panics_exactly", "C36_private_partial", "C39_container_exact", "C43_pair_usable_partial", "C52_sign_then_verify", "C56_decrypt_ends", "C56_encrypt_ends", "C56_sign_ends"], "secs": 253, "m": {"id": "p018", "edits": [["Ssh.v", "if rounds <? 1 then", "if rounds <? 0 then"]], "definition": "bcrypt_key", "desc": "KDF contract (external)", "breaks": []}}
{"mid": "p019", "lemmas": ["SshKeyProofs.extract_ok", "SshKeyProofs.extract_inv"], "hard": [], "failed": ["C35_private_partial", "C36_openssh_refuted", "C36_private_panics_exactly", "C39_container_exact", "C43_pair_usable_partial", "C52_sign_then_verify", "C56_decrypt_ends", "C56_encrypt_ends", "C56_sign_ends"], "secs": 254, "m": {"id": "p019", "edits": [["Ssh.v", "Ok (take 16 (drop 32 k), take 32 k)", "Ok (take 16 k, take 32 (drop 16 k))"]], "definition": "extract_bcrypt", "desc": "iv and key cut in the wrong order", "breaks": ["C39"]}}
{"mid": "p017", "lemmas": ["SshProofs.auth_loop_acc", "SshProofs.auth_loop_fuel", "SshProofs.parse_auth_cons", "Thm_Cli.town_auth", "Thm_Chain.c51_code", "Thm_Chain.c51_ops"], "hard": [], "failed": ["C38_entries_partial", "C38_sound", "C38_total_and_linewise", "C44_no_overwrite_partial", "C44_old_or_new_partial", "C48_encrypt_exact", "C48_unresolved", "C51_encrypt_then_decrypt", "C56_encrypt_ends"], "secs": 354, "m": {"id": "p017", "edits": [["Ssh.v", "auth_loop C f rest (pka ++ ks)", "Ok (pka ++ ks)"]], "definition": "auth_loop", "desc": "only the first line read", "breaks": ["C38"]}}
{"mid": "p020", "lemmas": ["SshKeyProofs.good_pad_inv", "SshKeyProofs.good_pad_ok"], "hard": [], "failed": ["C35_private_partial", "C39_container_exact", "C43_pair_usable_partial", "C52_sign_then_verify", "C56_encrypt_ends", "C56_sign_ends"], "secs": 267, "m": {"id": "p020", "edits": [["Ssh.v", "(b2z b =? i + 1)", "(b2z b =? i)"]], "definition": "good_pad", "desc": "padding 0,1,2,...", "breaks": ["C39"]}}
{"mid": "p021", "lemmas": ["SshKeyProofs.good_pad_inv", "SshKeyProofs.good_pad_ok"], "hard": [], "failed": ["C35_private_partial", "C39_container_exact", "C43_pair_usable_partial", "C52_sign_then_verify", "C56_encrypt_ends", "C56_sign_ends"], "secs": 271, "m": {"id": "p021", "edits": [["Ssh.v", "&& good_pad pad' (i + 1)", ""]], "definition": "good_pad", "desc": "only the first padding byte checked", "breaks": ["C39"]}}
{"mid": "p023", "lemmas": ["SshKeyProofs.section_ok", "SshKeyProofs.section_inv", "Thm_KeyFiles.open_section_no_panic"], "hard": [], "failed": ["C35_private_partial", "C36_private_panics_exactly", "C36_private_partial", "C39_container_exact", "C43_pair_usable_partial", "C52_sign_then_verify", "C56_decrypt_ends", "C56_encrypt_ends", "C56_sign_ends"], "secs": 221, "m": {"id": "p023", "edits": [["Ssh.v", "if negb (len priv =? 64) then Fail ErrBadLength\n               else", ""]], "definition": "open_section", "desc": "length check left to the key constructor (error changes only)", "breaks": []}}
{"mid": "p024", "lemmas": ["SshKeyProofs.section_ok", "SshKeyProofs.section_inv", "Thm_KeyFiles.open_section_no_panic"], "hard": [], "failed": ["C35_private_partial", "C36_private_panics_exactly", "C36_private_partial", "C39_container_exact", "C43_pair_usable_partial", "C52_sign_then_verify", "C56_decrypt_ends", "C56_encrypt_ends", "C56_sign_ends"], "secs": 223, "m": {"id": "p024", "edits": [["Ssh.v", "if negb (beq kt algo_ed25519) then Fail (EMsg \"ssh: unhandled key type: %v\")\n      else", ""]], "definition": "open_section", "desc": "key type of the private section not checked", "breaks": ["C39"]}}
{"mid": "p022", "lemmas": ["SshKeyProofs.section_ok", "SshKeyProofs.section_inv", "Thm_KeyFiles.open_section_no_panic"], "hard": [], "failed": ["C35_private_partial", "C36_private_panics_exactly", "C36_private_partial", "C39_container_exact", "C43_pair_usable_partial", "C52_sign_then_verify", "C56_decrypt_ends", "C56_encrypt_ends", "C56_sign_ends"], "secs": 226, "m": {"id": "p022", "edits": [["Ssh.v", "if negb (c1 =? c2) then Fail ErrIncorrectPassword\n      else", ""]], "definition": "open_section", "desc": "check words not compared", "breaks": ["C39"]}}
{"mid": "p025", "lemmas": ["SshKeyProofs.section_ok", "SshKeyProofs.section_inv"], "hard": [], "failed": ["C35_private_partial", "C39_container_exact", "C43_pair_usable_partial", "C52_sign_then_verify", "C56_encrypt_ends", "C56_sign_ends"], "secs": 153, "m": {"id": "p025", "edits": [["Ssh.v", "make_private_from_bytes C zero_priv priv", "make_private_from_bytes C zero_priv (pub ++ drop 32 priv)"]], "definition": "open_section", "desc": "key bytes taken from the public part", "breaks": ["C39"]}}
{"mid": "p026", "lemmas": ["SshKeyProofs.container_inv", "Thm_KeyFiles.C36_private_partial", "CliProofs.unasked", "Thm_KeyCrash.openssh_panic"], "hard": [], "failed": ["C35_private_partial", "C36_private_panics_exactly", "C36_private_partial", "C39_container_exact", "C43_pair_usable_partial", "C44_no_overwrite_partial", "C44_old_or_new_partial", "C45_decrypt_succeeds", "C45_decrypt_to_file_partial", "C45_test_mode", "C46_refuted", "C46_sender_partial", "C48_encrypt_exact", "C48_encrypt_succeeds", "C48_unresolved", "C49_sign_partial", "C51_encrypt_then_decrypt", "C52_sign_then_verify", "C56_decrypt_ends", "C56_encrypt_ends", "C56_sign_ends"], "secs": 153, "m": {"id": "p026", "edits": [["Ssh.v", "if negb (numkeys =? 1) then Fail (EMsg \"ssh: NumKeys must be 1: %d\")\n        else", ""]], "definition": "parse_openssh_private", "desc": "any number of keys accepted", "breaks": ["C39"]}}
{"mid": "p027", "lemmas": ["SshKeyProofs.container_inv", "Thm_KeyFiles.C36_private_partial", "Thm_KeyFiles.C36_openssh_refuted", "Thm_KeyCrash.container_parse", "Thm_KeyCrash.openssh_panic"], "hard": [], "failed": ["C35_private_partial", "C36_openssh_refuted", "C36_private_panics_exactly", "C36_private_partial", "C39_container_exact", "C43_pair_usable_partial", "C52_sign_then_verify", "C56_decrypt_ends", "C56_encrypt_ends", "C56_sign_ends"], "secs": 171, "m": {"id": "p027", "edits": [["Ssh.v", "else if beq kdf (str \"none\") && beq cipher (str \"none\") then", "else if beq cipher (str \"none\") then"]], "definition": "parse_openssh_private", "desc": "kdf not checked for unencrypted containers", "breaks": ["C39"]}}
{"mid": "p029", "lemmas": ["Thm_KeyFiles.C35_private_partial", "Thm_KeyFiles.C36_private_partial", "Thm_KeyFiles.C36_openssh_refuted", "CliProofs.read_private_loaded", "CliProofs.unasked", "Thm_KeyCrash.C36_private_panics_exactly"], "hard": [], "failed": ["C35_private_partial", "C36_openssh_refuted", "C36_private_panics_exactly", "C36_private_partial", "C43_pair_usable_partial", "C44_no_overwrite_partial", "C44_old_or_new_partial", "C45_decrypt_succeeds", "C45_decrypt_to_file_partial", "C45_test_mode", "C46_refuted", "C46_sender_partial", "C48_encrypt_exact", "C48_encrypt_succeeds", "C48_unresolved", "C49_sign_partial", "C51_encrypt_then_decrypt", "C52_sign_then_verify", "C56_decrypt_ends", "C56_encrypt_ends", "C56_sign_ends"], "secs": 180, "m": {"id": "p029", "edits": [["Ssh.v", "if pem_encrypted b then Fail (EMsg \"ssh: no support for legacy PEM encrypted keys\")\n      else", ""]], "definition": "parse_ssh_private", "desc": "legacy encrypted PEM accepted", "breaks": ["C39"]}}
{"mid": "p028", "lemmas": ["SshKeyProofs.container_ok", "SshKeyProofs.container_inv", "Thm_KeyFiles.C36_private_partial", "Thm_KeyFiles.C36_openssh_refuted", "Thm_KeyCrash.container_parse"], "hard": [], "failed": ["C35_private_partial", "C36_openssh_refuted", "C36_private_panics_exactly", "C36_private_partial", "C39_container_exact", "C43_pair_usable_partial", "C52_sign_then_verify", "C56_decrypt_ends", "C56_encrypt_ends", "C56_sign_ends"], "secs": 185, "m": {"id": "p028", "edits": [["Ssh.v", "if negb (len block mod 16 =? 0) then Panic \"crypto/cipher: input not full blocks\"\n          else", ""]], "definition": "parse_openssh_private", "desc": "(a fix) no panic on a partial CBC block", "breaks": ["C36", "C39"]}}
{"mid": "p030", "lemmas": ["Thm_KeyFiles.C35_private_partial", "Thm_KeyFiles.C36_private_partial", "Thm_KeyFiles.C36_openssh_refuted", "CliProofs.read_private_loaded", "CliProofs.unasked", "Thm_KeyCrash.C36_private_panics_exactly"], "hard": [], "failed": ["C35_private_partial", "C36_openssh_refuted", "C36_private_panics_exactly", "C36_private_partial", "C43_pair_usable_partial", "C44_no_overwrite_partial", "C44_old_or_new_partial", "C45_decrypt_succeeds", "C45_decrypt_to_file_partial", "C45_test_mode", "C46_refuted", "C46_sender_partial", "C48_encrypt_exact", "C48_encrypt_succeeds", "C48_unresolved", "C49_sign_partial", "C51_encrypt_then_decrypt", "C52_sign_then_verify", "C56_decrypt_ends", "C56_encrypt_ends", "C56_sign_ends"], "secs": 169, "m": {"id": "p030", "edits": [["Ssh.v", "if beq (pem_type b) (str \"OPENSSH PRIVATE KEY\") then", "if true then"]], "definition": "parse_ssh_private", "desc": "PEM type not checked", "breaks": ["C39"]}}
{"mid": "p033", "lemmas": ["TextProofs.is_blank_spec"], "hard": [], "failed": ["C33_openssh_line", "C33_public_round_trip", "C33_yaml_exact", "C35_public_partial", "C36_public_panics_exactly", "C37_bad_blob_rejected", "C37_comment_refuted", "C37_line_exact", "C37_line_partial", "C38_entries_partial", "C42_stored_objects", "C43_pair_usable_partial", "C47_verify_exact", "C52_sign_then_verify", "C53_crash_exactly_partial", "C54_refuted", "C54_round_trip_partial", "C54_string_exact", "C56_decrypt_ends", "C56_encrypt_ends"], "secs": 114, "m": {"id": "p033", "edits": [["GoText.v", "Byte.eqb c x20 || Byte.eqb c x09", "Byte.eqb c x20"]], "definition": "is_blank", "desc": "tabs are not blanks", "breaks": ["C37", "C38"]}}
{"mid": "p031", "lemmas": ["TextProofs.split_run", "TextProofs.split_len_app", "TextProofs.split_inv", "SshKeyProofs.split_true_inv"], "hard": [], "failed": ["C33_openssh_line", "C33_public_round_trip", "C33_yaml_exact", "C35_public_partial", "C36_public_panics_exactly", "C37_bad_blob_rejected", "C37_comment_refuted", "C37_line_exact", "C37_line_partial", "C42_stored_objects", "C43_pair_usable_partial", "C47_verify_exact", "C52_sign_then_verify", "C53_crash_exactly_partial", "C54_refuted", "C54_round_trip_partial", "C54_string_exact", "C56_decrypt_ends", "C56_encrypt_ends"], "secs": 135, "m": {"id": "p031", "edits": [["GoText.v", "if inrun then split_blanks s' [] true else", "if false then split_blanks s' [] true else"]], "definition": "split_blanks", "desc": "runs of blanks give empty words", "breaks": ["C37"]}}
{"mid": "p032", "lemmas": ["TextProofs.trim_core", "TextProofs.trim_part", "SshProofs.trim_head"], "hard": [], "failed": ["C37_line_partial", "C38_entries_partial", "C38_sound", "C56_encrypt_ends"], "secs": 135, "m": {"id": "p032", "edits": [["GoText.v", "rev (strip (map (@rev byte) space_forms) (List.length s) (rev s))", "s"]], "definition": "trim_space", "desc": "trailing space not trimmed", "breaks": ["C37", "C38"]}}
{"mid": "p034", "lemmas": ["PbProofs.size_varint_small", "PbProofs.size_varint_pos"], "hard": [], "failed": ["C01_encrypt_decrypt_round_trip", "C01_encrypt_succeeds", "C02_stream_round_trip", "C02_stream_writes_succeed", "C03_encrypted_file_streams", "C03_stream_file_decrypts", "C04_fragmentation_independent", "C05_file_format", "C06_chunks", "C07_nonces_distinct_partial", "C07_refuted_counter_wraps", "C07_refuted_second_encrypt", "C08_tampered_header", "C09_truncated_file", "C10_complete_partial", "C10_refuted_truncation", "C11_released_data_genuine", "C13_refuted_recipient_forges", "C14_refuted", "C16_recipients_agree", "C20_refuted", "C21_encrypt_errors_partial", "C23_refuted", "C24_recipients_partial", "C24_refuted", "C25_header_codec_round_trip", "C26_reencode", "C27_writes", "C29_refuted", "C48_encrypt_succeeds", "C51_encrypt_then_decrypt", "C56_encrypt_ends", "C57_encrypt_size", "C57_stream_size", "C58_file_randomness", "C59_encrypt_against_stream"], "secs": 222, "m": {"id": "p034", "edits": [["Pb.v", "(Z.log2 (Z.lor x 1) + 1 + 6) / 7", "(Z.log2 (Z.lor x 1) + 6) / 7"]], "definition": "size_varint", "desc": "varint size one short at powers", "breaks": ["C25"]}}
{"mid": "p036", "lemmas": ["PbProofs.put_varint_leb"], "hard": [], "failed": ["C01_encrypt_decrypt_round_trip", "C01_encrypt_succeeds", "C02_stream_round_trip", "C02_stream_writes_succeed", "C03_encrypted_file_streams", "C03_stream_file_decrypts", "C04_fragmentation_independent", "C05_file_format", "C06_chunks", "C07_nonces_distinct_partial", "C07_refuted_counter_wraps", "C07_refuted_second_encrypt", "C08_tampered_header", "C09_truncated_file", "C10_complete_partial", "C10_refuted_truncation", "C11_released_data_genuine", "C13_refuted_recipient_forges", "C14_refuted", "C16_recipients_agree", "C20_refuted", "C21_encrypt_errors_partial", "C23_refuted", "C24_recipients_partial", "C24_refuted", "C25_header_codec_round_trip", "C26_reencode", "C27_writes", "C29_refuted", "C48_encrypt_succeeds", "C51_encrypt_then_decrypt", "C56_encrypt_ends", "C57_encrypt_size", "C57_stream_size", "C58_file_randomness", "C59_encrypt_against_stream"], "secs": 220, "m": {"id": "p036", "edits": [["Pb.v", "Z.shiftr v 7", "Z.shiftr v 8"]], "definition": "put_varint", "desc": "varint shift by 8", "breaks": ["C25"]}}
{"mid": "p035", "lemmas": ["PbProofs.size_header_spec", "Thm_Cli.C45_close_refuted", "Thm_Commands.C46_refuted"], "hard": [], "failed": ["C01_encrypt_decrypt_round_trip", "C01_encrypt_succeeds", "C02_stream_round_trip", "C02_stream_writes_succeed", "C03_encrypted_file_streams", "C03_stream_file_decrypts", "C04_fragmentation_independent", "C05_file_format", "C06_chunks", "C07_nonces_distinct_partial", "C07_refuted_counter_wraps", "C07_refuted_second_encrypt", "C08_tampered_header", "C09_truncated_file", "C10_complete_partial", "C10_refuted_truncation", "C11_released_data_genuine", "C13_refuted_recipient_forges", "C14_refuted", "C16_recipients_agree", "C20_refuted", "C21_encrypt_errors_partial", "C23_refuted", "C24_recipients_partial", "C24_refuted", "C25_header_codec_round_trip", "C26_reencode", "C27_writes", "C29_refuted", "C45_close_refuted", "C46_refuted", "C48_encrypt_succeeds", "C51_encrypt_then_decrypt", "C56_encrypt_ends", "C57_encrypt_size", "C57_stream_size", "C58_file_randomness", "C59_encrypt_against_stream"], "secs": 223, "m": {"id": "p035", "edits": [["Pb.v", "if h_chunk m =? 0 then 0 else 1 + size_varint (h_chunk m)", "if h_chunk m =? 0 then 0 else 1 + 4"]], "definition": "size_header", "desc": "fixed size for the chunk size field", "breaks": ["C25"]}}
{"mid": "p037", "lemmas": ["PbProofs.push_keys_spec", "Thm_Cli.C45_close_refuted", "Thm_Commands.C46_refuted"], "hard": [], "failed": ["C01_encrypt_decrypt_round_trip", "C01_encrypt_succeeds", "C02_stream_round_trip", "C02_stream_writes_succeed", "C03_encrypted_file_streams", "C03_stream_file_decrypts", "C04_fragmentation_independent", "C05_file_format", "C06_chunks", "C07_nonces_distinct_partial", "C07_refuted_counter_wraps", "C07_refuted_second_encrypt", "C08_tampered_header", "C09_truncated_file", "C10_complete_partial", "C10_refuted_truncation", "C11_released_data_genuine", "C13_refuted_recipient_forges", "C14_refuted", "C16_recipients_agree", "C20_refuted", "C21_encrypt_errors_partial", "C23_refuted", "C24_recipients_partial", "C24_refuted", "C25_header_codec_round_trip", "C26_reencode", "C27_writes", "C29_refuted", "C45_close_refuted", "C46_refuted", "C48_encrypt_succeeds", "C51_encrypt_then_decrypt", "C56_encrypt_ends", "C57_encrypt_size", "C57_stream_size", "C58_file_randomness", "C59_encrypt_against_stream"], "secs": 256, "m": {"id": "p037", "edits": [["Pb.v", "push_keys ks (z2b 42 ::", "push_keys ks (z2b 34 ::"]], "definition": "push_keys", "desc": "wrapped keys written with the tag of Sender", "breaks": ["C25"]}}
{"mid": "p038", "lemmas": ["PbProofs.marshal_fields_spec"], "hard": [], "failed": ["C01_encrypt_decrypt_round_trip", "C01_encrypt_succeeds", "C02_stream_round_trip", "C02_stream_writes_succeed", "C03_encrypted_file_streams", "C03_stream_file_decrypts", "C04_fragmentation_independent", "C05_file_format", "C06_chunks", "C07_nonces_distinct_partial", "C07_refuted_counter_wraps", "C07_refuted_second_encrypt", "C08_tampered_header", "C09_truncated_file", "C10_complete_partial", "C10_refuted_truncation", "C11_released_data_genuine", "C13_refuted_recipient_forges", "C14_refuted", "C16_recipients_agree", "C20_refuted", "C21_encrypt_errors_partial", "C23_refuted", "C24_recipients_partial", "C24_refuted", "C25_header_codec_round_trip", "C26_reencode", "C27_writes", "C29_refuted", "C48_encrypt_succeeds", "C51_encrypt_then_decrypt", "C56_encrypt_ends", "C57_encrypt_size", "C57_stream_size", "C58_file_randomness", "C59_encrypt_against_stream"], "secs": 256, "m": {"id": "p038", "edits": [["Pb.v", "push_keys (rev (h_keys m)) a", "push_keys (h_keys m) a"]], "definition": "marshal_fields", "desc": "wrapped keys written in reverse order", "breaks": ["C25", "C48"]}}
{"mid": "p039", "lemmas": ["PbProofs.marshal_fields_spec", "Thm_Cli.C45_close_refuted", "Thm_Commands.C46_refuted"], "hard": [], "failed": ["C01_encrypt_decrypt_round_trip", "C01_encrypt_succeeds", "C02_stream_round_trip", "C02_stream_writes_succeed", "C03_encrypted_file_streams", "C03_stream_file_decrypts", "C04_fragmentation_independent", "C05_file_format", "C06_chunks", "C07_nonces_distinct_partial", "C07_refuted_counter_wraps", "C07_refuted_second_encrypt", "C08_tampered_header", "C09_truncated_file", "C10_complete_partial", "C10_refuted_truncation", "C11_released_data_genuine", "C13_refuted_recipient_forges", "C14_refuted", "C16_recipients_agree", "C20_refuted", "C21_encrypt_errors_partial", "C23_refuted", "C24_recipients_partial", "C24_refuted", "C25_header_codec_round_trip", "C26_reencode", "C27_writes", "C29_refuted", "C45_close_refuted", "C46_refuted", "C48_encrypt_succeeds", "C51_encrypt_then_decrypt", "C56_encrypt_ends", "C57_encrypt_size", "C57_stream_size", "C58_file_randomness", "C59_encrypt_against_stream"], "secs": 256, "m": {"id": "p039", "edits": [["Pb.v", "let a := push_field 34 (h_sender m) a in", ""]], "definition": "marshal_fields", "desc": "sender field not written", "breaks": ["C25"]}}
{"mid": "p040", "lemmas": ["PbProofs.marshal_fields_spec"], "hard": [], "failed": ["C01_encrypt_decrypt_round_trip", "C01_encrypt_succeeds", "C02_stream_round_trip", "C02_stream_writes_succeed", "C03_encrypted_file_streams", "C03_stream_file_decrypts", "C04_fragmentation_independent", "C05_file_format", "C06_chunks", "C07_nonces_distinct_partial", "C07_refuted_counter_wraps", "C07_refuted_second_encrypt", "C08_tampered_header", "C09_truncated_file", "C10_complete_partial", "C10_refuted_truncation", "C11_released_data_genuine", "C13_refuted_recipient_forges", "C14_refuted", "C16_recipients_agree", "C20_refuted", "C21_encrypt_errors_partial", "C23_refuted", "C24_recipients_partial", "C24_refuted", "C25_header_codec_round_trip", "C26_reencode", "C27_writes", "C29_refuted", "C48_encrypt_succeeds", "C51_encrypt_then_decrypt", "C56_encrypt_ends", "C57_encrypt_size", "C57_stream_size", "C58_file_randomness", "C59_encrypt_against_stream"], "secs": 210, "m": {"id": "p040", "edits": [["Pb.v", "let a := h_unk m in", "let a := [] in"]], "definition": "marshal_fields", "desc": "unknown fields dropped when writing", "breaks": ["C25"]}}
{"mid": "p042", "lemmas": ["PbProofs.get_varint_leb", "PbProofs.get_varint_safe", "PbGrammar.get_varint_sound"], "hard": [], "failed": ["C01_encrypt_decrypt_round_trip", "C02_stream_round_trip", "C03_encrypted_file_streams", "C03_stream_file_decrypts", "C05_file_format", "C08_accepted_header", "C08_tampered_header", "C09_truncated_file", "C10_complete_partial", "C10_refuted_truncation", "C11_released_data_genuine", "C12_authenticated_means_signed", "C13_content_signed_partial", "C13_refuted_recipient_forges", "C14_refuted", "C14_signed_file_partial", "C15_not_a_recipient", "C16_recipients_agree", "C19_new_decryptor_total", "C20_no_panic_partial", "C20_refuted", "C23_refuted", "C24_recipients_partial", "C24_refuted", "C25_header_codec_round_trip", "C26_decoder_total_and_exact", "C26_reencode", "C28_read_discipline", "C29_refuted", "C29_single_reader_partial", "C46_sender_partial", "C51_encrypt_then_decrypt", "C56_decrypt_ends"], "secs": 202, "m": {"id": "p042", "edits": [["Pb.v", "else if l <=? idx then Fail ErrUnexpectedEOF\n      else\n        b <- at_ d idx", "else\n        b <- at_ d idx"]], "definition": "get_varint", "desc": "no bounds check in the varint loop", "breaks": ["C26"]}}
{"mid": "p041", "lemmas": ["PbProofs.get_varint_leb", "PbProofs.get_varint_safe", "PbGrammar.get_varint_complete", "PbGrammar.get_varint_sound"], "hard": [], "failed": ["C01_encrypt_decrypt_round_trip", "C02_stream_round_trip", "C03_encrypted_file_streams", "C03_stream_file_decrypts", "C05_file_format", "C08_accepted_header", "C08_tampered_header", "C09_truncated_file", "C10_complete_partial", "C10_refuted_truncation", "C11_released_data_genuine", "C12_authenticated_means_signed", "C13_content_signed_partial", "C13_refuted_recipient_forges", "C14_refuted", "C14_signed_file_partial", "C15_not_a_recipient", "C16_recipients_agree", "C19_new_decryptor_total", "C20_no_panic_partial", "C20_refuted", "C23_refuted", "C24_recipients_partial", "C24_refuted", "C25_header_codec_round_trip", "C26_decoder_total_and_exact", "C26_reencode", "C28_read_discipline", "C29_refuted", "C29_single_reader_partial", "C46_sender_partial", "C51_encrypt_then_decrypt", "C56_decrypt_ends"], "secs": 219, "m": {"id": "p041", "edits": [["Pb.v", "if 64 <=? shift then Fail (EMsg \"proto: integer overflow\")\n      else if l <=? idx then Fail ErrUnexpectedEOF\n      else\n        b <- at_", "if 63 <=? shift then Fail (EMsg \"proto: integer overflow\")\n      else if l <=? idx then Fail ErrUnexpectedEOF\n      else\n        b <- at_"]], "definition": "get_varint", "desc": "varint overflow bound off by one round", "breaks": ["C25", "C26"]}}
{"mid": "p043", "lemmas": ["PbProofs.get_varint_leb", "PbProofs.get_varint_safe", "PbGrammar.get_varint_complete", "PbGrammar.get_varint_sound"], "hard": [], "failed": ["C01_encrypt_decrypt_round_trip", "C02_stream_round_trip", "C03_encrypted_file_streams", "C03_stream_file_decrypts", "C05_file_format", "C08_accepted_header", "C08_tampered_header", "C09_truncated_file", "C10_complete_partial", "C10_refuted_truncation", "C11_released_data_genuine", "C12_authenticated_means_signed", "C13_content_signed_partial", "C13_refuted_recipient_forges", "C14_refuted", "C14_signed_file_partial", "C15_not_a_recipient", "C16_recipients_agree", "C19_new_decryptor_total", "C20_no_panic_partial", "C20_refuted", "C23_refuted", "C24_recipients_partial", "C24_refuted", "C25_header_codec_round_trip", "C26_decoder_total_and_exact", "C26_reencode", "C28_read_discipline", "C29_refuted", "C29_single_reader_partial", "C46_sender_partial", "C51_encrypt_then_decrypt", "C56_decrypt_ends"], "secs": 191, "m": {"id": "p043", "edits": [["Pb.v", "mod 2 ^ bits", "mod 2 ^ 64"]], "definition": "get_varint", "desc": "chunk size not truncated to 32 bits", "breaks": ["C26"]}}
{"mid": "p044", "lemmas": ["PbProofs.get_bytes_spec", "PbProofs.get_bytes_safe", "PbGrammar.get_bytes_sound"], "hard": [], "failed": ["C01_encrypt_decrypt_round_trip", "C02_stream_round_trip", "C03_encrypted_file_streams", "C03_stream_file_decrypts", "C05_file_format", "C08_accepted_header", "C08_tampered_header", "C09_truncated_file", "C10_complete_partial", "C10_refuted_truncation", "C11_released_data_genuine", "C12_authenticated_means_signed", "C13_content_signed_partial", "C13_refuted_recipient_forges", "C14_refuted", "C14_signed_file_partial", "C15_not_a_recipient", "C16_recipients_agree", "C19_new_decryptor_total", "C20_no_panic_partial", "C20_refuted", "C23_refuted", "C24_recipients_partial", "C24_refuted", "C25_header_codec_round_trip", "C26_decoder_total_and_exact", "C26_reencode", "C28_read_discipline", "C29_refuted", "C29_single_reader_partial", "C46_sender_partial", "C51_encrypt_then_decrypt", "C56_decrypt_ends"], "secs": 214, "m": {"id": "p044", "edits": [["Pb.v", "if byteLen <? 0 then Fail (EMsg \"proto: negative length found during unmarshaling\")\n  else", ""]], "definition": "get_bytes", "desc": "negative length not rejected", "breaks": ["C26"]}}
{"mid": "p045", "lemmas": ["PbProofs.get_bytes_spec", "PbProofs.get_bytes_safe", "PbGrammar.get_bytes_sound"], "hard": [], "failed": ["C01_encrypt_decrypt_round_trip", "C02_stream_round_trip", "C03_encrypted_file_streams", "C03_stream_file_decrypts", "C05_file_format", "C08_accepted_header", "C08_tampered_header", "C09_truncated_file", "C10_complete_partial", "C10_refuted_truncation", "C11_released_data_genuine", "C12_authenticated_means_signed", "C13_content_signed_partial", "C13_refuted_recipient_forges", "C14_refuted", "C14_signed_file_partial", "C15_not_a_recipient", "C16_recipients_agree", "C19_new_decryptor_total", "C20_no_panic_partial", "C20_refuted", "C23_refuted", "C24_recipients_partial", "C24_refuted", "C25_header_codec_round_trip", "C26_decoder_total_and_exact", "C26_reencode", "C28_read_discipline", "C29_refuted", "C29_single_reader_partial", "C46_sender_partial", "C51_encrypt_then_decrypt", "C56_decrypt_ends"], "secs": 218, "m": {"id": "p045", "edits": [["Pb.v", "else if len d <? post then Fail ErrUnexpectedEOF\n", ""]], "definition": "get_bytes", "desc": "field running past the end not rejected", "breaks": ["C26"]}}
{"mid": "p046", "lemmas": ["PbProofs.skip_loop_safe", "PbGrammar.skip_loop_unfold"], "hard": [], "failed": ["C01_encrypt_decrypt_round_trip", "C02_stream_round_trip", "C03_encrypted_file_streams", "C03_stream_file_decrypts", "C05_file_format", "C08_accepted_header", "C08_tampered_header", "C09_truncated_file", "C10_complete_partial", "C10_refuted_truncation", "C11_released_data_genuine", "C12_authenticated_means_signed", "C13_content_signed_partial", "C13_refuted_recipient_forges", "C14_refuted", "C14_signed_file_partial", "C15_not_a_recipient", "C16_recipients_agree", "C19_new_decryptor_total", "C20_no_panic_partial", "C20_refuted", "C23_refuted", "C24_recipients_partial", "C24_refuted", "C25_header_codec_round_trip", "C26_decoder_total_and_exact", "C26_reencode", "C28_read_discipline", "C29_refuted", "C29_single_reader_partial", "C46_sender_partial", "C51_encrypt_then_decrypt", "C56_decrypt_ends"], "secs": 247, "m": {"id": "p046", "edits": [["Pb.v", "if depth =? 0 then Fail (EMsg \"proto: unexpected end of group\") else Ok (i1, depth - 1)", "Ok (i1, depth - 1)"]], "definition": "skip_loop", "desc": "unbalanced end of group", "breaks": ["C26"]}}
{"mid": "p047", "lemmas": ["PbGrammar.skip_loop_unfold"], "hard": [], "failed": ["C25_header_codec_round_trip", "C26_decoder_total_and_exact", "C26_reencode"], "secs": 236, "m": {"id": "p047", "edits": [["Pb.v", "else if wt =? 5 then Ok (i64 (i1 + 4), depth)", "else if wt =? 5 then Ok (i64 (i1 + 8), depth)"]], "definition": "skip_loop", "desc": "fixed32 skipped as 8 bytes", "breaks": ["C26"]}}
{"mid": "p048", "lemmas": ["PbGrammar.skip_loop_unfold"], "hard": [], "failed": ["C25_header_codec_round_trip", "C26_decoder_total_and_exact", "C26_reencode"], "secs": 230, "m": {"id": "p048", "edits": [["Pb.v", "else if wt =? 1 then Ok (i64 (i1 + 8), depth)", "else if wt =? 1 then Ok (i64 (i1 + 4), depth)"]], "definition": "skip_loop", "desc": "fixed64 skipped as 4 bytes", "breaks": ["C26"]}}
{"mid": "p049", "lemmas": ["PbProofs.get_unknown_safe", "PbGrammar.get_unknown_sound"], "hard": [], "failed": ["C01_encrypt_decrypt_round_trip", "C02_stream_round_trip", "C03_encrypted_file_streams", "C03_stream_file_decrypts", "C05_file_format", "C08_accepted_header", "C08_tampered_header", "C09_truncated_file", "C10_complete_partial", "C10_refuted_truncation", "C11_released_data_genuine", "C12_authenticated_means_signed", "C13_content_signed_partial", "C13_refuted_recipient_forges", "C14_refuted", "C14_signed_file_partial", "C15_not_a_recipient", "C16_recipients_agree", "C19_new_decryptor_total", "C20_no_panic_partial", "C20_refuted", "C23_refuted", "C24_recipients_partial", "C24_refuted", "C25_header_codec_round_trip", "C26_decoder_total_and_exact", "C26_reencode", "C28_read_discipline", "C29_refuted", "C29_single_reader_partial", "C46_sender_partial", "C51_encrypt_then_decrypt", "C56_decrypt_ends"], "secs": 232, "m": {"id": "p049", "edits": [["Pb.v", "else if len d <? pre + skippy then Fail ErrUnexpectedEOF\n  else", "else"]], "definition": "get_unknown", "desc": "unknown field past the end", "breaks": ["C26"]}}
{"mid": "p050", "lemmas": ["PbProofs.get_tag_safe", "PbGrammar.get_tag_sound"], "hard": [], "failed": ["C01_encrypt_decrypt_round_trip", "C02_stream_round_trip", "C03_encrypted_file_streams", "C03_stream_file_decrypts", "C05_file_format", "C08_accepted_header", "C08_tampered_header", "C09_truncated_file", "C10_complete_partial", "C10_refuted_truncation", "C11_released_data_genuine", "C12_authenticated_means_signed", "C13_content_signed_partial", "C13_refuted_recipient_forges", "C14_refuted", "C14_signed_file_partial", "C15_not_a_recipient", "C16_recipients_agree", "C19_new_decryptor_total", "C20_no_panic_partial", "C20_refuted", "C23_refuted", "C24_recipients_partial", "C24_refuted", "C25_header_codec_round_trip", "C26_decoder_total_and_exact", "C26_reencode", "C28_read_discipline", "C29_refuted", "C29_single_reader_partial", "C46_sender_partial", "C51_encrypt_then_decrypt", "C56_decrypt_ends"], "secs": 232, "m": {"id": "p050", "edits": [["Pb.v", "else if fieldNum <=? 0 then Fail (EMsg \"proto: illegal tag\")\n  else", "else"]], "definition": "get_tag", "desc": "field number 0 accepted", "breaks": ["C26"]}}
{"mid": "p051", "lemmas": ["PbGrammar.wkey_loop_sound", "PbGrammar.wkey_loop_complete"], "hard": [], "failed": ["C25_header_codec_round_trip", "C26_decoder_total_and_exact", "C26_reencode"], "secs": 240, "m": {"id": "p051", "edits": [["Pb.v", "(mkWkey (w_dkey m) (w_nonce m) (w_unk m ++ b))", "(mkWkey (w_dkey m) (w_nonce m) b)"]], "definition": "unmarshal_wkey_loop", "desc": "only the last unknown field of a wrapped key kept", "breaks": ["C26"]}}
{"mid": "p053", "lemmas": ["PbProofs.header_step_gen", "PbGrammar.header_loop_sound", "PbGrammar.header_loop_complete"], "hard": [], "failed": ["C01_encrypt_decrypt_round_trip", "C02_stream_round_trip", "C03_encrypted_file_streams", "C03_stream_file_decrypts", "C05_file_format", "C09_truncated_file", "C10_complete_partial", "C10_refuted_truncation", "C11_released_data_genuine", "C13_refuted_recipient_forges", "C14_refuted", "C16_recipients_agree", "C20_refuted", "C23_refuted", "C24_recipients_partial", "C24_refuted", "C25_header_codec_round_trip", "C26_decoder_total_and_exact", "C26_reencode", "C29_refuted", "C51_encrypt_then_decrypt"], "secs": 206, "m": {"id": "p053", "edits": [["Pb.v", "(h_keys m ++ [k]) (h_unk m)", "(k :: h_keys m) (h_unk m)"]], "definition": "unmarshal_header_loop", "desc": "wrapped keys read in reverse order", "breaks": ["C25"]}}
{"mid": "p052", "lemmas": ["PbProofs.wkey_step", "PbProofs.unmarshal_wkey_safe", "PbGrammar.wkey_loop_sound", "PbGrammar.wkey_loop_complete"], "hard": [], "failed": ["C01_encrypt_decrypt_round_trip", "C02_stream_round_trip", "C03_encrypted_file_streams", "C03_stream_file_decrypts", "C05_file_format", "C08_accepted_header", "C08_tampered_header", "C09_truncated_file", "C10_complete_partial", "C10_refuted_truncation", "C11_released_data_genuine", "C12_authenticated_means_signed", "C13_content_signed_partial", "C13_refuted_recipient_forges", "C14_refuted", "C14_signed_file_partial", "C15_not_a_recipient", "C16_recipients_agree", "C19_new_decryptor_total", "C20_no_panic_partial", "C20_refuted", "C23_refuted", "C24_recipients_partial", "C24_refuted", "C25_header_codec_round_trip", "C26_decoder_total_and_exact", "C26_reencode", "C28_read_discipline", "C29_refuted", "C29_single_reader_partial", "C46_sender_partial", "C51_encrypt_then_decrypt", "C56_decrypt_ends"], "secs": 223, "m": {"id": "p052", "edits": [["Pb.v", "unmarshal_wkey_loop f d i2 (mkWkey b (w_nonce m) (w_unk m))", "unmarshal_wkey_loop f d i2 (mkWkey (w_dkey m ++ b) (w_nonce m) (w_unk m))"]], "definition": "unmarshal_wkey_loop", "desc": "repeated DKey fields concatenated", "breaks": ["C26"]}}
{"mid": "p054", "lemmas": ["PbGrammar.header_loop_sound", "PbGrammar.header_loop_complete"], "hard": [], "failed": ["C25_header_codec_round_trip", "C26_decoder_total_and_exact", "C26_reencode"], "secs": 200, "m": {"id": "p054", "edits": [["Pb.v", "(h_keys m) (h_unk m ++ b))", "(h_keys m) (h_unk m))"]], "definition": "unmarshal_header_loop", "desc": "unknown header fields dropped", "breaks": ["C26"]}}
{"mid": "p056", "lemmas": ["FsProofs.write_file_spec", "CliProofs.with_output_file", "Thm_Files.C42_write_atomic"], "hard": [], "failed": ["C42_stored_objects", "C42_write_atomic", "C43_generate", "C44_no_overwrite_partial", "C44_old_or_new_partial", "C45_decrypt_succeeds", "C45_decrypt_to_file_partial", "C48_encrypt_exact", "C48_encrypt_succeeds", "C48_unresolved", "C49_sign_partial", "C50_new_pair_partial", "C51_encrypt_then_decrypt", "C52_sign_then_verify"], "secs": 44, "m": {"id": "p056", "edits": [["Fs.v", "else Fail (EMsg \"safefile: won't overwrite existing %s\")", "else Ok tt"]], "definition": "safe_open", "desc": "existing file overwritten without the flag", "breaks": ["C42", "C43"]}}
{"mid": "p057", "lemmas": ["CliProofs.with_output_file"], "hard": [], "failed": ["C44_no_overwrite_partial", "C44_old_or_new_partial", "C45_decrypt_succeeds", "C45_decrypt_to_file_partial", "C48_encrypt_exact", "C48_encrypt_succeeds", "C48_unresolved", "C49_sign_partial", "C51_encrypt_then_decrypt", "C52_sign_then_verify"], "secs": 41, "m": {"id": "p057", "edits": [["Fs.v", "| None => match se_open v with Some e => Fail e | None => Ok tt end", "| None => Ok tt"]], "definition": "safe_open", "desc": "open error ignored", "breaks": ["C42"]}}
{"mid": "p058", "lemmas": ["FsProofs.sf_ops_trace", "Thm_Chain.c51_ops"], "hard": [], "failed": ["C42_stored_objects", "C42_write_atomic", "C43_generate", "C44_old_or_new_partial", "C45_decrypt_to_file_partial", "C48_encrypt_exact", "C48_unresolved", "C49_sign_partial", "C50_new_pair_partial", "C51_encrypt_then_decrypt", "C52_sign_then_verify"], "secs": 48, "m": {"id": "p058", "edits": [["Fs.v", "| None => OSync (se_ino v) ::\n         match", "| None => \n         match"]], "definition": "sf_ops", "desc": "no fsync before the rename", "breaks": ["C42", "C45"]}}
{"mid": "p059", "lemmas": ["FsProofs.sf_ops_trace", "Thm_Commands.C49_refuted"], "hard": [], "failed": ["C42_stored_objects", "C42_write_atomic", "C43_generate", "C44_old_or_new_partial", "C45_decrypt_to_file_partial", "C48_encrypt_exact", "C48_unresolved", "C49_refuted", "C49_sign_partial", "C50_new_pair_partial", "C51_encrypt_then_decrypt", "C52_sign_then_verify"], "secs": 44, "m": {"id": "p059", "edits": [["Fs.v", "if (0 <? w_nclosed w) && negb (write_failed v w) then", "if (0 <? w_nclosed w) then"]], "definition": "sf_ops", "desc": "renamed in spite of a failed write", "breaks": ["C42"]}}
{"mid": "p060", "lemmas": ["FsProofs.sf_ops_trace"], "hard": [], "failed": ["C42_stored_objects", "C42_write_atomic", "C43_generate", "C44_old_or_new_partial", "C45_decrypt_to_file_partial", "C48_encrypt_exact", "C48_unresolved", "C49_sign_partial", "C50_new_pair_partial", "C51_encrypt_then_decrypt", "C52_sign_then_verify"], "secs": 38, "m": {"id": "p060", "edits": [["Fs.v", "if (0 <? w_nclosed w) && negb (write_failed v w) then", "if negb (write_failed v w) then"]], "definition": "sf_ops", "desc": "renamed without Close", "breaks": ["C42", "C45"]}}
{"mid": "p061", "lemmas": ["FsProofs.sf_ops_trace"], "hard": [], "failed": ["C42_stored_objects", "C42_write_atomic", "C43_generate", "C44_old_or_new_partial", "C45_decrypt_to_file_partial", "C48_encrypt_exact", "C48_unresolved", "C49_sign_partial", "C50_new_pair_partial", "C51_encrypt_then_decrypt", "C52_sign_then_verify"], "secs": 34, "m": {"id": "p061", "edits": [["Fs.v", "   else [ORemove (se_tmp v)]).", "   else [])."]], "definition": "sf_ops", "desc": "temporary file left behind", "breaks": ["C42"]}}
{"mid": "p063", "lemmas": ["FsProofs.sf_ops_trace"], "hard": [], "failed": ["C42_stored_objects", "C42_write_atomic", "C43_generate", "C44_old_or_new_partial", "C45_decrypt_to_file_partial", "C48_encrypt_exact", "C48_unresolved", "C49_sign_partial", "C50_new_pair_partial", "C51_encrypt_then_decrypt", "C52_sign_then_verify"], "secs": 34, "m": {"id": "p063", "edits": [["Fs.v", "match se_sync v with Some e => Some e | None => match se_close v with Some e => Some e | None => se_rename v end end", "match se_sync v with Some e => Some e | None => se_close v end"]], "definition": "close_err", "desc": "rename error not reported", "breaks": ["C42", "C45"]}}
{"mid": "p055", "lemmas": ["PbProofs.unmarshal_header_safe", "PbGrammar.header_loop_sound"], "hard": [], "failed": ["C01_encrypt_decrypt_round_trip", "C02_stream_round_trip", "C03_encrypted_file_streams", "C03_stream_file_decrypts", "C05_file_format", "C08_accepted_header", "C08_tampered_header", "C09_truncated_file", "C10_complete_partial", "C10_refuted_truncation", "C11_released_data_genuine", "C12_authenticated_means_signed", "C13_content_signed_partial", "C13_refuted_recipient_forges", "C14_refuted", "C14_signed_file_partial", "C15_not_a_recipient", "C16_recipients_agree", "C19_new_decryptor_total", "C20_no_panic_partial", "C20_refuted", "C23_refuted", "C24_recipients_partial", "C24_refuted", "C25_header_codec_round_trip", "C26_decoder_total_and_exact", "C26_reencode", "C28_read_discipline", "C29_refuted", "C29_single_reader_partial", "C46_sender_partial", "C51_encrypt_then_decrypt", "C56_decrypt_ends"], "secs": 184, "m": {"id": "p055", "edits": [["Pb.v", "if negb (wireType =? 0) then Fail (EMsg \"proto: wrong wireType for field ChunkSize\")\n          else", ""]], "definition": "unmarshal_header_loop", "desc": "wire type of ChunkSize not checked", "breaks": ["C26"]}}
{"mid": "p062", "lemmas": ["FsProofs.sf_ops_trace", "Thm_Cli.C45_close_refuted", "Thm_Commands.C49_refuted", "Thm_Chain.c51_ops", "Thm_Chain.C53_refuted"], "hard": [], "failed": ["C42_stored_objects", "C42_write_atomic", "C43_generate", "C44_old_or_new_partial", "C45_close_refuted", "C45_decrypt_to_file_partial", "C48_encrypt_exact", "C48_unresolved", "C49_refuted", "C49_sign_partial", "C50_new_pair_partial", "C51_encrypt_then_decrypt", "C52_sign_then_verify", "C53_refuted"], "secs": 56, "m": {"id": "p062", "edits": [["Fs.v", "OCreate (se_tmp v) (se_ino v) :: OAppend", "OCreate dst (se_ino v) :: OAppend"]], "definition": "sf_ops", "desc": "written in place", "breaks": ["C42"]}}
{"mid": "p064", "lemmas": ["FsProofs.write_file_spec"], "hard": [], "failed": ["C42_stored_objects", "C42_write_atomic", "C43_generate", "C50_new_pair_partial"], "secs": 50, "m": {"id": "p064", "edits": [["Fs.v", "| (Some e, w) => (sf_ops v dst w, Fail e)\n                     | (None, w) => (sf_ops v dst w, Ok tt)", "| (_, w) => (sf_ops v dst w, Ok tt)"]], "definition": "write_file", "desc": "Close error of writeFile ignored", "breaks": ["C42"]}}
{"mid": "p066", "lemmas": ["Thm_Files.C42_stored_objects", "Thm_Files.C43_generate"], "hard": [], "failed": ["C42_stored_objects", "C43_generate", "C50_new_pair_partial"], "secs": 43, "m": {"id": "p066", "edits": [["Store.v", "(write_file v f dst b overwrite, g)", "(write_file v f dst b true, g)"]], "definition": "serialize_private", "desc": "private key always overwritten", "breaks": ["C42", "C43"]}}
{"mid": "p065", "lemmas": ["FsProofs.write_file_spec", "Thm_Crash.write_file_ends"], "hard": [], "failed": ["C42_stored_objects", "C42_write_atomic", "C43_generate", "C50_new_pair_partial", "C56_generate_ends"], "secs": 51, "m": {"id": "p065", "edits": [["Fs.v", "| (Some e, w) => (sf_ops v dst w, Fail e)\n      | (None, w) => match w_close", "| (_, w) => match w_close"]], "definition": "write_file", "desc": "Write error of writeFile ignored", "breaks": ["C42"]}}
{"mid": "p067", "lemmas": ["Thm_Crash.C56_generate_ends", "Thm_Files.C43_generate"], "hard": [], "failed": ["C43_generate", "C50_new_pair_partial", "C56_generate_ends"], "secs": 46, "m": {"id": "p067", "edits": [["Store.v", "| (Fail e, g) => ([], Fail e, g)", "| (Fail e, g) => ([], Ok tt, g)"]], "definition": "serialize_private", "desc": "marshal error swallowed", "breaks": ["C42", "C43"]}}
{"mid": "p068", "lemmas": ["Thm_Files.C42_stored_objects", "Thm_Files.C43_generate"], "hard": [], "failed": ["C42_stored_objects", "C43_generate", "C50_new_pair_partial"], "secs": 41, "m": {"id": "p068", "edits": [["Store.v", "write_file v f dst (marshal_public E pk comment) overwrite", "write_file v f dst (marshal_public E pk []) overwrite"]], "definition": "serialize_public", "desc": "comment dropped", "breaks": ["C43"]}}
{"mid": "p069", "lemmas": ["CliProofs.get_pass_ok", "CliProofs.get_pass_is", "Thm_Cli.C45_close_refuted", "Thm_Commands.C46_refuted", "Thm_Commands.town_akey", "Thm_Chain.town1_akey", "Thm_Crash.pass_nopanic"], "hard": [], "failed": ["C43_generate", "C44_no_overwrite_partial", "C44_old_or_new_partial", "C45_close_refuted", "C45_decrypt_succeeds", "C45_decrypt_to_file_partial", "C45_test_mode", "C46_refuted", "C46_sender_partial", "C48_encrypt_exact", "C48_encrypt_succeeds", "C48_unresolved", "C49_sign_partial", "C50_new_pair_partial", "C51_encrypt_then_decrypt", "C52_sign_then_verify", "C56_decrypt_ends", "C56_encrypt_ends", "C56_generate_ends", "C56_sign_ends"], "secs": 50, "m": {"id": "p069", "edits": [["Cli.v", "if nopw then Ok []\n  else", ""]], "definition": "get_pass", "desc": "--no-password ignored", "breaks": ["C43", "C47"]}}
{"mid": "p070", "lemmas": ["Thm_Files.C43_generate"], "hard": [], "failed": ["C43_generate", "C50_new_pair_partial"], "secs": 37, "m": {"id": "p070", "edits": [["Cli.v", "(exists_ W pkn || exists_ W skn)", "(exists_ W pkn && exists_ W skn)"]], "definition": "cli_generate", "desc": "refused only if both files exist", "breaks": ["C43"]}}
{"mid": "p071", "lemmas": ["Thm_Files.C43_generate", "Thm_Files.C50_refuted"], "hard": [], "failed": ["C43_generate", "C50_new_pair_partial", "C50_refuted"], "secs": 39, "m": {"id": "p071", "edits": [["Cli.v", "let skn := wo_clean W bn ++ str \".key\" in", "let skn := wo_clean W bn ++ str \".pub\" in"]], "definition": "cli_generate", "desc": "both keys in one file", "breaks": ["C43"]}}
{"mid": "p072", "lemmas": ["Thm_Crash.C56_generate_ends", "Thm_Files.C43_generate"], "hard": [], "failed": ["C43_generate", "C50_new_pair_partial", "C56_generate_ends"], "secs": 45, "m": {"id": "p072", "edits": [["Cli.v", "if negb (ge_force o) && (exists_ W pkn || exists_ W skn) then done 1 []\n      else", ""]], "definition": "cli_generate", "desc": "no check of existing files", "breaks": ["C43"]}}
{"mid": "p073", "lemmas": ["Thm_Files.C43_generate"], "hard": [], "failed": ["C43_generate", "C50_new_pair_partial"], "secs": 41, "m": {"id": "p073", "edits": [["Cli.v", "serialize_public E v2 (run_ops (wo_fs W) ops1) (wo_place W pkn) (sk_pk sk) (ge_comment o) (ge_force o)", "serialize_public E v2 (run_ops (wo_fs W) ops1) (wo_place W pkn) (sk_pk (new_private_key C (zeros 32))) (ge_comment o) (ge_force o)"]], "definition": "cli_generate", "desc": "public key of another pair written", "breaks": ["C43", "C50"]}}
{"mid": "p074", "lemmas": ["Thm_Crash.C56_generate_ends", "Thm_Files.C43_generate"], "hard": [], "failed": ["C43_generate", "C50_new_pair_partial", "C56_generate_ends"], "secs": 45, "m": {"id": "p074", "edits": [["Cli.v", "done (code_of r) (ops1 ++ ops2)", "done 0 (ops1 ++ ops2)"]], "definition": "cli_generate", "desc": "failure to write the public key ignored", "breaks": ["C43"]}}
{"mid": "p075", "lemmas": ["CliProofs.keymap_spec", "Thm_Crash.keymap_in"], "hard": [], "failed": ["C44_old_or_new_partial", "C48_encrypt_exact", "C48_encrypt_succeeds", "C48_unresolved", "C51_encrypt_then_decrypt", "C56_encrypt_ends"], "secs": 42, "m": {"id": "p075", "edits": [["Cli.v", "(if beq (pk_comment pk) fn then Some pk else found)", "(if beq (pk_comment pk) fn then (match found with None => Some pk | x => x end) else found)"]], "definition": "keymap_get", "desc": "first matching entry wins instead of the last", "breaks": ["C48"]}}
{"mid": "p076", "lemmas": ["CliProofs.enc_recipients_spec"], "hard": [], "failed": ["C44_old_or_new_partial", "C48_encrypt_exact", "C48_unresolved", "C51_encrypt_then_decrypt", "C56_encrypt_ends"], "secs": 49, "m": {"id": "p076", "edits": [["Cli.v", "| Fail _ => enc_recipients C E W pka fns' e g (errs + 1)", "| Fail _ => enc_recipients C E W pka fns' e g errs"]], "definition": "enc_recipients", "desc": "unresolved recipients skipped", "breaks": ["C48"]}}
{"mid": "p078", "lemmas": ["CliProofs.enc_body_spec", "Thm_Crash.enc_body_ends"], "hard": [], "failed": ["C44_old_or_new_partial", "C48_encrypt_exact", "C48_unresolved", "C51_encrypt_then_decrypt", "C56_encrypt_ends"], "secs": 64, "m": {"id": "p078", "edits": [["Cli.v", "if 0 <? errs then (1, w)\n          else", ""]], "definition": "enc_body", "desc": "errors counted but ignored", "breaks": ["C48"]}}
{"mid": "p077", "lemmas": ["CliProofs.enc_recipients_spec", "CliProofs.enc_recipients_total", "Thm_Commands.C44_refuted", "Thm_Chain.c51_code", "Thm_Chain.c51_ops", "Thm_Crash.recipients_crash"], "hard": [], "failed": ["C44_old_or_new_partial", "C44_refuted", "C48_encrypt_exact", "C48_encrypt_succeeds", "C48_unresolved", "C51_encrypt_then_decrypt", "C56_encrypt_ends"], "secs": 79, "m": {"id": "p077", "edits": [["Cli.v", "if is_user fn then", "if true then"]], "definition": "enc_recipients", "desc": "recipient files not read", "breaks": ["C48"]}}
{"mid": "p079", "lemmas": ["CliProofs.enc_body_spec", "Thm_Crash.enc_body_ends"], "hard": [], "failed": ["C44_old_or_new_partial", "C48_encrypt_exact", "C48_unresolved", "C51_encrypt_then_decrypt", "C56_encrypt_ends"], "secs": 67, "m": {"id": "p079", "edits": [["Cli.v", "(0, snd (w_close w))\n               | (_, _, w, _, r) => (code_of r, w)", "(0, snd (w_close w))\n               | (_, _, w, _, r) => (0, snd (w_close w))"]], "definition": "enc_body", "desc": "failed encryption exits 0", "breaks": ["C48"]}}
{"mid": "p081", "lemmas": ["Thm_Cli.cli_encrypt_inv", "Thm_Cli.C48_encrypt_succeeds", "Thm_Crash.C56_encrypt_ends"], "hard": [], "failed": ["C44_no_overwrite_partial", "C44_old_or_new_partial", "C48_encrypt_exact", "C48_encrypt_succeeds", "C48_unresolved", "C51_encrypt_then_decrypt", "C56_encrypt_ends"], "secs": 69, "m": {"id": "p081", "edits": [["Cli.v", "let infile := last (eo_args o) [] in", "let infile := hd [] (eo_args o) in"]], "definition": "cli_encrypt", "desc": "wrong argument taken as input", "breaks": ["C48", "C51"]}}
{"mid": "p080", "lemmas": ["Thm_Cli.cli_encrypt_inv", "Thm_Cli.C48_encrypt_succeeds", "Thm_Commands.C44_refuted", "Thm_Chain.c51_code", "Thm_Chain.c51_ops", "Thm_Crash.C56_encrypt_ends"], "hard": [], "failed": ["C44_no_overwrite_partial", "C44_old_or_new_partial", "C44_refuted", "C48_encrypt_exact", "C48_encrypt_succeeds", "C48_unresolved", "C51_encrypt_then_decrypt", "C56_encrypt_ends"], "secs": 79, "m": {"id": "p080", "edits": [["Cli.v", "(removelast (eo_args o)) rd)", "(tl (eo_args o)) rd)"]], "definition": "cli_encrypt", "desc": "first recipient dropped, input file taken as recipient", "breaks": ["C48"]}}
{"mid": "p082", "lemmas": ["Thm_Cli.cli_encrypt_inv", "Thm_Crash.C56_encrypt_ends"], "hard": [], "failed": ["C44_no_overwrite_partial", "C44_old_or_new_partial", "C48_encrypt_exact", "C48_unresolved", "C51_encrypt_then_decrypt", "C56_encrypt_ends"], "secs": 62, "m": {"id": "p082", "edits": [["Cli.v", "if len (eo_args o) <? 2 then done 1\n          else", ""]], "definition": "cli_encrypt", "desc": "missing recipients not detected", "breaks": ["C48"]}}
{"mid": "p083", "lemmas": ["Thm_Cli.cli_encrypt_inv", "Thm_Cli.C48_encrypt_succeeds", "Thm_Crash.C56_encrypt_ends"], "hard": [], "failed": ["C44_no_overwrite_partial", "C44_old_or_new_partial", "C48_encrypt_exact", "C48_encrypt_succeeds", "C48_unresolved", "C51_encrypt_then_decrypt", "C56_encrypt_ends"], "secs": 61, "m": {"id": "p083", "edits": [["Cli.v", "then sk <- read_private_key C E (slurp W (eo_keyfile o)) (Some (get_pass W (eo_nopw o) (eo_envpw o))) ;; Ok (Some sk)\n             else Ok None", "then Ok None\n             else Ok None"]], "definition": "cli_encrypt", "desc": "signing key ignored", "breaks": ["C51", "C48"]}}
{"mid": "p084", "lemmas": ["CliProofs.dec_body_spec"], "hard": [], "failed": ["C44_old_or_new_partial", "C45_decrypt_to_file_partial", "C51_encrypt_then_decrypt"], "secs": 59, "m": {"id": "p084", "edits": [["Cli.v", "| (_, w, r) => (code_of r, w)\n          end", "| (_, w, r) => (code_of r, snd (w_close w))\n          end"]], "definition": "dec_body", "desc": "partial output committed after a failure", "breaks": ["C45"]}}
{"mid": "p085", "lemmas": ["CliProofs.dec_body_spec", "Thm_Cli.C45_close_refuted", "Thm_Cli.C45_test_mode", "Thm_Cli.dec_body_total", "Thm_Commands.decrypt_done", "Thm_Crash.dec_body_ends"], "hard": [], "failed": ["C44_old_or_new_partial", "C45_close_refuted", "C45_decrypt_succeeds", "C45_decrypt_to_file_partial", "C45_test_mode", "C46_sender_partial", "C51_encrypt_then_decrypt", "C56_decrypt_ends"], "secs": 72, "m": {"id": "p085", "edits": [["Cli.v", "match set_private_key C d sk pk with", "match set_private_key C d sk None with"]], "definition": "dec_body", "desc": "-v ignored", "breaks": ["C46"]}}
{"mid": "p086", "lemmas": ["Thm_Cli.cli_decrypt_inv", "Thm_Cli.C45_test_mode", "Thm_Cli.C45_decrypt_succeeds", "Thm_Commands.decrypt_done", "Thm_Crash.C56_decrypt_ends"], "hard": [], "failed": ["C44_no_overwrite_partial", "C44_old_or_new_partial", "C45_decrypt_succeeds", "C45_decrypt_to_file_partial", "C45_test_mode", "C46_sender_partial", "C51_encrypt_then_decrypt", "C56_decrypt_ends"], "secs": 67, "m": {"id": "p086", "edits": [["Cli.v", "if do_test o then done (fst (dec_body C sk pk rd (mkWriter [] [] [] 0)))\n                  else", ""]], "definition": "cli_decrypt", "desc": "--test writes output", "breaks": ["C45"]}}
{"mid": "p087", "lemmas": ["Thm_Cli.cli_decrypt_inv", "Thm_Cli.C45_test_mode", "Thm_Cli.C45_decrypt_succeeds", "Thm_Commands.decrypt_done", "Thm_Crash.C56_decrypt_ends"], "hard": [], "failed": ["C44_no_overwrite_partial", "C44_old_or_new_partial", "C45_decrypt_succeeds", "C45_decrypt_to_file_partial", "C45_test_mode", "C46_sender_partial", "C51_encrypt_then_decrypt", "C56_decrypt_ends"], "secs": 71, "m": {"id": "p087", "edits": [["Cli.v", "(if 0 <? len (do_pubkey o) then pk <- read_public_key C E (slurp W (do_pubkey o)) ;; Ok (Some pk) else Ok None)", "(if 0 <? len (do_pubkey o) then match read_public_key C E (slurp W (do_pubkey o)) with Ok pk => Ok (Some pk) | _ => Ok None end else Ok None)"]], "definition": "cli_decrypt", "desc": "unreadable sender key ignored", "breaks": ["C46"]}}
{"mid": "p088", "lemmas": ["CliProofs.with_output_file"], "hard": [], "failed": ["C44_no_overwrite_partial", "C44_old_or_new_partial", "C45_decrypt_succeeds", "C45_decrypt_to_file_partial", "C48_encrypt_exact", "C48_encrypt_succeeds", "C48_unresolved", "C49_sign_partial", "C51_encrypt_then_decrypt", "C52_sign_then_verify"], "secs": 51, "m": {"id": "p088", "edits": [["Cli.v", "let '(c, w) := body (sf_sink v) in mkOut c (sf_ops v (wo_place W outfile) w) (wo_stdout W)", "let '(c, w) := body (sf_sink v) in mkOut c (sf_ops v (wo_place W outfile) (snd (w_close w))) (wo_stdout W)"]], "definition": "with_output", "desc": "output committed at exit whatever happened", "breaks": ["C45", "C48"]}}
{"mid": "p089", "lemmas": ["CliProofs.with_output_file", "Thm_Crash.with_output_ends"], "hard": [], "failed": ["C44_no_overwrite_partial", "C44_old_or_new_partial", "C45_decrypt_succeeds", "C45_decrypt_to_file_partial", "C48_encrypt_exact", "C48_encrypt_succeeds", "C48_unresolved", "C49_sign_partial", "C51_encrypt_then_decrypt", "C52_sign_then_verify", "C56_decrypt_ends", "C56_encrypt_ends", "C56_sign_ends"], "secs": 55, "m": {"id": "p089", "edits": [["Cli.v", "safe_open v (wo_fs W) (wo_place W outfile) force", "safe_open v (wo_fs W) (wo_place W outfile) true"]], "definition": "with_output", "desc": "--overwrite not needed", "breaks": ["C45", "C49"]}}
{"mid": "p090", "lemmas": ["CliProofs.names_ok"], "hard": [], "failed": ["C44_no_overwrite_partial", "C44_old_or_new_partial", "C45_decrypt_succeeds", "C45_decrypt_to_file_partial", "C48_encrypt_exact", "C48_encrypt_succeeds", "C48_unresolved", "C51_encrypt_then_decrypt"], "secs": 47, "m": {"id": "p090", "edits": [["Cli.v", "negb (beq o (str \"-\"))", "true"]], "definition": "names_file", "desc": "\"-\" taken as a file name", "breaks": ["C45", "C48"]}}
{"mid": "p091", "lemmas": ["Thm_Commands.sign_body_spec", "Thm_Crash.C56_sign_ends"], "hard": [], "failed": ["C49_sign_partial", "C52_sign_then_verify", "C56_sign_ends"], "secs": 53, "m": {"id": "p091", "edits": [["Cli.v", "| r => (code_of r, w)\n      end\n  | r => (code_of r, w)", "| r => (0, w)\n      end\n  | r => (code_of r, w)"]], "definition": "sign_body", "desc": "failed signing exits 0", "breaks": ["C49"]}}
{"mid": "p092", "lemmas": ["Thm_Commands.sign_body_spec"], "hard": [], "failed": ["C49_sign_partial", "C52_sign_then_verify"], "secs": 39, "m": {"id": "p092", "edits": [["Cli.v", "(str \"input=\" ++ fn)", "[]"]], "definition": "sign_body", "desc": "comment without the file name", "breaks": []}}
{"mid": "p094", "lemmas": ["Thm_Commands.C49_sign_partial"], "hard": [], "failed": ["C49_sign_partial", "C52_sign_then_verify"], "secs": 39, "m": {"id": "p094", "edits": [["Cli.v", "(negb (beq outf (str \"-\"))) (so_force o)", "(negb (beq outf (str \"-\"))) true"]], "definition": "cli_sign", "desc": "existing signature overwritten", "breaks": ["C49"]}}
{"mid": "p093", "lemmas": ["Thm_Commands.C49_sign_partial", "Thm_Commands.C49_refuted", "Thm_Chain.sign1_code", "Thm_Chain.C53_refuted"], "hard": [], "failed": ["C49_refuted", "C49_sign_partial", "C52_sign_then_verify", "C53_refuted"], "secs": 57, "m": {"id": "p093", "edits": [["Cli.v", "else fn ++ str \".sig\" in", "else fn in"]], "definition": "cli_sign", "desc": "signature replaces the input file", "breaks": ["C49"]}}
{"mid": "p095", "lemmas": ["Thm_Commands.C47_verify_exact", "Thm_Chain.C53_crash_exactly_partial"], "hard": [], "failed": ["C47_verify_exact", "C52_sign_then_verify", "C53_crash_exactly_partial"], "secs": 47, "m": {"id": "p095", "edits": [["Cli.v", "if negb (is_pk_match sig pk) then 1\n                  else", ""]], "definition": "cli_verify", "desc": "key hash not compared", "breaks": ["C47"]}}
{"mid": "p096", "lemmas": ["Thm_Commands.C47_verify_exact", "Thm_Chain.C53_crash_exactly_partial"], "hard": [], "failed": ["C47_verify_exact", "C52_sign_then_verify", "C53_crash_exactly_partial"], "secs": 48, "m": {"id": "p096", "edits": [["Cli.v", "| Ok false => 1", "| Ok false => 0"]], "definition": "cli_verify", "desc": "failed verification exits 0", "breaks": ["C47"]}}
{"mid": "p097", "lemmas": ["Thm_Commands.C47_verify_exact", "Thm_Chain.C53_crash_exactly_partial", "Thm_Chain.C53_refuted"], "hard": [], "failed": ["C47_verify_exact", "C52_sign_then_verify", "C53_crash_exactly_partial", "C53_refuted"], "secs": 58, "m": {"id": "p097", "edits": [["Cli.v", "| pn :: sn :: fn :: _ =>", "| pn :: fn :: sn :: _ =>"]], "definition": "cli_verify", "desc": "arguments swapped", "breaks": ["C47"]}}
{"mid": "p098", "lemmas": ["Thm_Commands.C47_verify_exact", "Thm_Chain.C53_crash_exactly_partial"], "hard": [], "failed": ["C47_verify_exact", "C52_sign_then_verify", "C53_crash_exactly_partial"], "secs": 52, "m": {"id": "p098", "edits": [["Cli.v", "| Fail _ => pk <- read_public_key C E (slurp W pn) ;; Ok (Some pk)", "| Fail e => Fail e"]], "definition": "cli_verify", "desc": "public key files not read", "breaks": ["C47", "C52"]}}
{"mid": "n001", "lemmas": ["StreamProofs.new_stream_writer_spec", "Thm_Session.stream_writer_flags"], "hard": [], "failed": ["C02_stream_round_trip", "C02_stream_writes_succeed", "C03_encrypted_file_streams", "C03_stream_file_decrypts", "C09_truncated_file", "C10_complete_partial", "C10_refuted_truncation", "C11_released_data_genuine", "C13_refuted_recipient_forges", "C14_refuted", "C17_no_recipient_after_start", "C18_encrypt_after_stream_writer", "C20_refuted", "C27_writes", "C29_refuted", "C57_stream_size", "C59_encrypt_against_stream"], "secs": 153, "m": {"id": "n001", "edits": [["Stream.v", "(e_sender e) (e_auth e) (e_started e) true, w", "(e_sender e) (e_auth e) (e_started e) (e_stream e), w"]], "definition": "new_stream_writer", "desc": "stream flag not set", "breaks": ["C18"]}}
{"mid": "n002", "lemmas": ["StreamProofs.ew_loop_spec", "Thm_Session.ew_loop_flags", "Thm_Stream.ew_loop_fail"], "hard": [], "failed": ["C02_stream_round_trip", "C02_stream_writes_succeed", "C03_encrypted_file_streams", "C03_stream_file_decrypts", "C09_truncated_file", "C10_complete_partial", "C10_refuted_truncation", "C11_released_data_genuine", "C13_refuted_recipient_forges", "C14_refuted", "C17_no_recipient_after_start", "C18_encrypt_after_stream_writer", "C20_refuted", "C27_sticky_errors", "C27_writes", "C29_refuted", "C57_stream_size", "C59_encrypt_against_stream"], "secs": 138, "m": {"id": "n002", "edits": [["Stream.v", "if (len buf =? max) && (0 <? len b) then", "if (len buf =? max) then"]], "definition": "ew_loop", "desc": "a full last chunk is flushed by Write, Close adds an empty frame", "breaks": ["C06"]}}
{"mid": "n003", "lemmas": ["StreamProofs.ew_loop_spec"], "hard": [], "failed": ["C02_stream_round_trip", "C02_stream_writes_succeed", "C03_encrypted_file_streams", "C03_stream_file_decrypts", "C09_truncated_file", "C10_complete_partial", "C10_refuted_truncation", "C11_released_data_genuine", "C13_refuted_recipient_forges", "C14_refuted", "C20_refuted", "C27_writes", "C29_refuted", "C57_stream_size", "C59_encrypt_against_stream"], "secs": 144, "m": {"id": "n003", "edits": [["Stream.v", "ew_loop C f e w g (mkEw [] (u32 (ew_blk s + 1)) (ew_err s)) b", "ew_loop C f e w g (mkEw [] (ew_blk s) (ew_err s)) b"]], "definition": "ew_loop", "desc": "block number not incremented by Write", "breaks": ["C07", "C02"]}}
{"mid": "n004", "lemmas": ["StreamProofs.ew_loop_spec", "Thm_Stream.ew_loop_fail"], "hard": [], "failed": ["C02_stream_round_trip", "C02_stream_writes_succeed", "C03_encrypted_file_streams", "C03_stream_file_decrypts", "C09_truncated_file", "C10_complete_partial", "C10_refuted_truncation", "C11_released_data_genuine", "C13_refuted_recipient_forges", "C14_refuted", "C20_refuted", "C27_sticky_errors", "C27_writes", "C29_refuted", "C57_stream_size", "C59_encrypt_against_stream"], "secs": 145, "m": {"id": "n004", "edits": [["Stream.v", "| Fail x => (e, w, g, mkEw buf (ew_blk s) (Some x), Fail x)", "| Fail x => (e, w, g, mkEw buf (ew_blk s) (ew_err s), Fail x)"]], "definition": "ew_loop", "desc": "Write error not remembered", "breaks": ["C27"]}}
{"mid": "n005", "lemmas": ["StreamProofs.ew_loop_spec"], "hard": [], "failed": ["C02_stream_round_trip", "C02_stream_writes_succeed", "C03_encrypted_file_streams", "C03_stream_file_decrypts", "C09_truncated_file", "C10_complete_partial", "C10_refuted_truncation", "C11_released_data_genuine", "C13_refuted_recipient_forges", "C14_refuted", "C20_refuted", "C27_writes", "C29_refuted", "C57_stream_size", "C59_encrypt_against_stream"], "secs": 141, "m": {"id": "n005", "edits": [["Stream.v", "let z := Z.min (max - len (ew_buf s)) (len b) in", "let z := Z.min (max - len (ew_buf s) - 1) (len b) in"]], "definition": "ew_loop", "desc": "off by one when filling the buffer", "breaks": ["C02"]}}
{"mid": "n006", "lemmas": ["StreamProofs.ew_write_spec", "Thm_Stream.C27_sticky_errors"], "hard": [], "failed": ["C02_stream_round_trip", "C02_stream_writes_succeed", "C03_encrypted_file_streams", "C03_stream_file_decrypts", "C09_truncated_file", "C10_complete_partial", "C10_refuted_truncation", "C11_released_data_genuine", "C13_refuted_recipient_forges", "C14_refuted", "C20_refuted", "C27_sticky_errors", "C27_writes", "C29_refuted", "C57_stream_size", "C59_encrypt_against_stream"], "secs": 145, "m": {"id": "n006", "edits": [["Stream.v", "(match rs with Ok _ => len b | _ => 0 end, rs)", "(len b, rs)"]], "definition": "ew_write", "desc": "failed Write reports len(b)", "breaks": ["C27"]}}
{"mid": "n008", "lemmas": ["StreamProofs.ew_close_spec"], "hard": [], "failed": ["C02_stream_round_trip", "C02_stream_writes_succeed", "C03_encrypted_file_streams", "C03_stream_file_decrypts", "C09_truncated_file", "C10_complete_partial", "C10_refuted_truncation", "C11_released_data_genuine", "C13_refuted_recipient_forges", "C14_refuted", "C20_refuted", "C29_refuted", "C57_stream_size", "C59_encrypt_against_stream"], "secs": 132, "m": {"id": "n008", "edits": [["Stream.v", "enc_block C e (ew_buf s) w (ew_blk s) true g", "enc_block C e (ew_buf s) w (ew_blk s) false g"]], "definition": "ew_close", "desc": "Close does not mark the last frame", "breaks": ["C02", "C06"]}}
{"mid": "n007", "lemmas": ["StreamProofs.write_all_err", "Thm_Stream.write_ops_err", "Thm_Stream.C27_sticky_errors"], "hard": [], "failed": ["C02_stream_round_trip", "C02_stream_writes_succeed", "C03_encrypted_file_streams", "C03_stream_file_decrypts", "C09_truncated_file", "C10_complete_partial", "C10_refuted_truncation", "C11_released_data_genuine", "C13_refuted_recipient_forges", "C14_refuted", "C20_refuted", "C27_sticky_errors", "C27_writes", "C29_refuted", "C57_stream_size", "C59_encrypt_against_stream"], "secs": 137, "m": {"id": "n007", "edits": [["Stream.v", "| Some x => (e, w, g, s, (0, Fail x))", "| Some x => (e, w, g, s, (0, Ok tt))"]], "definition": "ew_write", "desc": "Write after an error succeeds silently", "breaks": ["C27"]}}
{"mid": "n009", "lemmas": ["StreamProofs.ew_close_spec", "Thm_Stream.C27_sticky_errors"], "hard": [], "failed": ["C02_stream_round_trip", "C02_stream_writes_succeed", "C03_encrypted_file_streams", "C03_stream_file_decrypts", "C09_truncated_file", "C10_complete_partial", "C10_refuted_truncation", "C11_released_data_genuine", "C13_refuted_recipient_forges", "C14_refuted", "C20_refuted", "C27_sticky_errors", "C29_refuted", "C57_stream_size", "C59_encrypt_against_stream"], "secs": 122, "m": {"id": "n009", "edits": [["Stream.v", "let s := mkEw [] (ew_blk s) (Some ErrClosed) in", "let s := mkEw [] (ew_blk s) None in"]], "definition": "ew_close", "desc": "Close does not mark the writer closed", "breaks": ["C27"]}}
{"mid": "n010", "lemmas": ["StreamProofs.ew_close_spec", "Thm_Stream.C27_sticky_errors"], "hard": [], "failed": ["C02_stream_round_trip", "C02_stream_writes_succeed", "C03_encrypted_file_streams", "C03_stream_file_decrypts", "C09_truncated_file", "C10_complete_partial", "C10_refuted_truncation", "C11_released_data_genuine", "C13_refuted_recipient_forges", "C14_refuted", "C20_refuted", "C27_sticky_errors", "C29_refuted", "C57_stream_size", "C59_encrypt_against_stream"], "secs": 122, "m": {"id": "n010", "edits": [["Stream.v", "| Fail x => (e, w, g, mkEw (ew_buf s) (ew_blk s) (Some x), Fail x)", "| Fail x => (e, w, g, s, Fail x)"]], "definition": "ew_close", "desc": "Close error not remembered", "breaks": ["C27"]}}
{"mid": "n011", "lemmas": ["StreamProofs.ew_close_spec", "Thm_Stream.C27_sticky_errors"], "hard": [], "failed": ["C02_stream_round_trip", "C02_stream_writes_succeed", "C03_encrypted_file_streams", "C03_stream_file_decrypts", "C09_truncated_file", "C10_complete_partial", "C10_refuted_truncation", "C11_released_data_genuine", "C13_refuted_recipient_forges", "C14_refuted", "C20_refuted", "C27_sticky_errors", "C29_refuted", "C57_stream_size", "C59_encrypt_against_stream"], "secs": 125, "m": {"id": "n011", "edits": [["Stream.v", "| (Some x, w) => (e, w, g, s, Fail x)\n          end", "| (Some x, w) => (e, w, g, s, Ok tt)\n          end"]], "definition": "ew_close", "desc": "error of the destination's Close swallowed", "breaks": ["C27"]}}
{"mid": "n012", "lemmas": ["Thm_Decrypt.C15_not_a_recipient", "Thm_Decrypt.C20_no_panic_partial", "Thm_Session.C18_decrypt_after_stream_reader", "Thm_Stream.C28_read_discipline"], "hard": [], "failed": ["C15_not_a_recipient", "C18_decrypt_after_stream_reader", "C20_no_panic_partial", "C28_read_discipline"], "secs": 147, "m": {"id": "n012", "edits": [["Stream.v", "| None => (d, Fail ErrNoKey)", "| None => (d, Ok (mkEr 0 0 0 None))"]], "definition": "new_stream_reader", "desc": "stream reader without a key", "breaks": ["C15"]}}
{"mid": "n013", "lemmas": ["StreamRead.stream_read_spec", "Thm_Decrypt.C20_no_panic_partial", "Thm_Session.C18_decrypt_after_stream_reader", "Thm_Session.C18_nothing_after_decrypt", "Thm_Stream.C28_read_discipline", "Thm_Stream.C29_refuted"], "hard": [], "failed": ["C02_stream_round_trip", "C03_encrypted_file_streams", "C03_stream_file_decrypts", "C11_released_data_genuine", "C18_decrypt_after_stream_reader", "C18_nothing_after_decrypt", "C20_no_panic_partial", "C28_read_discipline", "C29_refuted", "C29_single_reader_partial"], "secs": 203, "m": {"id": "n013", "edits": [["Stream.v", "if d_eof d then (d, Fail IoEOF)\n      else", ""]], "definition": "new_stream_reader", "desc": "stream reader after EOF", "breaks": ["C18"]}}
{"mid": "n014", "lemmas": ["StreamRead.stream_read_spec", "Thm_Decrypt.C20_no_panic_partial", "Thm_Session.C18_decrypt_after_stream_reader", "Thm_Stream.C28_read_discipline", "Thm_Stream.C29_refuted"], "hard": [], "failed": ["C02_stream_round_trip", "C03_encrypted_file_streams", "C03_stream_file_decrypts", "C11_released_data_genuine", "C18_decrypt_after_stream_reader", "C20_no_panic_partial", "C28_read_discipline", "C29_refuted", "C29_single_reader_partial"], "secs": 198, "m": {"id": "n014", "edits": [["Stream.v", "(d_set_stream d, Ok (mkEr 0 0 0 None))", "(d, Ok (mkEr 0 0 0 None))"]], "definition": "new_stream_reader", "desc": "stream mode not recorded", "breaks": ["C18"]}}
{"mid": "n015", "lemmas": ["StreamRead.er_deliver_spec", "Hostile.er_deliver_any", "Thm_Stream.C29_refuted"], "hard": [], "failed": ["C02_stream_round_trip", "C03_encrypted_file_streams", "C03_stream_file_decrypts", "C11_released_data_genuine", "C20_no_panic_partial", "C28_read_discipline", "C29_refuted", "C29_single_reader_partial"], "secs": 211, "m": {"id": "n015", "edits": [["Stream.v", "mkEr (er_off s + m) (er_len s - m)", "mkEr (er_off s) (er_len s - m)"]], "definition": "er_deliver", "desc": "read offset not advanced", "breaks": ["C02"]}}
{"mid": "n017", "lemmas": ["StreamRead.er_deliver_spec", "Hostile.er_deliver_any", "Thm_Stream.C29_refuted"], "hard": [], "failed": ["C02_stream_round_trip", "C03_encrypted_file_streams", "C03_stream_file_decrypts", "C11_released_data_genuine", "C20_no_panic_partial", "C28_read_discipline", "C29_refuted", "C29_single_reader_partial"], "secs": 239, "m": {"id": "n017", "edits": [["Stream.v", "let m := Z.min n (er_len s) in", "let m := er_len s in"]], "definition": "er_deliver", "desc": "Read returns more than the buffer holds", "breaks": ["C28"]}}
{"mid": "n016", "lemmas": ["StreamRead.er_deliver_spec", "Hostile.er_deliver_any", "Thm_Stream.C28_sticky_errors"], "hard": [], "failed": ["C02_stream_round_trip", "C03_encrypted_file_streams", "C03_stream_file_decrypts", "C11_released_data_genuine", "C20_no_panic_partial", "C28_read_discipline", "C28_sticky_errors", "C29_refuted", "C29_single_reader_partial"], "secs": 244, "m": {"id": "n016", "edits": [["Stream.v", "  else (d, mkEr (er_off s) (er_len s) (er_blk s) (Some IoEOF), ([], Fail IoEOF))", "  else (d, mkEr (er_off s) (er_len s) (er_blk s) (er_err s), ([], Fail IoEOF))"]], "definition": "er_deliver", "desc": "EOF not remembered when the last frame is empty", "breaks": ["C28"]}}
{"mid": "n018", "lemmas": ["StreamRead.read_all_err", "Hostile.er_read_any", "Thm_Stream.C28_sticky_errors"], "hard": [], "failed": ["C02_stream_round_trip", "C03_encrypted_file_streams", "C03_stream_file_decrypts", "C11_released_data_genuine", "C20_no_panic_partial", "C28_read_discipline", "C28_sticky_errors", "C29_single_reader_partial"], "secs": 234, "m": {"id": "n018", "edits": [["Stream.v", "| Some x => (d, s, ([], Fail x))", "| Some x => (d, s, ([], Fail IoEOF))"]], "definition": "er_read", "desc": "later Reads report EOF whatever the error was", "breaks": ["C28"]}}
{"mid": "n019", "lemmas": ["StreamRead.er_read_spec", "Hostile.er_read_any", "Thm_Stream.C29_refuted"], "hard": [], "failed": ["C02_stream_round_trip", "C03_encrypted_file_streams", "C03_stream_file_decrypts", "C11_released_data_genuine", "C20_no_panic_partial", "C28_read_discipline", "C29_refuted", "C29_single_reader_partial"], "secs": 185, "m": {"id": "n019", "edits": [["Stream.v", "er_deliver (d_set_eof d eof) (mkEr 0 m (u32 (er_blk s + 1)) None) n", "er_deliver d (mkEr 0 m (u32 (er_blk s + 1)) None) n"]], "definition": "er_read", "desc": "eof not recorded by Read", "breaks": ["C02", "C28"]}}
{"mid": "n020", "lemmas": ["StreamRead.er_read_spec", "Thm_Stream.C29_refuted"], "hard": [], "failed": ["C02_stream_round_trip", "C03_encrypted_file_streams", "C03_stream_file_decrypts", "C11_released_data_genuine", "C29_refuted", "C29_single_reader_partial"], "secs": 184, "m": {"id": "n020", "edits": [["Stream.v", "(mkEr 0 m (u32 (er_blk s + 1)) None)", "(mkEr 0 m (er_blk s) None)"]], "definition": "er_read", "desc": "block number not advanced by Read", "breaks": ["C02"]}}
{"mid": "n021", "lemmas": ["StreamRead.er_read_spec", "Hostile.er_read_any", "Thm_Stream.C28_sticky_errors", "Thm_Stream.C29_refuted"], "hard": [], "failed": ["C02_stream_round_trip", "C03_encrypted_file_streams", "C03_stream_file_decrypts", "C11_released_data_genuine", "C20_no_panic_partial", "C28_read_discipline", "C28_sticky_errors", "C29_refuted", "C29_single_reader_partial"], "secs": 190, "m": {"id": "n021", "edits": [["Stream.v", "| (d, Fail x) => (d, mkEr (er_off s) (er_len s) (er_blk s) (Some x), ([], Fail x))", "| (d, Fail x) => (d, s, ([], Fail x))"]], "definition": "er_read", "desc": "Read error not remembered", "breaks": ["C28"]}}
{"mid": "n023", "lemmas": ["IOProofs.fullwrite_loop_spec", "Thm_Cli.C45_close_refuted", "Thm_Commands.C46_refuted", "Thm_Chain.C53_refuted"], "hard": [], "failed": ["C01_encrypt_decrypt_round_trip", "C01_encrypt_succeeds", "C02_stream_round_trip", "C02_stream_writes_succeed", "C03_encrypted_file_streams", "C03_stream_file_decrypts", "C04_fragmentation_independent", "C05_file_format", "C06_chunks", "C07_nonces_distinct_partial", "C07_refuted_counter_wraps", "C07_refuted_second_encrypt", "C08_tampered_header", "C09_truncated_file", "C10_complete_partial", "C10_refuted_truncation", "C11_released_data_genuine", "C13_content_signed_partial", "C13_refuted_recipient_forges", "C14_refuted", "C16_recipients_agree", "C20_refuted", "C21_encrypt_errors_partial", "C22_fullwrite_all_or_error", "C23_refuted", "C24_recipients_partial", "C24_refuted", "C27_writes", "C29_refuted", "C42_stored_objects", "C42_write_atomic", "C43_generate", "C44_old_or_new_partial", "C45_close_refuted", "C45_decrypt_succeeds", "C45_decrypt_to_file_partial", "C46_refuted", "C46_sender_partial", "C48_encrypt_exact", "C48_encrypt_succeeds", "C48_unresolved", "C49_sign_partial", "C50_new_pair_partial", "C51_encrypt_then_decrypt", "C52_sign_then_verify", "C53_refuted", "C56_encrypt_ends", "C57_encrypt_size", "C57_stream_size", "C58_file_randomness", "C59_encrypt_against_stream"], "secs": 209, "m": {"id": "n023", "edits": [["GoIO.v", "| None => fullwrite_loop s' (drop (len a) buf) (out ++ a)", "| None => fullwrite_loop s' buf (out ++ a)"]], "definition": "fullwrite_loop", "desc": "bytes written twice after a short write", "breaks": ["C22"]}}
{"mid": "n022", "lemmas": ["IOProofs.fullwrite_loop_spec", "Support.fullwrite_loop_clean", "Thm_Cli.C45_close_refuted", "Thm_Commands.C46_refuted", "Thm_Commands.fullwrite_loop_used", "Thm_Commands.C49_refuted", "Thm_Chain.C53_refuted"], "hard": [], "failed": ["C01_encrypt_decrypt_round_trip", "C01_encrypt_succeeds", "C02_stream_round_trip", "C02_stream_writes_succeed", "C03_encrypted_file_streams", "C03_stream_file_decrypts", "C04_fragmentation_independent", "C05_file_format", "C06_chunks", "C07_nonces_distinct_partial", "C07_refuted_counter_wraps", "C07_refuted_second_encrypt", "C08_tampered_header", "C09_truncated_file", "C10_complete_partial", "C10_refuted_truncation", "C11_released_data_genuine", "C13_content_signed_partial", "C13_refuted_recipient_forges", "C14_refuted", "C16_recipients_agree", "C20_refuted", "C21_decrypt_write_errors", "C21_encrypt_errors_partial", "C22_fullwrite_all_or_error", "C23_refuted", "C24_recipients_partial", "C24_refuted", "C27_writes", "C29_refuted", "C42_stored_objects", "C42_write_atomic", "C43_generate", "C44_old_or_new_partial", "C45_close_refuted", "C45_decrypt_succeeds", "C45_decrypt_to_file_partial", "C46_refuted", "C46_sender_partial", "C48_encrypt_exact", "C48_encrypt_succeeds", "C48_unresolved", "C49_refuted", "C49_sign_partial", "C50_new_pair_partial", "C51_encrypt_then_decrypt", "C52_sign_then_verify", "C53_refuted", "C56_encrypt_ends", "C57_encrypt_size", "C57_stream_size", "C58_file_randomness", "C59_encrypt_against_stream"], "secs": 228, "m": {"id": "n022", "edits": [["GoIO.v", "| None => fullwrite_loop s' (drop (len a) buf) (out ++ a)", "| None => (None, out ++ a, s')"]], "definition": "fullwrite_loop", "desc": "short write taken for a complete one", "breaks": ["C22", "C21"]}}
{"mid": "n024", "lemmas": ["IOProofs.fullwrite_loop_spec", "Support.fullwrite_loop_clean", "Thm_Commands.fullwrite_loop_used"], "hard": [], "failed": ["C01_encrypt_decrypt_round_trip", "C01_encrypt_succeeds", "C02_stream_round_trip", "C02_stream_writes_succeed", "C03_encrypted_file_streams", "C03_stream_file_decrypts", "C04_fragmentation_independent", "C05_file_format", "C06_chunks", "C07_nonces_distinct_partial", "C07_refuted_counter_wraps", "C07_refuted_second_encrypt", "C08_tampered_header", "C09_truncated_file", "C10_complete_partial", "C10_refuted_truncation", "C11_released_data_genuine", "C13_content_signed_partial", "C13_refuted_recipient_forges", "C14_refuted", "C16_recipients_agree", "C20_refuted", "C21_decrypt_write_errors", "C21_encrypt_errors_partial", "C22_fullwrite_all_or_error", "C23_refuted", "C24_recipients_partial", "C24_refuted", "C27_writes", "C29_refuted", "C42_stored_objects", "C42_write_atomic", "C43_generate", "C44_old_or_new_partial", "C45_decrypt_succeeds", "C45_decrypt_to_file_partial", "C46_sender_partial", "C48_encrypt_exact", "C48_encrypt_succeeds", "C48_unresolved", "C49_sign_partial", "C50_new_pair_partial", "C51_encrypt_then_decrypt", "C52_sign_then_verify", "C56_encrypt_ends", "C57_encrypt_size", "C57_stream_size", "C58_file_randomness", "C59_encrypt_against_stream"], "secs": 206, "m": {"id": "n024", "edits": [["GoIO.v", "| Some x => (Some x, out ++ a, s')", "| Some x => (None, out ++ a, s')"]], "definition": "fullwrite_loop", "desc": "write error swallowed", "breaks": ["C22", "C21"]}}
{"mid": "n025", "lemmas": ["IOProofs.read_full_short"], "hard": [], "failed": ["C01_encrypt_decrypt_round_trip", "C01_encrypt_succeeds", "C02_stream_round_trip", "C03_encrypted_file_streams", "C03_stream_file_decrypts", "C04_fragmentation_independent", "C05_file_format", "C06_chunks", "C07_nonces_distinct_partial", "C07_refuted_counter_wraps", "C07_refuted_second_encrypt", "C08_accepted_header", "C08_tampered_header", "C09_truncated_file", "C10_complete_partial", "C10_refuted_truncation", "C11_released_data_genuine", "C13_content_signed_partial", "C13_refuted_recipient_forges", "C14_refuted", "C16_recipients_agree", "C20_refuted", "C21_encrypt_errors_partial", "C23_refuted", "C24_recipients_partial", "C24_refuted", "C29_refuted", "C29_single_reader_partial", "C48_encrypt_succeeds", "C51_encrypt_then_decrypt", "C57_encrypt_size", "C58_file_randomness", "C59_encrypt_against_stream"], "secs": 205, "m": {"id": "n025", "edits": [["GoIO.v", "Some (if 0 <? len b then ErrUnexpectedEOF else IoEOF)", "Some IoEOF"]], "definition": "read_full", "desc": "short read reported as EOF (environment contract)", "breaks": []}}
{"mid": "n026", "lemmas": ["SshProofs.parse_key_bytes", "SshProofs.parse_enc_inv", "SshKeyProofs.section_ok", "SshKeyProofs.section_inv", "Thm_Ssh.C38_options_refuted", "Thm_KeyFiles.C33_public_round_trip", "Thm_KeyFiles.C33_yaml_exact", "Thm_KeyFiles.C34_private_round_trip_partial", "Thm_KeyFiles.C35_public_partial", "Thm_KeyFiles.C35_private_partial", "CliProofs.make_public_loaded", "CliProofs.read_private_loaded", "Thm_Sign.C30_key_objects_named", "Thm_Commands.town_akey", "Thm_Chain.town_skeyS", "Thm_Chain.town_skey", "Thm_Chain.town1_akey", "Thm_Chain.C54_string_exact", "Thm_Files.C43_pair_usable_partial"], "hard": [], "failed": ["C30_key_objects_named", "C33_openssh_line", "C33_public_round_trip", "C33_yaml_exact", "C34_private_round_trip_partial", "C35_private_partial", "C35_public_partial", "C37_bad_blob_rejected", "C37_blob_exact", "C37_line_exact", "C37_line_partial", "C38_entries_partial", "C38_options_refuted", "C38_sound", "C39_container_exact", "C42_stored_objects", "C43_pair_usable_partial", "C47_verify_exact", "C52_sign_then_verify", "C53_crash_exactly_partial", "C54_round_trip_partial", "C54_string_exact", "C56_decrypt_ends", "C56_encrypt_ends", "C56_sign_ends"], "secs": 408, "m": {"id": "n026", "edits": [["Keys.v", "take 16 (sha256 C pk)", "take 8 (sha256 C pk)"]], "definition": "pkhash", "desc": "8-byte key hash", "breaks": ["C33"]}}
{"mid": "n027", "lemmas": ["SshProofs.parse_enc_inv", "SshProofs.parse_enc_none", "SshProofs.parse_enc_no_panic", "Thm_KeyFiles.C33_yaml_exact", "Thm_KeyFiles.C35_public_partial", "Thm_KeyFiles.C35_stale_refuted", "Thm_KeyFiles.C36_public_panics_exactly", "CliProofs.make_public_loaded", "Thm_Sign.C30_key_objects_named", "Thm_Commands.string_loaded", "Thm_Commands.string_no_panic", "Thm_Chain.C54_string_exact"], "hard": [], "failed": ["C30_key_objects_named", "C33_openssh_line", "C33_yaml_exact", "C35_public_partial", "C35_stale_refuted", "C36_public_panics_exactly", "C37_bad_blob_rejected", "C37_blob_exact", "C37_line_exact", "C37_line_partial", "C38_sound", "C38_total_and_linewise", "C43_pair_usable_partial", "C44_no_overwrite_partial", "C44_old_or_new_partial", "C47_verify_exact", "C48_encrypt_exact", "C48_unresolved", "C51_encrypt_then_decrypt", "C52_sign_then_verify", "C53_crash_exactly_partial", "C54_refuted", "C54_round_trip_partial", "C54_string_exact", "C56_decrypt_ends", "C56_encrypt_ends"], "secs": 417, "m": {"id": "n027", "edits": [["Keys.v", "if negb (len b =? 32) then", "if (len b <? 32) then"]], "definition": "make_public_from_bytes", "desc": "longer public keys accepted", "breaks": ["C33", "C37"]}}
{"mid": "n028", "lemmas": ["Thm_KeyFiles.C33_yaml_exact", "Thm_KeyFiles.C35_public_partial", "Thm_KeyFiles.C35_stale_refuted"], "hard": [], "failed": ["C33_yaml_exact", "C35_public_partial", "C35_stale_refuted"], "secs": 409, "m": {"id": "n028", "edits": [["Keys.v", "(pk_ck pk) (pkhash C b)", "None (pkhash C b)"]], "definition": "make_public_from_bytes", "desc": "cache reset (a fix: C35_refuted must stop holding)", "breaks": ["C35"]}}
{"mid": "n029", "lemmas": ["Thm_KeyFiles.C35_private_partial", "Thm_KeyFiles.C35_stale_refuted", "Thm_KeyFiles.open_section_no_panic", "Thm_KeyFiles.C36_private_partial", "CliProofs.read_private_loaded", "Thm_Sign.C30_key_objects_named", "Thm_KeyCrash.C36_private_panics_exactly"], "hard": [], "failed": ["C30_key_objects_named", "C35_private_partial", "C35_stale_refuted", "C36_private_panics_exactly", "C36_private_partial", "C43_pair_usable_partial", "C52_sign_then_verify", "C56_decrypt_ends", "C56_encrypt_ends", "C56_sign_ends"], "secs": 349, "m": {"id": "n029", "edits": [["Keys.v", "if negb (len buf =? 64)", "if (len buf <? 64)"]], "definition": "make_private_from_bytes", "desc": "longer private keys accepted", "breaks": ["C34"]}}
{"mid": "n030", "lemmas": ["SshKeyProofs.section_ok", "SshKeyProofs.section_inv", "Thm_KeyFiles.C34_private_round_trip_partial", "Thm_KeyFiles.C35_private_partial", "CliProofs.read_private_loaded", "Thm_Cli.C45_close_refuted", "Thm_Commands.C46_refuted", "Thm_Commands.town_akey", "Thm_Chain.town_skeyS", "Thm_Chain.town_skey", "Thm_Chain.town1_akey"], "hard": [], "failed": ["C34_private_round_trip_partial", "C35_private_partial", "C39_container_exact", "C42_stored_objects", "C43_pair_usable_partial", "C45_close_refuted", "C46_refuted", "C52_sign_then_verify", "C56_encrypt_ends", "C56_sign_ends"], "secs": 332, "m": {"id": "n030", "edits": [["Keys.v", "let edpk := drop 32 buf in", "let edpk := take 32 buf in"]], "definition": "make_private_from_bytes", "desc": "public half taken from the seed", "breaks": ["C34", "C39"]}}
{"mid": "n031", "lemmas": ["Scene.keypair_new", "Thm_Cli.C45_close_refuted", "Thm_Commands.C46_refuted", "Thm_Commands.akey_pair", "Thm_Chain.town_skeyS", "Thm_Chain.c51_sender", "Thm_Files.C43_pair_usable_partial"], "hard": [], "failed": ["C21_refuted", "C43_pair_usable_partial", "C45_close_refuted", "C46_refuted"], "secs": 301, "m": {"id": "n031", "edits": [["Keys.v", "mkPriv (seed ++ pkb) None", "mkPriv (pkb ++ seed) None"]], "definition": "new_private_key", "desc": "halves of the private key swapped", "breaks": ["C30", "C43"]}}
{"mid": "n032", "lemmas": ["KeysProofs.clamp_value"], "hard": [], "failed": ["C41_private_key_conversion"], "secs": 270, "m": {"id": "n032", "edits": [["Keys.v", "(Z.land (b2z b) 248)", "(Z.land (b2z b) 252)"]], "definition": "clamp", "desc": "clamp keeps bit 2", "breaks": ["C41"]}}
{"mid": "n033", "lemmas": ["KeysProofs.clamp_value"], "hard": [], "failed": ["C41_private_key_conversion"], "secs": 268, "m": {"id": "n033", "edits": [["Keys.v", "(Z.lor (b2z b) 64)", "(Z.lor (b2z b) 32)"]], "definition": "clamp", "desc": "clamp sets the wrong bit", "breaks": ["C41"]}}
{"mid": "n034", "lemmas": ["Thm_KeyFiles.priv_ok", "OpenProofs.keypair_scalar", "Thm_Sign.C41_private_key_conversion", "Thm_Sign.C41_conversions_agree", "Thm_Cli.C45_close_refuted", "Thm_Commands.C46_refuted"], "hard": [], "failed": ["C01_encrypt_decrypt_round_trip", "C02_stream_round_trip", "C03_encrypted_file_streams", "C03_stream_file_decrypts", "C09_truncated_file", "C10_complete_partial", "C10_refuted_truncation", "C11_released_data_genuine", "C12_authenticated_means_signed", "C13_content_signed_partial", "C13_refuted_recipient_forges", "C14_refuted", "C14_signed_file_partial", "C15_not_a_recipient", "C16_recipients_agree", "C20_no_panic_partial", "C20_refuted", "C28_read_discipline", "C29_refuted", "C29_single_reader_partial", "C35_private_partial", "C41_conversions_agree", "C41_private_key_conversion", "C45_close_refuted", "C46_refuted", "C46_sender_partial", "C51_encrypt_then_decrypt"], "secs": 276, "m": {"id": "n034", "edits": [["Keys.v", "sha512 C (take 32 (sk_Sk sk))", "sha512 C (drop 32 (sk_Sk sk))"]], "definition": "to_curve_sk", "desc": "scalar derived from the public half", "breaks": ["C41", "C01"]}}
{"mid": "n035", "lemmas": ["OpenProofs.keypair_scalar", "Thm_Sign.C41_private_key_conversion"], "hard": [], "failed": ["C01_encrypt_decrypt_round_trip", "C02_stream_round_trip", "C03_encrypted_file_streams", "C03_stream_file_decrypts", "C09_truncated_file", "C10_complete_partial", "C10_refuted_truncation", "C11_released_data_genuine", "C12_authenticated_means_signed", "C13_content_signed_partial", "C13_refuted_recipient_forges", "C14_refuted", "C14_signed_file_partial", "C15_not_a_recipient", "C16_recipients_agree", "C20_no_panic_partial", "C20_refuted", "C28_read_discipline", "C29_refuted", "C29_single_reader_partial", "C41_private_key_conversion", "C46_sender_partial", "C51_encrypt_then_decrypt"], "secs": 282, "m": {"id": "n035", "edits": [["Keys.v", "(c, mkPriv (sk_Sk sk) (Some c) (sk_pk sk))", "(c, mkPriv (sk_Sk sk) (Some (take 32 (sha512 C (take 32 (sk_Sk sk))))) (sk_pk sk))"]], "definition": "to_curve_sk", "desc": "unclamped scalar cached", "breaks": ["C41"]}}
{"mid": "n036", "lemmas": ["Toy.toy_ys_ok", "Thm_Sign.C41_public_key_conversion", "Thm_Cli.C45_close_refuted", "Thm_Commands.C46_refuted"], "hard": [], "failed": ["C21_refuted", "C41_public_key_conversion", "C44_refuted", "C45_close_refuted", "C46_refuted", "C49_refuted", "C50_refuted", "C53_refuted"], "secs": 288, "m": {"id": "n036", "edits": [["Keys.v", "2^255 - 19", "2^255 - 15"]], "definition": "curve_p", "desc": "wrong prime", "breaks": ["C41"]}}
{"mid": "n037", "lemmas": ["KeysProofs.curve_of_spec", "Thm_Sign.C41_public_key_conversion"], "hard": [], "failed": ["C41_public_key_conversion"], "secs": 296, "m": {"id": "n037", "edits": [["Keys.v", "let bigEndianY := upd 0 (fun b => z2b (Z.land (b2z b) 127)) bigEndianY in", ""]], "definition": "curve_of", "desc": "sign bit not cleared", "breaks": ["C41"]}}
{"mid": "n038", "lemmas": ["Toy.toy_ys_ok", "KeysProofs.curve_of_spec", "Thm_Cli.C45_close_refuted", "Thm_Commands.C46_refuted"], "hard": [], "failed": ["C21_refuted", "C41_public_key_conversion", "C44_refuted", "C45_close_refuted", "C46_refuted", "C49_refuted", "C50_refuted", "C53_refuted"], "secs": 295, "m": {"id": "n038", "edits": [["Keys.v", "let d := 1 - y in", "let d := y - 1 in"]], "definition": "curve_of", "desc": "sign of the denominator", "breaks": ["C41"]}}
{"mid": "n039", "lemmas": ["Toy.toy_ys_ok", "KeysProofs.curve_of_spec", "Thm_Cli.C45_close_refuted", "Thm_Commands.C46_refuted"], "hard": [], "failed": ["C21_refuted", "C41_public_key_conversion", "C44_refuted", "C45_close_refuted", "C46_refuted", "C49_refuted", "C50_refuted", "C53_refuted"], "secs": 289, "m": {"id": "n039", "edits": [["Keys.v", "((y + 1) * denom) mod curve_p", "((y + 1) * denom)"]], "definition": "curve_of", "desc": "no reduction mod p", "breaks": ["C41"]}}
{"mid": "n040", "lemmas": ["Thm_Sign.C41_public_key_conversion"], "hard": [], "failed": ["C41_public_key_conversion"], "secs": 314, "m": {"id": "n040", "edits": [["Keys.v", "(Some c) (pk_hash pk))", "None (pk_hash pk))"]], "definition": "to_curve_pk", "desc": "cache not filled (not observable)", "breaks": []}}
{"mid": "n042", "lemmas": ["Thm_Sign.C30_signatures_verify", "Thm_Commands.sign_file_exact"], "hard": [], "failed": ["C30_signatures_verify", "C49_sign_partial", "C52_sign_then_verify"], "secs": 253, "m": {"id": "n042", "edits": [["Sign.v", "(pk_hash (sk_pk sk))", "(sk_Sk sk)"]], "definition": "sign_message", "desc": "signature carries the secret key as key hash", "breaks": ["C30"]}}
{"mid": "n041", "lemmas": ["EncryptProofs.the_trailer_good", "DecryptProofs.process_trailer_spec", "DecryptProofs.process_trailer_ok", "OpenProofs.verify_sender_spec", "OpenProofs.ready_verify_sender", "Thm_Sign.C30_verify_exact", "Thm_Commands.sign_file_exact"], "hard": [], "failed": ["C01_encrypt_decrypt_round_trip", "C01_encrypt_succeeds", "C02_stream_round_trip", "C03_encrypted_file_streams", "C03_stream_file_decrypts", "C04_fragmentation_independent", "C05_file_format", "C06_chunks", "C07_nonces_distinct_partial", "C07_refuted_counter_wraps", "C07_refuted_second_encrypt", "C08_tampered_header", "C09_truncated_file", "C10_complete_partial", "C10_refuted_truncation", "C11_released_data_genuine", "C12_authenticated_means_signed", "C13_content_signed_partial", "C13_refuted_recipient_forges", "C14_refuted", "C14_signed_file_partial", "C16_recipients_agree", "C20_no_panic_partial", "C20_refuted", "C21_encrypt_errors_partial", "C23_refuted", "C24_recipients_partial", "C24_refuted", "C28_read_discipline", "C29_refuted", "C29_single_reader_partial", "C30_verify_exact", "C31_file_signature_binds", "C46_sender_partial", "C47_verify_exact", "C48_encrypt_succeeds", "C49_sign_partial", "C51_encrypt_then_decrypt", "C52_sign_then_verify", "C56_decrypt_ends", "C57_encrypt_size", "C57_stream_size", "C58_file_randomness", "C59_encrypt_against_stream"], "secs": 275, "m": {"id": "n041", "edits": [["Sign.v", "sha512 C (str \"sigtool signed message\" ++ ck)", "sha512 C ck"]], "definition": "msg_digest", "desc": "no domain separation", "breaks": ["C31"]}}
{"mid": "n043", "lemmas": ["Thm_Sign.C30_signatures_verify", "Thm_Sign.C30_verify_exact", "Thm_Commands.C47_verify_exact"], "hard": [], "failed": ["C30_signatures_verify", "C30_verify_exact", "C31_file_signature_binds", "C47_verify_exact", "C52_sign_then_verify"], "secs": 274, "m": {"id": "n043", "edits": [["Sign.v", "beq (pk_hash pk) (sig_pkhash s)", "true"]], "definition": "is_pk_match", "desc": "IsPKMatch always true", "breaks": ["C47"]}}
{"mid": "n044", "lemmas": ["Thm_Sign.file_cksum_holds"], "hard": [], "failed": ["C30_signatures_verify", "C31_file_signature_binds", "C47_verify_exact", "C49_sign_partial", "C52_sign_then_verify", "C53_crash_exactly_partial"], "secs": 270, "m": {"id": "n044", "edits": [["Sign.v", "sha512 C (h ++ be64 sz)", "sha512 C h"]], "definition": "file_cksum", "desc": "file length not hashed", "breaks": ["C31"]}}
{"mid": "n045", "lemmas": ["Thm_Sign.file_cksum_holds"], "hard": [], "failed": ["C30_signatures_verify", "C31_file_signature_binds", "C47_verify_exact", "C49_sign_partial", "C52_sign_then_verify", "C53_crash_exactly_partial"], "secs": 268, "m": {"id": "n045", "edits": [["Sign.v", "sha512 C (h ++ be64 sz)", "sha512 C (be64 sz)"]], "definition": "file_cksum", "desc": "file content not hashed", "breaks": ["C31"]}}
{"mid": "n046", "lemmas": ["Thm_Sign.file_cksum_unreadable", "Thm_Commands.C47_verify_exact", "Thm_Commands.sign_file_exact", "Thm_Chain.C53_crash_exactly_partial"], "hard": [], "failed": ["C30_signatures_verify", "C47_verify_exact", "C49_sign_partial", "C52_sign_then_verify", "C53_crash_exactly_partial"], "secs": 229, "m": {"id": "n046", "edits": [["Sign.v", "| Some e => Fail e\n      | None =>", "| _ =>"]], "definition": "file_cksum", "desc": "read error while hashing ignored", "breaks": ["C30", "C47"]}}
{"mid": "n047", "lemmas": ["Thm_Sign.file_cksum_holds"], "hard": [], "failed": ["C30_signatures_verify", "C31_file_signature_binds", "C47_verify_exact", "C49_sign_partial", "C52_sign_then_verify", "C53_crash_exactly_partial"], "secs": 186, "m": {"id": "n047", "edits": [["Sign.v", "fold_left (fun h b => h ++ b) windows []", "fold_left (fun h b => b) windows []"]], "definition": "file_cksum", "desc": "only the last window hashed", "breaks": ["C31"]}}
{"mid": "n048", "lemmas": ["Thm_Sign.C30_signatures_verify", "Thm_Sign.C31_file_signature_binds", "Thm_Commands.verify_file_exact", "Thm_Chain.C53_crash_exactly_partial"], "hard": [], "failed": ["C30_signatures_verify", "C31_file_signature_binds", "C47_verify_exact", "C52_sign_then_verify", "C53_crash_exactly_partial"], "secs": 210, "m": {"id": "n048", "edits": [["Sign.v", "verify_message C pk ck s", "(ok <- verify_message C pk ck s ;; Ok true)"]], "definition": "verify_file", "desc": "VerifyFile ignores the result", "breaks": ["C47"]}}
