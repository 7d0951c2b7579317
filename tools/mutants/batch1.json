[{"id": "p001", "edits": [["Ssh.v", "if u32 (len inp) <? length then None", "if u32 (len inp) <=? length then None"]], "definition": "parse_string", "desc": "a string filling the rest is rejected", "breaks": ["C37", "C39"]}, {"id": "p002", "edits": [["Ssh.v", "Some (take length inp, drop length inp)", "Some (take length inp, drop (length + 1) inp)"]], "definition": "parse_string", "desc": "string parser drops a byte", "breaks": ["C37", "C39"]}, {"id": "p003", "edits": [["Ssh.v", "| Some (vs, []) => Some vs\n       | _ => None", "| Some (vs, _) => Some vs\n       | _ => None"]], "definition": "ssh_unmarshal", "desc": "trailing data accepted by Unmarshal", "breaks": ["C39"]}, {"id": "p004", "edits": [["Ssh.v", "if negb (beq algo algo_ed25519) then Ok None\n      else", ""]], "definition": "parse_enc_pubkey", "desc": "algorithm name not checked", "breaks": ["C37", "C38"]}, {"id": "p005", "edits": [["Ssh.v", "if 0 <? len rest then Fail ErrBadTrailers\n               else", ""]], "definition": "parse_enc_pubkey", "desc": "trailing junk accepted", "breaks": ["C37"]}, {"id": "p006", "edits": [["Ssh.v", "(trim_space comm)", "comm"]], "definition": "parse_enc_pubkey", "desc": "comment not trimmed", "breaks": ["C37"]}, {"id": "p007", "edits": [["Ssh.v", "| [_; v1; v2] => parse_enc_pubkey C v1 v2", "| [v0; v1; v2] => parse_enc_pubkey C v1 v0"]], "definition": "parse_ssh_pubkey", "desc": "key type used as comment", "breaks": ["C37"]}, {"id": "p008", "edits": [["Ssh.v", "| [_; v1; v2] => parse_enc_pubkey C v1 v2", "| _ :: v1 :: v2 :: _ => parse_enc_pubkey C v1 v2"]], "definition": "parse_ssh_pubkey", "desc": "lines with more than three words accepted", "breaks": ["C37"]}, {"id": "p009", "edits": [["Ssh.v", "parse_enc_pubkey C (take i inp) (drop i inp)", "parse_enc_pubkey C (take i inp) []"]], "definition": "parse_authorized_key", "desc": "comment dropped", "breaks": ["C38"]}, {"id": "p010", "edits": [["Ssh.v", "if negb inq && is_blank b then i", "if is_blank b then i"]], "definition": "opt_end", "desc": "quoted blanks end the options field", "breaks": ["C38"]}, {"id": "p011", "edits": [["Ssh.v", "(i =? 0) || negb (Byte.eqb prev x5c)", "true"]], "definition": "opt_end", "desc": "escaped quote ends the quoted string", "breaks": ["C38"]}, {"id": "p012", "edits": [["Ssh.v", "| x23 :: _ => Ok []\n", ""]], "definition": "auth_line", "desc": "comment lines not skipped", "breaks": ["C38"]}, {"id": "p013", "edits": [["Ssh.v", "| Ok None => Ok []\n          | Panic w => Panic w\n          | Fail _ =>", "| Panic w => Panic w\n          | _ =>"]], "definition": "auth_line", "desc": "other key types fall through to the options parser", "breaks": ["C38"]}, {"id": "p014", "edits": [["Ssh.v", "let inp := match find_byte (Byte.eqb x0d) inp with Some e => take e inp | None => inp end in", ""]], "definition": "auth_line", "desc": "CR not cut off", "breaks": ["C38"]}, {"id": "p015", "edits": [["Ssh.v", "auth_loop C f rest (pka ++ ks)", "auth_loop C f rest (ks ++ pka)"]], "definition": "auth_loop", "desc": "keys returned in reverse order", "breaks": ["C38"]}, {"id": "p016", "edits": [["Ssh.v", "(take e inp, drop (e + 1) inp)", "(take e inp, drop (e + 2) inp)"]], "definition": "auth_loop", "desc": "first byte of each following line lost", "breaks": ["C38"]}, {"id": "p017", "edits": [["Ssh.v", "auth_loop C f rest (pka ++ ks)", "Ok (pka ++ ks)"]], "definition": "auth_loop", "desc": "only the first line read", "breaks": ["C38"]}, {"id": "p018", "edits": [["Ssh.v", "if rounds <? 1 then", "if rounds <? 0 then"]], "definition": "bcrypt_key", "desc": "KDF contract (external)", "breaks": []}, {"id": "p019", "edits": [["Ssh.v", "Ok (take 16 (drop 32 k), take 32 k)", "Ok (take 16 k, take 32 (drop 16 k))"]], "definition": "extract_bcrypt", "desc": "iv and key cut in the wrong order", "breaks": ["C39"]}, {"id": "p020", "edits": [["Ssh.v", "(b2z b =? i + 1)", "(b2z b =? i)"]], "definition": "good_pad", "desc": "padding 0,1,2,...", "breaks": ["C39"]}, {"id": "p021", "edits": [["Ssh.v", "&& good_pad pad' (i + 1)", ""]], "definition": "good_pad", "desc": "only the first padding byte checked", "breaks": ["C39"]}, {"id": "p022", "edits": [["Ssh.v", "if negb (c1 =? c2) then Fail ErrIncorrectPassword\n      else", ""]], "definition": "open_section", "desc": "check words not compared", "breaks": ["C39"]}, {"id": "p023", "edits": [["Ssh.v", "if negb (len priv =? 64) then Fail ErrBadLength\n               else", ""]], "definition": "open_section", "desc": "length check left to the key constructor (error changes only)", "breaks": []}, {"id": "p024", "edits": [["Ssh.v", "if negb (beq kt algo_ed25519) then Fail (EMsg \"ssh: unhandled key type: %v\")\n      else", ""]], "definition": "open_section", "desc": "key type of the private section not checked", "breaks": ["C39"]}, {"id": "p025", "edits": [["Ssh.v", "make_private_from_bytes C zero_priv priv", "make_private_from_bytes C zero_priv (pub ++ drop 32 priv)"]], "definition": "open_section", "desc": "key bytes taken from the public part", "breaks": ["C39"]}, {"id": "p026", "edits": [["Ssh.v", "if negb (numkeys =? 1) then Fail (EMsg \"ssh: NumKeys must be 1: %d\")\n        else", ""]], "definition": "parse_openssh_private", "desc": "any number of keys accepted", "breaks": ["C39"]}, {"id": "p027", "edits": [["Ssh.v", "else if beq kdf (str \"none\") && beq cipher (str \"none\") then", "else if beq cipher (str \"none\") then"]], "definition": "parse_openssh_private", "desc": "kdf not checked for unencrypted containers", "breaks": ["C39"]}, {"id": "p028", "edits": [["Ssh.v", "if negb (len block mod 16 =? 0) then Panic \"crypto/cipher: input not full blocks\"\n          else", ""]], "definition": "parse_openssh_private", "desc": "(a fix) no panic on a partial CBC block", "breaks": ["C36", "C39"]}, {"id": "p029", "edits": [["Ssh.v", "if pem_encrypted b then Fail (EMsg \"ssh: no support for legacy PEM encrypted keys\")\n      else", ""]], "definition": "parse_ssh_private", "desc": "legacy encrypted PEM accepted", "breaks": ["C39"]}, {"id": "p030", "edits": [["Ssh.v", "if beq (pem_type b) (str \"OPENSSH PRIVATE KEY\") then", "if true then"]], "definition": "parse_ssh_private", "desc": "PEM type not checked", "breaks": ["C39"]}, {"id": "p031", "edits": [["GoText.v", "if inrun then split_blanks s' [] true else", "if false then split_blanks s' [] true else"]], "definition": "split_blanks", "desc": "runs of blanks give empty words", "breaks": ["C37"]}, {"id": "p032", "edits": [["GoText.v", "rev (strip (map (@rev byte) space_forms) (List.length s) (rev s))", "s"]], "definition": "trim_space", "desc": "trailing space not trimmed", "breaks": ["C37", "C38"]}, {"id": "p033", "edits": [["GoText.v", "Byte.eqb c x20 || Byte.eqb c x09", "Byte.eqb c x20"]], "definition": "is_blank", "desc": "tabs are not blanks", "breaks": ["C37", "C38"]}, {"id": "p034", "edits": [["Pb.v", "(Z.log2 (Z.lor x 1) + 1 + 6) / 7", "(Z.log2 (Z.lor x 1) + 6) / 7"]], "definition": "size_varint", "desc": "varint size one short at powers", "breaks": ["C25"]}, {"id": "p035", "edits": [["Pb.v", "if h_chunk m =? 0 then 0 else 1 + size_varint (h_chunk m)", "if h_chunk m =? 0 then 0 else 1 + 4"]], "definition": "size_header", "desc": "fixed size for the chunk size field", "breaks": ["C25"]}, {"id": "p036", "edits": [["Pb.v", "Z.shiftr v 7", "Z.shiftr v 8"]], "definition": "put_varint", "desc": "varint shift by 8", "breaks": ["C25"]}, {"id": "p037", "edits": [["Pb.v", "push_keys ks (z2b 42 ::", "push_keys ks (z2b 34 ::"]], "definition": "push_keys", "desc": "wrapped keys written with the tag of Sender", "breaks": ["C25"]}, {"id": "p038", "edits": [["Pb.v", "push_keys (rev (h_keys m)) a", "push_keys (h_keys m) a"]], "definition": "marshal_fields", "desc": "wrapped keys written in reverse order", "breaks": ["C25", "C48"]}, {"id": "p039", "edits": [["Pb.v", "let a := push_field 34 (h_sender m) a in", ""]], "definition": "marshal_fields", "desc": "sender field not written", "breaks": ["C25"]}, {"id": "p040", "edits": [["Pb.v", "let a := h_unk m in", "let a := [] in"]], "definition": "marshal_fields", "desc": "unknown fields dropped when writing", "breaks": ["C25"]}, {"id": "p041", "edits": [["Pb.v", "if 64 <=? shift then Fail (EMsg \"proto: integer overflow\")\n      else if l <=? idx then Fail ErrUnexpectedEOF\n      else\n        b <- at_", "if 63 <=? shift then Fail (EMsg \"proto: integer overflow\")\n      else if l <=? idx then Fail ErrUnexpectedEOF\n      else\n        b <- at_"]], "definition": "get_varint", "desc": "varint overflow bound off by one round", "breaks": ["C25", "C26"]}, {"id": "p042", "edits": [["Pb.v", "else if l <=? idx then Fail ErrUnexpectedEOF\n      else\n        b <- at_ d idx", "else\n        b <- at_ d idx"]], "definition": "get_varint", "desc": "no bounds check in the varint loop", "breaks": ["C26"]}, {"id": "p043", "edits": [["Pb.v", "mod 2 ^ bits", "mod 2 ^ 64"]], "definition": "get_varint", "desc": "chunk size not truncated to 32 bits", "breaks": ["C26"]}, {"id": "p044", "edits": [["Pb.v", "if byteLen <? 0 then Fail (EMsg \"proto: negative length found during unmarshaling\")\n  else", ""]], "definition": "get_bytes", "desc": "negative length not rejected", "breaks": ["C26"]}, {"id": "p045", "edits": [["Pb.v", "else if len d <? post then Fail ErrUnexpectedEOF\n", ""]], "definition": "get_bytes", "desc": "field running past the end not rejected", "breaks": ["C26"]}, {"id": "p046", "edits": [["Pb.v", "if depth =? 0 then Fail (EMsg \"proto: unexpected end of group\") else Ok (i1, depth - 1)", "Ok (i1, depth - 1)"]], "definition": "skip_loop", "desc": "unbalanced end of group", "breaks": ["C26"]}, {"id": "p047", "edits": [["Pb.v", "else if wt =? 5 then Ok (i64 (i1 + 4), depth)", "else if wt =? 5 then Ok (i64 (i1 + 8), depth)"]], "definition": "skip_loop", "desc": "fixed32 skipped as 8 bytes", "breaks": ["C26"]}, {"id": "p048", "edits": [["Pb.v", "else if wt =? 1 then Ok (i64 (i1 + 8), depth)", "else if wt =? 1 then Ok (i64 (i1 + 4), depth)"]], "definition": "skip_loop", "desc": "fixed64 skipped as 4 bytes", "breaks": ["C26"]}, {"id": "p049", "edits": [["Pb.v", "else if len d <? pre + skippy then Fail ErrUnexpectedEOF\n  else", "else"]], "definition": "get_unknown", "desc": "unknown field past the end", "breaks": ["C26"]}, {"id": "p050", "edits": [["Pb.v", "else if fieldNum <=? 0 then Fail (EMsg \"proto: illegal tag\")\n  else", "else"]], "definition": "get_tag", "desc": "field number 0 accepted", "breaks": ["C26"]}, {"id": "p051", "edits": [["Pb.v", "(mkWkey (w_dkey m) (w_nonce m) (w_unk m ++ b))", "(mkWkey (w_dkey m) (w_nonce m) b)"]], "definition": "unmarshal_wkey_loop", "desc": "only the last unknown field of a wrapped key kept", "breaks": ["C26"]}, {"id": "p052", "edits": [["Pb.v", "unmarshal_wkey_loop f d i2 (mkWkey b (w_nonce m) (w_unk m))", "unmarshal_wkey_loop f d i2 (mkWkey (w_dkey m ++ b) (w_nonce m) (w_unk m))"]], "definition": "unmarshal_wkey_loop", "desc": "repeated DKey fields concatenated", "breaks": ["C26"]}, {"id": "p053", "edits": [["Pb.v", "(h_keys m ++ [k]) (h_unk m)", "(k :: h_keys m) (h_unk m)"]], "definition": "unmarshal_header_loop", "desc": "wrapped keys read in reverse order", "breaks": ["C25"]}, {"id": "p054", "edits": [["Pb.v", "(h_keys m) (h_unk m ++ b))", "(h_keys m) (h_unk m))"]], "definition": "unmarshal_header_loop", "desc": "unknown header fields dropped", "breaks": ["C26"]}, {"id": "p055", "edits": [["Pb.v", "if negb (wireType =? 0) then Fail (EMsg \"proto: wrong wireType for field ChunkSize\")\n          else", ""]], "definition": "unmarshal_header_loop", "desc": "wire type of ChunkSize not checked", "breaks": ["C26"]}, {"id": "p056", "edits": [["Fs.v", "else Fail (EMsg \"safefile: won't overwrite existing %s\")", "else Ok tt"]], "definition": "safe_open", "desc": "existing file overwritten without the flag", "breaks": ["C42", "C43"]}, {"id": "p057", "edits": [["Fs.v", "| None => match se_open v with Some e => Fail e | None => Ok tt end", "| None => Ok tt"]], "definition": "safe_open", "desc": "open error ignored", "breaks": ["C42"]}, {"id": "p058", "edits": [["Fs.v", "| None => OSync (se_ino v) ::\n         match", "| None => \n         match"]], "definition": "sf_ops", "desc": "no fsync before the rename", "breaks": ["C42", "C45"]}, {"id": "p059", "edits": [["Fs.v", "if (0 <? w_nclosed w) && negb (write_failed v w) then", "if (0 <? w_nclosed w) then"]], "definition": "sf_ops", "desc": "renamed in spite of a failed write", "breaks": ["C42"]}, {"id": "p060", "edits": [["Fs.v", "if (0 <? w_nclosed w) && negb (write_failed v w) then", "if negb (write_failed v w) then"]], "definition": "sf_ops", "desc": "renamed without Close", "breaks": ["C42", "C45"]}, {"id": "p061", "edits": [["Fs.v", "   else [ORemove (se_tmp v)]).", "   else [])."]], "definition": "sf_ops", "desc": "temporary file left behind", "breaks": ["C42"]}, {"id": "p062", "edits": [["Fs.v", "OCreate (se_tmp v) (se_ino v) :: OAppend", "OCreate dst (se_ino v) :: OAppend"]], "definition": "sf_ops", "desc": "written in place", "breaks": ["C42"]}, {"id": "p063", "edits": [["Fs.v", "match se_sync v with Some e => Some e | None => match se_close v with Some e => Some e | None => se_rename v end end", "match se_sync v with Some e => Some e | None => se_close v end"]], "definition": "close_err", "desc": "rename error not reported", "breaks": ["C42", "C45"]}, {"id": "p064", "edits": [["Fs.v", "| (Some e, w) => (sf_ops v dst w, Fail e)\n                     | (None, w) => (sf_ops v dst w, Ok tt)", "| (_, w) => (sf_ops v dst w, Ok tt)"]], "definition": "write_file", "desc": "Close error of writeFile ignored", "breaks": ["C42"]}, {"id": "p065", "edits": [["Fs.v", "| (Some e, w) => (sf_ops v dst w, Fail e)\n      | (None, w) => match w_close", "| (_, w) => match w_close"]], "definition": "write_file", "desc": "Write error of writeFile ignored", "breaks": ["C42"]}, {"id": "p066", "edits": [["Store.v", "(write_file v f dst b overwrite, g)", "(write_file v f dst b true, g)"]], "definition": "serialize_private", "desc": "private key always overwritten", "breaks": ["C42", "C43"]}, {"id": "p067", "edits": [["Store.v", "| (Fail e, g) => ([], Fail e, g)", "| (Fail e, g) => ([], Ok tt, g)"]], "definition": "serialize_private", "desc": "marshal error swallowed", "breaks": ["C42", "C43"]}, {"id": "p068", "edits": [["Store.v", "write_file v f dst (marshal_public E pk comment) overwrite", "write_file v f dst (marshal_public E pk []) overwrite"]], "definition": "serialize_public", "desc": "comment dropped", "breaks": ["C43"]}, {"id": "p069", "edits": [["Cli.v", "if nopw then Ok []\n  else", ""]], "definition": "get_pass", "desc": "--no-password ignored", "breaks": ["C43", "C47"]}, {"id": "p070", "edits": [["Cli.v", "(exists_ W pkn || exists_ W skn)", "(exists_ W pkn && exists_ W skn)"]], "definition": "cli_generate", "desc": "refused only if both files exist", "breaks": ["C43"]}, {"id": "p071", "edits": [["Cli.v", "let skn := wo_clean W bn ++ str \".key\" in", "let skn := wo_clean W bn ++ str \".pub\" in"]], "definition": "cli_generate", "desc": "both keys in one file", "breaks": ["C43"]}, {"id": "p072", "edits": [["Cli.v", "if negb (ge_force o) && (exists_ W pkn || exists_ W skn) then done 1 []\n      else", ""]], "definition": "cli_generate", "desc": "no check of existing files", "breaks": ["C43"]}, {"id": "p073", "edits": [["Cli.v", "serialize_public E v2 (run_ops (wo_fs W) ops1) (wo_place W pkn) (sk_pk sk) (ge_comment o) (ge_force o)", "serialize_public E v2 (run_ops (wo_fs W) ops1) (wo_place W pkn) (sk_pk (new_private_key C (zeros 32))) (ge_comment o) (ge_force o)"]], "definition": "cli_generate", "desc": "public key of another pair written", "breaks": ["C43", "C50"]}, {"id": "p074", "edits": [["Cli.v", "done (code_of r) (ops1 ++ ops2)", "done 0 (ops1 ++ ops2)"]], "definition": "cli_generate", "desc": "failure to write the public key ignored", "breaks": ["C43"]}, {"id": "p075", "edits": [["Cli.v", "(if beq (pk_comment pk) fn then Some pk else found)", "(if beq (pk_comment pk) fn then (match found with None => Some pk | x => x end) else found)"]], "definition": "keymap_get", "desc": "first matching entry wins instead of the last", "breaks": ["C48"]}, {"id": "p076", "edits": [["Cli.v", "| Fail _ => enc_recipients C E W pka fns' e g (errs + 1)", "| Fail _ => enc_recipients C E W pka fns' e g errs"]], "definition": "enc_recipients", "desc": "unresolved recipients skipped", "breaks": ["C48"]}, {"id": "p077", "edits": [["Cli.v", "if is_user fn then", "if true then"]], "definition": "enc_recipients", "desc": "recipient files not read", "breaks": ["C48"]}, {"id": "p078", "edits": [["Cli.v", "if 0 <? errs then (1, w)\n          else", ""]], "definition": "enc_body", "desc": "errors counted but ignored", "breaks": ["C48"]}, {"id": "p079", "edits": [["Cli.v", "(0, snd (w_close w))\n               | (_, _, w, _, r) => (code_of r, w)", "(0, snd (w_close w))\n               | (_, _, w, _, r) => (0, snd (w_close w))"]], "definition": "enc_body", "desc": "failed encryption exits 0", "breaks": ["C48"]}, {"id": "p080", "edits": [["Cli.v", "(removelast (eo_args o)) rd)", "(tl (eo_args o)) rd)"]], "definition": "cli_encrypt", "desc": "first recipient dropped, input file taken as recipient", "breaks": ["C48"]}, {"id": "p081", "edits": [["Cli.v", "let infile := last (eo_args o) [] in", "let infile := hd [] (eo_args o) in"]], "definition": "cli_encrypt", "desc": "wrong argument taken as input", "breaks": ["C48", "C51"]}, {"id": "p082", "edits": [["Cli.v", "if len (eo_args o) <? 2 then done 1\n          else", ""]], "definition": "cli_encrypt", "desc": "missing recipients not detected", "breaks": ["C48"]}, {"id": "p083", "edits": [["Cli.v", "then sk <- read_private_key C E (slurp W (eo_keyfile o)) (Some (get_pass W (eo_nopw o) (eo_envpw o))) ;; Ok (Some sk)\n             else Ok None", "then Ok None\n             else Ok None"]], "definition": "cli_encrypt", "desc": "signing key ignored", "breaks": ["C51", "C48"]}, {"id": "p084", "edits": [["Cli.v", "| (_, w, r) => (code_of r, w)\n          end", "| (_, w, r) => (code_of r, snd (w_close w))\n          end"]], "definition": "dec_body", "desc": "partial output committed after a failure", "breaks": ["C45"]}, {"id": "p085", "edits": [["Cli.v", "match set_private_key C d sk pk with", "match set_private_key C d sk None with"]], "definition": "dec_body", "desc": "-v ignored", "breaks": ["C46"]}, {"id": "p086", "edits": [["Cli.v", "if do_test o then done (fst (dec_body C sk pk rd (mkWriter [] [] [] 0)))\n                  else", ""]], "definition": "cli_decrypt", "desc": "--test writes output", "breaks": ["C45"]}, {"id": "p087", "edits": [["Cli.v", "(if 0 <? len (do_pubkey o) then pk <- read_public_key C E (slurp W (do_pubkey o)) ;; Ok (Some pk) else Ok None)", "(if 0 <? len (do_pubkey o) then match read_public_key C E (slurp W (do_pubkey o)) with Ok pk => Ok (Some pk) | _ => Ok None end else Ok None)"]], "definition": "cli_decrypt", "desc": "unreadable sender key ignored", "breaks": ["C46"]}, {"id": "p088", "edits": [["Cli.v", "let '(c, w) := body (sf_sink v) in mkOut c (sf_ops v (wo_place W outfile) w) (wo_stdout W)", "let '(c, w) := body (sf_sink v) in mkOut c (sf_ops v (wo_place W outfile) (snd (w_close w))) (wo_stdout W)"]], "definition": "with_output", "desc": "output committed at exit whatever happened", "breaks": ["C45", "C48"]}, {"id": "p089", "edits": [["Cli.v", "safe_open v (wo_fs W) (wo_place W outfile) force", "safe_open v (wo_fs W) (wo_place W outfile) true"]], "definition": "with_output", "desc": "--overwrite not needed", "breaks": ["C45", "C49"]}, {"id": "p090", "edits": [["Cli.v", "negb (beq o (str \"-\"))", "true"]], "definition": "names_file", "desc": "\"-\" taken as a file name", "breaks": ["C45", "C48"]}, {"id": "p091", "edits": [["Cli.v", "| r => (code_of r, w)\n      end\n  | r => (code_of r, w)", "| r => (0, w)\n      end\n  | r => (code_of r, w)"]], "definition": "sign_body", "desc": "failed signing exits 0", "breaks": ["C49"]}, {"id": "p092", "edits": [["Cli.v", "(str \"input=\" ++ fn)", "[]"]], "definition": "sign_body", "desc": "comment without the file name", "breaks": []}, {"id": "p093", "edits": [["Cli.v", "else fn ++ str \".sig\" in", "else fn in"]], "definition": "cli_sign", "desc": "signature replaces the input file", "breaks": ["C49"]}, {"id": "p094", "edits": [["Cli.v", "(negb (beq outf (str \"-\"))) (so_force o)", "(negb (beq outf (str \"-\"))) true"]], "definition": "cli_sign", "desc": "existing signature overwritten", "breaks": ["C49"]}, {"id": "p095", "edits": [["Cli.v", "if negb (is_pk_match sig pk) then 1\n                  else", ""]], "definition": "cli_verify", "desc": "key hash not compared", "breaks": ["C47"]}, {"id": "p096", "edits": [["Cli.v", "| Ok false => 1", "| Ok false => 0"]], "definition": "cli_verify", "desc": "failed verification exits 0", "breaks": ["C47"]}, {"id": "p097", "edits": [["Cli.v", "| pn :: sn :: fn :: _ =>", "| pn :: fn :: sn :: _ =>"]], "definition": "cli_verify", "desc": "arguments swapped", "breaks": ["C47"]}, {"id": "p098", "edits": [["Cli.v", "| Fail _ => pk <- read_public_key C E (slurp W pn) ;; Ok (Some pk)", "| Fail e => Fail e"]], "definition": "cli_verify", "desc": "public key files not read", "breaks": ["C47", "C52"]}, {"id": "n001", "edits": [["Stream.v", "(e_sender e) (e_auth e) (e_started e) true, w", "(e_sender e) (e_auth e) (e_started e) (e_stream e), w"]], "definition": "new_stream_writer", "desc": "stream flag not set", "breaks": ["C18"]}, {"id": "n002", "edits": [["Stream.v", "if (len buf =? max) && (0 <? len b) then", "if (len buf =? max) then"]], "definition": "ew_loop", "desc": "a full last chunk is flushed by Write, Close adds an empty frame", "breaks": ["C06"]}, {"id": "n003", "edits": [["Stream.v", "ew_loop C f e w g (mkEw [] (u32 (ew_blk s + 1)) (ew_err s)) b", "ew_loop C f e w g (mkEw [] (ew_blk s) (ew_err s)) b"]], "definition": "ew_loop", "desc": "block number not incremented by Write", "breaks": ["C07", "C02"]}, {"id": "n004", "edits": [["Stream.v", "| Fail x => (e, w, g, mkEw buf (ew_blk s) (Some x), Fail x)", "| Fail x => (e, w, g, mkEw buf (ew_blk s) (ew_err s), Fail x)"]], "definition": "ew_loop", "desc": "Write error not remembered", "breaks": ["C27"]}, {"id": "n005", "edits": [["Stream.v", "let z := Z.min (max - len (ew_buf s)) (len b) in", "let z := Z.min (max - len (ew_buf s) - 1) (len b) in"]], "definition": "ew_loop", "desc": "off by one when filling the buffer", "breaks": ["C02"]}, {"id": "n006", "edits": [["Stream.v", "(match rs with Ok _ => len b | _ => 0 end, rs)", "(len b, rs)"]], "definition": "ew_write", "desc": "failed Write reports len(b)", "breaks": ["C27"]}, {"id": "n007", "edits": [["Stream.v", "| Some x => (e, w, g, s, (0, Fail x))", "| Some x => (e, w, g, s, (0, Ok tt))"]], "definition": "ew_write", "desc": "Write after an error succeeds silently", "breaks": ["C27"]}, {"id": "n008", "edits": [["Stream.v", "enc_block C e (ew_buf s) w (ew_blk s) true g", "enc_block C e (ew_buf s) w (ew_blk s) false g"]], "definition": "ew_close", "desc": "Close does not mark the last frame", "breaks": ["C02", "C06"]}, {"id": "n009", "edits": [["Stream.v", "let s := mkEw [] (ew_blk s) (Some ErrClosed) in", "let s := mkEw [] (ew_blk s) None in"]], "definition": "ew_close", "desc": "Close does not mark the writer closed", "breaks": ["C27"]}, {"id": "n010", "edits": [["Stream.v", "| Fail x => (e, w, g, mkEw (ew_buf s) (ew_blk s) (Some x), Fail x)", "| Fail x => (e, w, g, s, Fail x)"]], "definition": "ew_close", "desc": "Close error not remembered", "breaks": ["C27"]}, {"id": "n011", "edits": [["Stream.v", "| (Some x, w) => (e, w, g, s, Fail x)\n          end", "| (Some x, w) => (e, w, g, s, Ok tt)\n          end"]], "definition": "ew_close", "desc": "error of the destination's Close swallowed", "breaks": ["C27"]}, {"id": "n012", "edits": [["Stream.v", "| None => (d, Fail ErrNoKey)", "| None => (d, Ok (mkEr 0 0 0 None))"]], "definition": "new_stream_reader", "desc": "stream reader without a key", "breaks": ["C15"]}, {"id": "n013", "edits": [["Stream.v", "if d_eof d then (d, Fail IoEOF)\n      else", ""]], "definition": "new_stream_reader", "desc": "stream reader after EOF", "breaks": ["C18"]}, {"id": "n014", "edits": [["Stream.v", "(d_set_stream d, Ok (mkEr 0 0 0 None))", "(d, Ok (mkEr 0 0 0 None))"]], "definition": "new_stream_reader", "desc": "stream mode not recorded", "breaks": ["C18"]}, {"id": "n015", "edits": [["Stream.v", "mkEr (er_off s + m) (er_len s - m)", "mkEr (er_off s) (er_len s - m)"]], "definition": "er_deliver", "desc": "read offset not advanced", "breaks": ["C02"]}, {"id": "n016", "edits": [["Stream.v", "  else (d, mkEr (er_off s) (er_len s) (er_blk s) (Some IoEOF), ([], Fail IoEOF))", "  else (d, mkEr (er_off s) (er_len s) (er_blk s) (er_err s), ([], Fail IoEOF))"]], "definition": "er_deliver", "desc": "EOF not remembered when the last frame is empty", "breaks": ["C28"]}, {"id": "n017", "edits": [["Stream.v", "let m := Z.min n (er_len s) in", "let m := er_len s in"]], "definition": "er_deliver", "desc": "Read returns more than the buffer holds", "breaks": ["C28"]}, {"id": "n018", "edits": [["Stream.v", "| Some x => (d, s, ([], Fail x))", "| Some x => (d, s, ([], Fail IoEOF))"]], "definition": "er_read", "desc": "later Reads report EOF whatever the error was", "breaks": ["C28"]}, {"id": "n019", "edits": [["Stream.v", "er_deliver (d_set_eof d eof) (mkEr 0 m (u32 (er_blk s + 1)) None) n", "er_deliver d (mkEr 0 m (u32 (er_blk s + 1)) None) n"]], "definition": "er_read", "desc": "eof not recorded by Read", "breaks": ["C02", "C28"]}, {"id": "n020", "edits": [["Stream.v", "(mkEr 0 m (u32 (er_blk s + 1)) None)", "(mkEr 0 m (er_blk s) None)"]], "definition": "er_read", "desc": "block number not advanced by Read", "breaks": ["C02"]}, {"id": "n021", "edits": [["Stream.v", "| (d, Fail x) => (d, mkEr (er_off s) (er_len s) (er_blk s) (Some x), ([], Fail x))", "| (d, Fail x) => (d, s, ([], Fail x))"]], "definition": "er_read", "desc": "Read error not remembered", "breaks": ["C28"]}, {"id": "n022", "edits": [["GoIO.v", "| None => fullwrite_loop s' (drop (len a) buf) (out ++ a)", "| None => (None, out ++ a, s')"]], "definition": "fullwrite_loop", "desc": "short write taken for a complete one", "breaks": ["C22", "C21"]}, {"id": "n023", "edits": [["GoIO.v", "| None => fullwrite_loop s' (drop (len a) buf) (out ++ a)", "| None => fullwrite_loop s' buf (out ++ a)"]], "definition": "fullwrite_loop", "desc": "bytes written twice after a short write", "breaks": ["C22"]}, {"id": "n024", "edits": [["GoIO.v", "| Some x => (Some x, out ++ a, s')", "| Some x => (None, out ++ a, s')"]], "definition": "fullwrite_loop", "desc": "write error swallowed", "breaks": ["C22", "C21"]}, {"id": "n025", "edits": [["GoIO.v", "Some (if 0 <? len b then ErrUnexpectedEOF else IoEOF)", "Some IoEOF"]], "definition": "read_full", "desc": "short read reported as EOF (environment contract)", "breaks": []}, {"id": "n026", "edits": [["Keys.v", "take 16 (sha256 C pk)", "take 8 (sha256 C pk)"]], "definition": "pkhash", "desc": "8-byte key hash", "breaks": ["C33"]}, {"id": "n027", "edits": [["Keys.v", "if negb (len b =? 32) then", "if (len b <? 32) then"]], "definition": "make_public_from_bytes", "desc": "longer public keys accepted", "breaks": ["C33", "C37"]}, {"id": "n028", "edits": [["Keys.v", "(pk_ck pk) (pkhash C b)", "None (pkhash C b)"]], "definition": "make_public_from_bytes", "desc": "cache reset (a fix: C35_refuted must stop holding)", "breaks": ["C35"]}, {"id": "n029", "edits": [["Keys.v", "if negb (len buf =? 64)", "if (len buf <? 64)"]], "definition": "make_private_from_bytes", "desc": "longer private keys accepted", "breaks": ["C34"]}, {"id": "n030", "edits": [["Keys.v", "let edpk := drop 32 buf in", "let edpk := take 32 buf in"]], "definition": "make_private_from_bytes", "desc": "public half taken from the seed", "breaks": ["C34", "C39"]}, {"id": "n031", "edits": [["Keys.v", "mkPriv (seed ++ pkb) None", "mkPriv (pkb ++ seed) None"]], "definition": "new_private_key", "desc": "halves of the private key swapped", "breaks": ["C30", "C43"]}, {"id": "n032", "edits": [["Keys.v", "(Z.land (b2z b) 248)", "(Z.land (b2z b) 252)"]], "definition": "clamp", "desc": "clamp keeps bit 2", "breaks": ["C41"]}, {"id": "n033", "edits": [["Keys.v", "(Z.lor (b2z b) 64)", "(Z.lor (b2z b) 32)"]], "definition": "clamp", "desc": "clamp sets the wrong bit", "breaks": ["C41"]}, {"id": "n034", "edits": [["Keys.v", "sha512 C (take 32 (sk_Sk sk))", "sha512 C (drop 32 (sk_Sk sk))"]], "definition": "to_curve_sk", "desc": "scalar derived from the public half", "breaks": ["C41", "C01"]}, {"id": "n035", "edits": [["Keys.v", "(c, mkPriv (sk_Sk sk) (Some c) (sk_pk sk))", "(c, mkPriv (sk_Sk sk) (Some (take 32 (sha512 C (take 32 (sk_Sk sk))))) (sk_pk sk))"]], "definition": "to_curve_sk", "desc": "unclamped scalar cached", "breaks": ["C41"]}, {"id": "n036", "edits": [["Keys.v", "2^255 - 19", "2^255 - 15"]], "definition": "curve_p", "desc": "wrong prime", "breaks": ["C41"]}, {"id": "n037", "edits": [["Keys.v", "let bigEndianY := upd 0 (fun b => z2b (Z.land (b2z b) 127)) bigEndianY in", ""]], "definition": "curve_of", "desc": "sign bit not cleared", "breaks": ["C41"]}, {"id": "n038", "edits": [["Keys.v", "let d := 1 - y in", "let d := y - 1 in"]], "definition": "curve_of", "desc": "sign of the denominator", "breaks": ["C41"]}, {"id": "n039", "edits": [["Keys.v", "((y + 1) * denom) mod curve_p", "((y + 1) * denom)"]], "definition": "curve_of", "desc": "no reduction mod p", "breaks": ["C41"]}, {"id": "n040", "edits": [["Keys.v", "(Some c) (pk_hash pk))", "None (pk_hash pk))"]], "definition": "to_curve_pk", "desc": "cache not filled (not observable)", "breaks": []}, {"id": "n041", "edits": [["Sign.v", "sha512 C (str \"sigtool signed message\" ++ ck)", "sha512 C ck"]], "definition": "msg_digest", "desc": "no domain separation", "breaks": ["C31"]}, {"id": "n042", "edits": [["Sign.v", "(pk_hash (sk_pk sk))", "(sk_Sk sk)"]], "definition": "sign_message", "desc": "signature carries the secret key as key hash", "breaks": ["C30"]}, {"id": "n043", "edits": [["Sign.v", "beq (pk_hash pk) (sig_pkhash s)", "true"]], "definition": "is_pk_match", "desc": "IsPKMatch always true", "breaks": ["C47"]}, {"id": "n044", "edits": [["Sign.v", "sha512 C (h ++ be64 sz)", "sha512 C h"]], "definition": "file_cksum", "desc": "file length not hashed", "breaks": ["C31"]}, {"id": "n045", "edits": [["Sign.v", "sha512 C (h ++ be64 sz)", "sha512 C (be64 sz)"]], "definition": "file_cksum", "desc": "file content not hashed", "breaks": ["C31"]}, {"id": "n046", "edits": [["Sign.v", "| Some e => Fail e\n      | None =>", "| _ =>"]], "definition": "file_cksum", "desc": "read error while hashing ignored", "breaks": ["C30", "C47"]}, {"id": "n047", "edits": [["Sign.v", "fold_left (fun h b => h ++ b) windows []", "fold_left (fun h b => b) windows []"]], "definition": "file_cksum", "desc": "only the last window hashed", "breaks": ["C31"]}, {"id": "n048", "edits": [["Sign.v", "verify_message C pk ck s", "(ok <- verify_message C pk ck s ;; Ok true)"]], "definition": "verify_file", "desc": "VerifyFile ignores the result", "breaks": ["C47"]}, {"id": "n049", "edits": [["KeyFiles.v", "(b64_encode salt) sk_algo", "(b64_encode (zeros 32)) sk_algo"]], "definition": "marshal_private", "desc": "wrong salt stored", "breaks": ["C34"]}, {"id": "n050", "edits": [["KeyFiles.v", "let pass := sha512 C pw in", "let pass := pw in"]], "definition": "marshal_private", "desc": "password not hashed when writing", "breaks": ["C34"]}, {"id": "n051", "edits": [["KeyFiles.v", "scrypt_N scrypt_r scrypt_p)), g)", "scrypt_N scrypt_p scrypt_r)), g)"]], "definition": "marshal_private", "desc": "r and p swapped in the file", "breaks": ["C34"]}, {"id": "n052", "edits": [["KeyFiles.v", "Some i => 0 <? i", "Some i => true"]], "definition": "looks_openssh", "desc": "marker at position 0 selects the OpenSSH parser", "breaks": ["C34"]}, {"id": "n053", "edits": [["KeyFiles.v", "| None => Fail (EMsg \"unmarshal priv key: wrong password\")", "| None => make_private_from_bytes C sk (zeros 64)"]], "definition": "unmarshal_private", "desc": "wrong password yields an all-zero key", "breaks": ["C34"]}, {"id": "n054", "edits": [["KeyFiles.v", "if (len (sp_salt ssk) =? 0) || (len (sp_esk ssk) =? 0) then", "if (len (sp_esk ssk) =? 0) then"]], "definition": "unmarshal_private", "desc": "missing salt not detected", "breaks": ["C36"]}, {"id": "n055", "edits": [["KeyFiles.v", "if len full <? gcm_nonce_size then Panic \"slice bounds out of range\"\n              else", "if len full <? gcm_nonce_size then Fail (EMsg \"short salt\")\n              else"]], "definition": "unmarshal_private", "desc": "short salt is an error (a fix: C36_refuted must stop holding)", "breaks": ["C36"]}, {"id": "n056", "edits": [["KeyFiles.v", "(b64_encode (pk_Pk pk)) (b64_encode (pk_hash pk))", "(b64_encode (pk_hash pk)) (b64_encode (pk_Pk pk))"]], "definition": "marshal_public", "desc": "key and hash swapped", "breaks": ["C33"]}, {"id": "n057", "edits": [["KeyFiles.v", "| Fail _ =>\n      match y_pub E yml with\n      | None => (pk, Fail (EMsg \"can't parse YAML: %s\"))", "| Fail _ =>\n      match y_pub E yml with\n      | None => (pk, Ok tt)"]], "definition": "unmarshal_public", "desc": "unparsable public key accepted", "breaks": ["C33"]}, {"id": "n058", "edits": [["KeyFiles.v", "pkb <- b64_decode s ;; pk <- make_public_from_bytes C zero_pub pkb ;; Ok (Some pk)", "pkb <- b64_decode s ;; Ok (Some (mkPub pkb [] None (pkhash C pkb)))"]], "definition": "make_public_from_string", "desc": "length of a key string not checked", "breaks": ["C54"]}, {"id": "n059", "edits": [["KeyFiles.v", "(b64_encode (sig_pkhash s)) (b64_encode (sig_Sig s))", "(b64_encode (sig_Sig s)) (b64_encode (sig_pkhash s))"]], "definition": "marshal_signature", "desc": "signature fields swapped", "breaks": ["C32"]}, {"id": "n060", "edits": [["KeyFiles.v", "mkSsig comment (b64_encode (sig_pkhash s))", "mkSsig comment []"]], "definition": "marshal_signature", "desc": "key hash not written", "breaks": ["C32", "C52"]}, {"id": "n061", "edits": [["KeyFiles.v", "| Ok p => (mkSig sg p, Ok tt)", "| Ok p => (mkSig sg (sig_pkhash s), Ok tt)"]], "definition": "unmarshal_signature", "desc": "key hash not loaded", "breaks": ["C32"]}, {"id": "n062", "edits": [["KeyFiles.v", "y_opt E \"comment\" (sp_comment r) ++ y_field \"esk\"", "y_field \"esk\""]], "definition": "yaml_priv", "desc": "comment not written into the private key file", "breaks": []}, {"id": "n063", "edits": [["KeyFiles.v", "y_opt E \"comment\" (su_comment r) ++ y_field \"pk\"", "y_field \"pk\""]], "definition": "yaml_pub", "desc": "comment not written into the public key file", "breaks": []}, {"id": "n064", "edits": [["Base64.v", "456789+/\"", "456789-_\""]], "definition": "b64_alphabet", "desc": "URL alphabet", "breaks": ["C40"]}, {"id": "n065", "edits": [["Base64.v", "b64_char (v / 2^6 mod 64); x3d]", "b64_char (v / 2^6 mod 64)]"]], "definition": "b64_encode", "desc": "no padding", "breaks": ["C40"]}, {"id": "n066", "edits": [["Base64.v", "if is_crlf c then b64_dec s' q\n          else", ""]], "definition": "b64_dec", "desc": "CR/LF not skipped", "breaks": ["C40"]}, {"id": "n067", "edits": [["Base64.v", "| [] => match q with [] => Some [] | _ => None end", "| [] => Some []"]], "definition": "b64_dec", "desc": "truncated quantum accepted", "breaks": ["C40"]}, {"id": "n068", "edits": [["Base64.v", "match skip_nl s' with\n                   | [] => let v := d0 * 2^18 + d1 * 2^12 + d2 * 2^6 in Some [z2b (v / 2^16); z2b (v / 2^8)]\n                   | _ => None\n                   end", "let v := d0 * 2^18 + d1 * 2^12 + d2 * 2^6 in Some [z2b (v / 2^16); z2b (v / 2^8)]"]], "definition": "b64_dec", "desc": "data after the padding ignored", "breaks": ["C40"]}, {"id": "n069", "edits": [["Base64.v", "Byte.eqb c x0a || Byte.eqb c x0d", "Byte.eqb c x0a || Byte.eqb c x0d || Byte.eqb c x20"]], "definition": "is_crlf", "desc": "blanks skipped too", "breaks": ["C40"]}, {"id": "m001", "edits": [["Encrypt.v", "Definition eof_bit : Z := 2^31.", "Definition eof_bit : Z := 2^30."]], "definition": "eof_bit", "desc": "EOF bit is bit 30", "breaks": ["C05", "C06"]}, {"id": "m002", "edits": [["Encrypt.v", "Definition max_chunk : Z := 2^30.", "Definition max_chunk : Z := 2^31."]], "definition": "max_chunk", "desc": "chunk limit 2 GiB", "breaks": ["C19", "C23"]}, {"id": "m003", "edits": [["Encrypt.v", "if max_chunk <? blksize then max_chunk\n  else u32 blksize", "u32 blksize"]], "definition": "block_size", "desc": "no upper limit on the block size", "breaks": ["C23"]}, {"id": "m004", "edits": [["Encrypt.v", "if blksize =? 0 then chunk_default\n  else ", ""]], "definition": "block_size", "desc": "no default for block size 0", "breaks": ["C23"]}, {"id": "m005", "edits": [["Encrypt.v", "Definition chunk_default : Z := 4 * 1048576.", "Definition chunk_default : Z := 1048576."]], "definition": "chunk_default", "desc": "default chunk 1 MiB", "breaks": ["C23"]}, {"id": "m006", "edits": [["Encrypt.v", "pk ++ salt ++ key)", "salt ++ key)"]], "definition": "sender_cksum", "desc": "ephemeral key not covered by the sender signature", "breaks": ["C12"]}, {"id": "m007", "edits": [["Encrypt.v", "pk ++ salt ++ key)", "pk ++ salt)"]], "definition": "sender_cksum", "desc": "root key not covered by the sender signature", "breaks": ["C12"]}, {"id": "m008", "edits": [["Encrypt.v", "| None => Ok (zeros sig_size, false)", "| None => Ok (zeros sig_size, true)"]], "definition": "add_sender_sig", "desc": "anonymous sender marked as authenticated: trailer dereferences nil", "breaks": ["C01", "C18"]}, {"id": "m009", "edits": [["Encrypt.v", "Ok (sig_Sig s, true)", "Ok (sig_Sig s, false)"]], "definition": "add_sender_sig", "desc": "signed file: random trailer", "breaks": ["C13", "C01"]}, {"id": "m010", "edits": [["Encrypt.v", "| None => Ok (zeros sig_size, false)", "| None => Ok (zeros 32, false)"]], "definition": "add_sender_sig", "desc": "anonymous marker of 32 zero bytes", "breaks": ["C01"]}, {"id": "m011", "edits": [["Encrypt.v", "mkHeader blksz salt epk snd_ [] []", "mkHeader blksz salt esk snd_ [] []"]], "definition": "new_encryptor", "desc": "ephemeral private key published instead of the public one", "breaks": ["C01"]}, {"id": "m012", "edits": [["Encrypt.v", "gcm_seal C ae nonce (e_key e) (pk_Pk pk)", "gcm_seal C ae nonce (e_key e) []"]], "definition": "wrap_key", "desc": "wrapped key not bound to the recipient", "breaks": ["C01", "C16"]}, {"id": "m013", "edits": [["Encrypt.v", "sha256 C (h_salt (e_hdr e) ++ rbuf)", "sha256 C rbuf"]], "definition": "wrap_key", "desc": "file salt not used when wrapping", "breaks": ["C01", "C16"]}, {"id": "m014", "edits": [["Encrypt.v", "(h_keys h ++ [w])", "([w])"]], "definition": "h_add_key", "desc": "only the last recipient is kept", "breaks": ["C16", "C48"]}, {"id": "m015", "edits": [["Encrypt.v", "(h_keys h ++ [w])", "(w :: h_keys h)"]], "definition": "h_add_key", "desc": "recipients stored in reverse order", "breaks": ["C48"]}, {"id": "m016", "edits": [["Encrypt.v", "if e_started e then (e, pk, g, Fail ErrEncStarted)\n  else", ""]], "definition": "add_recipient", "desc": "no started check", "breaks": ["C17"]}, {"id": "m017", "edits": [["Encrypt.v", "(e, match to_curve_pk pk with Ok (_, pk') => pk' | _ => pk end, g, Fail x)", "(e_with_hdr e (h_add_key (e_hdr e) (mkWkey [] [] [])), pk, g, Fail x)"]], "definition": "add_recipient", "desc": "failed AddRecipient appends an empty wrapped key", "breaks": ["C17"]}, {"id": "m018", "edits": [["Encrypt.v", "be32 (u32 varSize)", "be32 (u32 (varSize + sha256_size))"]], "definition": "fixed_header", "desc": "length field counts the checksum too", "breaks": ["C05", "C01"]}, {"id": "m019", "edits": [["Encrypt.v", "let cksum := sha256 C hdr in", "let cksum := sha256 C varHdr in"]], "definition": "enc_start", "desc": "checksum over the variable header only", "breaks": ["C05", "C01"]}, {"id": "m020", "edits": [["Encrypt.v", "let nonce := take aead_nonce_size buf in\n      let buf := drop aead_nonce_size buf in\n      let dkey := take aes_key_size buf in\n      let hmackey := drop aes_key_size buf in", "let dkey := take aes_key_size buf in\n      let buf := drop aes_key_size buf in\n      let nonce := take aead_nonce_size buf in\n      let hmackey := drop aead_nonce_size buf in"]], "definition": "enc_start", "desc": "data key and nonce cut from the expansion in another order", "breaks": ["C01"]}, {"id": "m021", "edits": [["Encrypt.v", "(e_sender e) (e_auth e) true (e_stream e),\n               w', Ok tt)", "(e_sender e) (e_auth e) false (e_stream e),\n               w', Ok tt)"]], "definition": "enc_start", "desc": "started flag not set", "breaks": ["C17"]}, {"id": "m022", "edits": [["Encrypt.v", "u32 (h_chunk (e_hdr e) + 4 + gcm_overhead)", "u32 (h_chunk (e_hdr e) + gcm_overhead)"]], "definition": "enc_start", "desc": "encryption buffer 4 bytes short", "breaks": ["C01", "C21"]}, {"id": "m023", "edits": [["Encrypt.v", "be32 i ++ drop 4 n", "be32 0 ++ drop 4 n"]], "definition": "chunk_nonce", "desc": "chunk counter not mixed into the nonce", "breaks": ["C07", "C09"]}, {"id": "m024", "edits": [["Encrypt.v", "be32 i ++ drop 4 n", "[z2b i] ++ drop 1 n"]], "definition": "chunk_nonce", "desc": "8-bit chunk counter", "breaks": ["C07"]}, {"id": "m025", "edits": [["Encrypt.v", "sign_message C sk (hmac_sha256 C k d)", "sign_message C sk (hmac_sha256 C k [])"]], "definition": "write_trailer", "desc": "trailer signs an empty HMAC", "breaks": ["C13", "C01"]}, {"id": "m026", "edits": [["Encrypt.v", "rand_buf sig_size g in (Ok r, g)", "rand_buf 32 g in (Ok r, g)"]], "definition": "write_trailer", "desc": "32-byte trailer for anonymous files", "breaks": ["C05"]}, {"id": "m027", "edits": [["Encrypt.v", "let ct := gcm_seal C k (chunk_nonce (e_nonce e) i) pt b in", "let ct := gcm_seal C k (chunk_nonce (e_nonce e) i) pt [] in"]], "definition": "enc_block", "desc": "frame header not authenticated", "breaks": ["C09", "C10", "C01"]}, {"id": "m028", "edits": [["Encrypt.v", "(Some (hk, hd ++ b ++ pt))", "(Some (hk, hd ++ pt))"]], "definition": "enc_block", "desc": "HMAC skips frame headers", "breaks": ["C13", "C01"]}, {"id": "m029", "edits": [["Encrypt.v", "(Some (hk, hd ++ b ++ pt))", "(Some (hk, b ++ pt))"]], "definition": "enc_block", "desc": "HMAC covers the last frame only", "breaks": ["C13", "C01"]}, {"id": "m030", "edits": [["Encrypt.v", "let z := if eof then Z.lor z eof_bit else z in", ""]], "definition": "enc_block", "desc": "EOF bit never set", "breaks": ["C05", "C06"]}, {"id": "m031", "edits": [["Encrypt.v", "| (Some x, w') => (e, w', g, Fail (EWrap \"encrypt\" x))\n        | (None, w') =>\n            let e'", "| (_, w') =>\n            let e'"]], "definition": "enc_block", "desc": "write error of a frame ignored", "breaks": ["C21"]}, {"id": "m032", "edits": [["Encrypt.v", "if eof then\n              let '(w', g, r) := write_trailer C e' w' g in (e', w', g, r)\n            else (e', w', g, Ok tt)", "(e', w', g, Ok tt)"]], "definition": "enc_block", "desc": "no trailer", "breaks": ["C05", "C01"]}, {"id": "m033", "edits": [["Encrypt.v", "| Some IoEOF | Some ErrClosedPipe | Some ErrUnexpectedEOF => Ok true\n                 | Some x => Fail (EWrap \"encrypt: I/O read error\" x)", "| Some _ => Ok true"]], "definition": "enc_loop", "desc": "any read error is taken for the end of the input", "breaks": ["C21"]}, {"id": "m034", "edits": [["Encrypt.v", "enc_loop C f e r w (u32 (i + 1)) g", "enc_loop C f e r w i g"]], "definition": "enc_loop", "desc": "block number not incremented", "breaks": ["C07"]}, {"id": "m035", "edits": [["Encrypt.v", "enc_loop C f e r w (u32 (i + 1)) g", "enc_loop C f e r w (u32 (i + 2)) g"]], "definition": "enc_loop", "desc": "block number incremented by two", "breaks": ["C01", "C05"]}, {"id": "m036", "edits": [["Encrypt.v", "read_full r (h_chunk (e_hdr e))", "read_full r (h_chunk (e_hdr e) - 1)"]], "definition": "enc_loop", "desc": "chunks one byte short", "breaks": ["C06"]}, {"id": "m037", "edits": [["Encrypt.v", "if e_stream e then (e, r, w, g, Fail ErrEncIsStream)\n  else", ""]], "definition": "encrypt", "desc": "no stream guard", "breaks": ["C18"]}, {"id": "m038", "edits": [["Encrypt.v", "| (Some x, w) => (e, r, w, g, Fail x)\n                  end", "| (Some x, w) => (e, r, w, g, Ok tt)\n                  end"]], "definition": "encrypt", "desc": "Close error ignored", "breaks": ["C21"]}, {"id": "m039", "edits": [["Encrypt.v", "match w_close w with\n                  | (None, w) => (e, r, w, g, Ok tt)\n                  | (Some x, w) => (e, r, w, g, Fail x)\n                  end", "(e, r, w, g, Ok tt)"]], "definition": "encrypt", "desc": "destination not closed", "breaks": ["C21", "C45"]}, {"id": "m040", "edits": [["Encrypt.v", "if e_started e then (e, w, Ok tt) else enc_start C e w in", "enc_start C e w in"]], "definition": "encrypt", "desc": "second Encrypt writes the header again", "breaks": []}, {"id": "m041", "edits": [["Decrypt.v", "<=? aes_key_size then", "<? aes_key_size then"]], "definition": "wkeys_sane", "desc": "wrapped keys of 32 bytes accepted", "breaks": ["C19"]}, {"id": "m042", "edits": [["Decrypt.v", "then false else wkeys_sane ks'", "then false else true"]], "definition": "wkeys_sane", "desc": "only the first wrapped key checked", "breaks": ["C19"]}, {"id": "m043", "edits": [["Decrypt.v", "if negb (beq (take 7 b) magic) then (Fail ErrNotSigTool, r)\n      else", ""]], "definition": "new_decryptor", "desc": "magic not checked", "breaks": ["C08"]}, {"id": "m044", "edits": [["Decrypt.v", "if negb (b2z (nth 7 b x00) =? sigtool_version)", "if (b2z (nth 7 b x00) <? sigtool_version)"]], "definition": "new_decryptor", "desc": "later versions accepted", "breaks": ["C08"]}, {"id": "m045", "edits": [["Decrypt.v", "if 1048576 <? varSize", "if 1048577 <? varSize"]], "definition": "new_decryptor", "desc": "header length limit off by one", "breaks": ["C08", "C19"]}, {"id": "m046", "edits": [["Decrypt.v", "else if varSize <? 32 then (Fail ErrHeaderTooSmall, r)\n", ""]], "definition": "new_decryptor", "desc": "no minimum header length", "breaks": ["C08"]}, {"id": "m047", "edits": [["Decrypt.v", "sha256 C (b ++ take varSize varBuf)", "sha256 C (take varSize varBuf)"]], "definition": "new_decryptor", "desc": "checksum excludes the fixed header", "breaks": ["C08"]}, {"id": "m048", "edits": [["Decrypt.v", "if negb (beq verify cksum) then (Fail ErrBadHeader, r)\n              else", ""]], "definition": "new_decryptor", "desc": "checksum not compared", "breaks": ["C08"]}, {"id": "m049", "edits": [["Decrypt.v", "(h_chunk h =? 0) || (max_chunk <=? h_chunk h)", "(max_chunk <=? h_chunk h)"]], "definition": "new_decryptor", "desc": "zero chunk size accepted", "breaks": ["C19"]}, {"id": "m050", "edits": [["Decrypt.v", "(max_chunk <=? h_chunk h)", "(max_chunk <? h_chunk h)"]], "definition": "new_decryptor", "desc": "chunk size of 2^30 accepted", "breaks": ["C19", "C23"]}, {"id": "m051", "edits": [["Decrypt.v", "else if negb (len (h_salt h) =? salt_size)\n                    then (Fail (EMsg \"decrypt: invalid nonce length\"), r)\n", ""]], "definition": "new_decryptor", "desc": "salt length not checked", "breaks": ["C19"]}, {"id": "m052", "edits": [["Decrypt.v", "else if len (h_keys h) =? 0 then (Fail ErrNoWrappedKeys, r)\n", ""]], "definition": "new_decryptor", "desc": "no check for missing wrapped keys", "breaks": ["C19"]}, {"id": "m053", "edits": [["Decrypt.v", "sha256 C (h_salt h ++ w_nonce w)", "sha256 C (w_nonce w ++ h_salt h)"]], "definition": "unwrap_key", "desc": "salt and nonce swapped when unwrapping", "breaks": ["C01"]}, {"id": "m054", "edits": [["Decrypt.v", "(pk_Pk (sk_pk sk))", "(h_pk h)"]], "definition": "unwrap_key", "desc": "wrong associated data when unwrapping", "breaks": ["C01"]}, {"id": "m055", "edits": [["Decrypt.v", "| (Ok None, sk') => find_key C h ks' sk'", "| (Ok None, sk') => (Fail ErrBadKey, sk')"]], "definition": "find_key", "desc": "only the first wrapped key tried", "breaks": ["C16"]}, {"id": "m056", "edits": [["Decrypt.v", "| [] => (Fail ErrBadKey, sk)", "| [] => (Ok (zeros 32), sk)"]], "definition": "find_key", "desc": "a non-recipient gets an all-zero key", "breaks": ["C15"]}, {"id": "m057", "edits": [["Decrypt.v", "if beq (zeros sig_size) sig then Ok false\n      else", ""]], "definition": "verify_sender", "desc": "anonymous marker not recognised", "breaks": ["C01"]}, {"id": "m058", "edits": [["Decrypt.v", "if beq (zeros sig_size) sig then Ok false", "if beq (zeros sig_size) sig then Ok true"]], "definition": "verify_sender", "desc": "anonymous files reported as authenticated", "breaks": ["C12"]}, {"id": "m059", "edits": [["Decrypt.v", "| None => Fail ErrNoSenderPK", "| None => Ok false"]], "definition": "verify_sender", "desc": "a signed file accepted without a sender key", "breaks": ["C14"]}, {"id": "m060", "edits": [["Decrypt.v", "if negb ok then Fail ErrBadSender else Ok true", "if negb ok then Ok false else Ok true"]], "definition": "verify_sender", "desc": "bad sender signature tolerated", "breaks": ["C14"]}, {"id": "m061", "edits": [["Decrypt.v", "if negb ok then Fail ErrBadSender else Ok true", "Ok true"]], "definition": "verify_sender", "desc": "bad sender signature accepted as authenticated", "breaks": ["C12", "C14", "C46"]}, {"id": "m062", "edits": [["Decrypt.v", "Fail (EWrap \"unwrap: can't open sender info\" (EMsg \"cipher: message authentication failed\"))", "Ok false"]], "definition": "verify_sender", "desc": "tampered sender field treated as anonymous", "breaks": ["C14"]}, {"id": "m063", "edits": [["Decrypt.v", "let auth := d_auth d || signed in", "let auth := d_auth d in"]], "definition": "set_private_key", "desc": "auth flag never set", "breaks": ["C01", "C12"]}, {"id": "m064", "edits": [["Decrypt.v", "(h_chunk (d_hdr d) + gcm_overhead) nonce", "(h_chunk (d_hdr d)) nonce"]], "definition": "set_private_key", "desc": "decryption buffer lacks room for the tag", "breaks": ["C20", "C01"]}, {"id": "m065", "edits": [["Decrypt.v", "if negb (d_auth d) then (d', Ok (m, true))\n      else", ""]], "definition": "process_trailer", "desc": "trailer of anonymous files verified", "breaks": ["C01"]}, {"id": "m066", "edits": [["Decrypt.v", "| Ok false => (d', Fail ErrBadTrailer)", "| Ok false => (d', Ok (m, true))"]], "definition": "process_trailer", "desc": "bad trailer accepted", "breaks": ["C13"]}, {"id": "m067", "edits": [["Decrypt.v", "read_full (d_rd d) sig_size in", "read_full (d_rd d) 32 in"]], "definition": "process_trailer", "desc": "only half of the trailer read", "breaks": ["C01"]}, {"id": "m068", "edits": [["Decrypt.v", "| Some x => (d', Fail (EWrap \"decrypt: premature EOF while reading trailer\" x))\n  | None =>", "| _ =>"]], "definition": "process_trailer", "desc": "missing trailer tolerated", "breaks": ["C09"]}, {"id": "m069", "edits": [["Decrypt.v", "if h_chunk (d_hdr d) <? m then (d1, Fail (EMsg \"decrypt: chunksize is too large\"))\n        else", ""]], "definition": "dec_chunk", "desc": "frame length not limited", "breaks": ["C20"]}, {"id": "m070", "edits": [["Decrypt.v", "if h_chunk (d_hdr d) <? m", "if h_chunk (d_hdr d) <=? m"]], "definition": "dec_chunk", "desc": "full-size frames rejected", "breaks": ["C01"]}, {"id": "m071", "edits": [["Decrypt.v", "if negb eof then (d1, Fail (EMsg \"decrypt: zero-sized chunk without EOF\"))\n          else (d1, Ok (0, true))", "(d1, Ok (0, true))"]], "definition": "dec_chunk", "desc": "empty frame always ends the file", "breaks": ["C09"]}, {"id": "m072", "edits": [["Decrypt.v", "else (d1, Ok (0, true))", "else process_trailer C d1 0"]], "definition": "dec_chunk", "desc": "trailer verified after an empty last frame (a fix: should change what is provable)", "breaks": ["C09"]}, {"id": "m073", "edits": [["Decrypt.v", "gcm_open C k nonce c b with", "gcm_open C k (d_nonce d) c b with"]], "definition": "dec_chunk", "desc": "frame counter ignored when opening", "breaks": ["C01"]}, {"id": "m074", "edits": [["Decrypt.v", "hd ++ b ++ pt", "hd ++ pt"]], "definition": "dec_chunk", "desc": "HMAC skips frame headers when decrypting", "breaks": ["C13", "C01"]}, {"id": "m075", "edits": [["Decrypt.v", "if eof then process_trailer C d3 m else (d3, Ok (m, false))", "(d3, Ok (m, eof))"]], "definition": "dec_chunk", "desc": "trailer not checked", "breaks": ["C13"]}, {"id": "m076", "edits": [["Decrypt.v", "let eof := 0 <? Z.land m eof_bit in", "let eof := false in"]], "definition": "dec_chunk", "desc": "EOF bit ignored", "breaks": ["C01"]}, {"id": "m077", "edits": [["Decrypt.v", "dec_loop C f d w (u32 (i + 1))", "dec_loop C f d w i"]], "definition": "dec_loop", "desc": "block number not incremented when decrypting", "breaks": ["C01", "C11"]}, {"id": "m078", "edits": [["Decrypt.v", "| Some x => (d, w, Fail (EWrap \"decrypt\" x))\n          | None => ", "| _ => "]], "definition": "dec_loop", "desc": "write error ignored", "breaks": ["C21"]}, {"id": "m079", "edits": [["Decrypt.v", "if eof then (d_set_eof d true, w, Ok tt)", "if eof then (d, w, Ok tt)"]], "definition": "dec_loop", "desc": "eof not recorded", "breaks": ["C18"]}, {"id": "m080", "edits": [["Decrypt.v", "let c := take m (d_buf d) in", "let c := d_buf d in"]], "definition": "dec_loop", "desc": "stale buffer bytes written", "breaks": ["C11"]}, {"id": "m081", "edits": [["Decrypt.v", "| None => (d, w, Fail ErrNoKey)", "| None => (d, w, Ok tt)"]], "definition": "decrypt", "desc": "Decrypt without a key succeeds", "breaks": ["C15"]}, {"id": "m082", "edits": [["Decrypt.v", "if d_stream d then (d, w, Fail ErrDecStarted)\n      else", ""]], "definition": "decrypt", "desc": "no stream guard", "breaks": ["C18"]}, {"id": "m083", "edits": [["Decrypt.v", "else if d_eof d then (d, w, Fail IoEOF)\n      else", "else"]], "definition": "decrypt", "desc": "no eof guard", "breaks": ["C18"]}]