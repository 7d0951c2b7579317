[
 {
  "id": "t001",
  "edits": [
   [
    "Debug.v",
    "if level <=? 0 then []",
    "if level <? 0 then []"
   ]
  ],
  "definition": "debug",
  "desc": "debugging always on",
  "breaks": [
   "C93"
  ]
 },
 {
  "id": "t002",
  "edits": [
   [
    "Debug.v",
    "if level <=? 0 then []",
    "if level <=? 1 then []"
   ]
  ],
  "definition": "debug",
  "desc": "level 1 is off",
  "breaks": [
   "C93"
  ]
 },
 {
  "id": "t003",
  "edits": [
   [
    "Debug.v",
    "87 + d",
    "55 + d"
   ]
  ],
  "definition": "hex_digit",
  "desc": "upper-case digits",
  "breaks": [
   "C93"
  ]
 },
 {
  "id": "t004",
  "edits": [
   [
    "Debug.v",
    "str \"aes-key: \" ++ hex key",
    "str \"aes-key: \" ++ hex hmackey"
   ]
  ],
  "definition": "debug_text",
  "desc": "HMAC key and data key swapped in the message",
  "breaks": [
   "C93"
  ]
 },
 {
  "id": "t005",
  "edits": [
   [
    "Debug.v",
    "dkey (e_nonce e') hmackey)",
    "dkey (e_nonce e) hmackey)"
   ]
  ],
  "definition": "start_debug",
  "desc": "the nonce of the first chunk of zeros is printed",
  "breaks": [
   "C93"
  ]
 },
 {
  "id": "t006",
  "edits": [
   [
    "Debug.v",
    "sha256 C (fixed_header (size_header (e_hdr e)) ++ varHdr)",
    "sha256 C (fixed_header (size_header (e_hdr e)))"
   ]
  ],
  "definition": "start_debug",
  "desc": "encrypt prints checksum of the fixed header only",
  "breaks": [
   "C93"
  ]
 },
 {
  "id": "t007",
  "edits": [
   [
    "Debug.v",
    "if e_stream e then [] else if e_started e then [] else start_debug",
    "if e_stream e then [] else start_debug"
   ]
  ],
  "definition": "estep_debug",
  "desc": "a second Encrypt prints again",
  "breaks": [
   "C93"
  ]
 },
 {
  "id": "t008",
  "edits": [
   [
    "Debug.v",
    "| EStream wr => if e_started e then [] else start_debug C level e wr",
    "| EStream wr => []"
   ]
  ],
  "definition": "estep_debug",
  "desc": "NewStreamWriter prints nothing",
  "breaks": [
   "C93"
  ]
 },
 {
  "id": "t009",
  "edits": [
   [
    "Debug.v",
    "      | (d, _, Ok _) =>\n",
    "      | (d, _, _) =>\n"
   ],
   [
    "Debug.v",
    "          end\n      | _ => []\n      end\n  | _ => []\n  end.\n(** what each",
    "          end\n      end\n  | _ => []\n  end.\n(** what each"
   ]
  ],
  "definition": "dstep_debug",
  "desc": "message of a failed SetPrivateKey",
  "breaks": [
   "C93"
  ]
 },
 {
  "id": "t010",
  "edits": [
   [
    "Debug.v",
    "debug_text \"decrypt\"",
    "debug_text \"encrypt\""
   ]
  ],
  "definition": "dstep_debug",
  "desc": "decrypt says encrypt",
  "breaks": [
   "C93"
  ]
 },
 {
  "id": "t011",
  "edits": [
   [
    "Debug.v",
    "then 1 else 0)",
    "then 0 else 1)"
   ]
  ],
  "definition": "debug_level",
  "desc": "--debug inverted",
  "breaks": [
   "C93"
  ]
 },
 {
  "id": "t012",
  "edits": [
   [
    "Debug.v",
    "(str \"debug\") false then",
    "(str \"debug\") true then"
   ]
  ],
  "definition": "debug_level",
  "desc": "--debug always on",
  "breaks": [
   "C93"
  ]
 },
 {
  "id": "t013",
  "edits": [
   [
    "Race.v",
    "Store (PkCache k 0) (Some out) (K (Ok out))",
    "Store (PkCache k 0) (Some (pk_Pk pk)) (Store (PkCache k 0) (Some out) (K (Ok out)))"
   ]
  ],
  "definition": "conv_pk",
  "desc": "the unconverted key is published",
  "breaks": [
   "C94"
  ]
 },
 {
  "id": "t014",
  "edits": [
   [
    "Race.v",
    "Store (PkCache k 0) (Some out) (K (Ok out))",
    "Store (PkCache k 0) None (Store (PkCache k 0) (Some out) (K (Ok out)))"
   ]
  ],
  "definition": "conv_pk",
  "desc": "the cache is cleared before it is filled",
  "breaks": [
   "C94"
  ]
 },
 {
  "id": "t015",
  "edits": [
   [
    "Race.v",
    "| None => Store (SkCache k 0) (Some (fst",
    "| None => Store (SkCache k 0) (Some (take 32 (sha512 C (take 32 (sk_Sk sk))))) (Store (SkCache k 0) (Some (fst"
   ],
   [
    "Race.v",
    "(Load (SkCache k 0) (fun c' => K (slice c')))\n    end).",
    "(Load (SkCache k 0) (fun c' => K (slice c'))))\n    end)."
   ]
  ],
  "definition": "conv_sk",
  "desc": "the clamping is done after publishing",
  "breaks": [
   "C94"
  ]
 },
 {
  "id": "t016",
  "edits": [
   [
    "Race.v",
    "  Load (PkCache k 0) (fun c =>\n    match c with\n    | Some _ => Load (PkCache k 0)",
    "  Load (PkCache 0 0) (fun c =>\n    match c with\n    | Some _ => Load (PkCache 0 0)"
   ]
  ],
  "definition": "conv_pk",
  "desc": "the cache of the first key is used for all",
  "breaks": [
   "C94"
  ]
 },
 {
  "id": "t017",
  "edits": [
   [
    "Race.v",
    "if e_started e then K e (Fail ErrEncStarted)\n  else conv",
    "conv"
   ]
  ],
  "definition": "add_prog",
  "desc": "started is not checked",
  "breaks": [
   "C94"
  ]
 },
 {
  "id": "t018",
  "edits": [
   [
    "Race.v",
    "        | Fail x => K e (Fail (EWrap \"wrap\" x))\n        | Panic p => K e (Panic p)\n        end\n    end).\n\n(** encrypt.go:469",
    "        | Fail x => draw 12 (fun _ => K e (Fail (EWrap \"wrap\" x)))\n        | Panic p => K e (Panic p)\n        end\n    end).\n\n(** encrypt.go:469"
   ]
  ],
  "definition": "add_prog",
  "desc": "the nonce is drawn before the key exchange is checked",
  "breaks": [
   "C94"
  ]
 },
 {
  "id": "t019",
  "edits": [
   [
    "Race.v",
    "| Ok None => find_prog C conv h ks' sk K",
    "| Ok None => K (Fail ErrBadKey)"
   ]
  ],
  "definition": "find_prog",
  "desc": "only the first wrapped key is tried",
  "breaks": [
   "C94"
  ]
 },
 {
  "id": "t020",
  "edits": [
   [
    "Race.v",
    "match verify_sender C (d_hdr d) key senderPk with",
    "match Ok (A:=bool) false with"
   ]
  ],
  "definition": "set_rest",
  "desc": "the sender is not verified",
  "breaks": [
   "C94"
  ]
 },
 {
  "id": "t021",
  "edits": [
   [
    "Race.v",
    "draw aes_key_size (fun key => draw salt_size (fun salt =>",
    "draw salt_size (fun salt => draw aes_key_size (fun key =>"
   ]
  ],
  "definition": "call_prog",
  "desc": "salt drawn before the file key",
  "breaks": [
   "C94"
  ]
 },
 {
  "id": "t022",
  "edits": [
   [
    "Race.v",
    "put g (m_cells m) (mkGo",
    "put (m_rng m) (m_cells m) (mkGo"
   ]
  ],
  "definition": "step",
  "desc": "a draw does not move the random source",
  "breaks": [
   "C94"
  ]
 },
 {
  "id": "t023",
  "edits": [
   [
    "Race.v",
    "(mkGo (t_todo t) None l (t_done t ++ [(c, r)]))",
    "(mkGo (t_todo t) None l (t_done t ++ [(c, r); (c, r)]))"
   ]
  ],
  "definition": "step",
  "desc": "a call returns twice",
  "breaks": [
   "C94"
  ]
 },
 {
  "id": "t024",
  "edits": [
   [
    "Race.v",
    "(mkGo (t_todo t) None l (t_done t ++ [(c, r)]))",
    "(mkGo (t_todo t) None (t_loc t) (t_done t ++ [(c, r)]))"
   ]
  ],
  "definition": "step",
  "desc": "the result of a call is lost",
  "breaks": [
   "C94"
  ]
 },
 {
  "id": "t025",
  "edits": [
   [
    "Keys.v",
    "(pk_comment pk) (Some c) (pk_hash pk))",
    "(pk_comment pk) (Some (pk_Pk pk)) (pk_hash pk))"
   ]
  ],
  "definition": "to_curve_pk",
  "desc": "the cache holds the unconverted key",
  "breaks": [
   "C91",
   "C94"
  ]
 },
 {
  "id": "t026",
  "edits": [
   [
    "Stream.v",
    "if 0 <? er_len s then (s, Some (take (er_len s) (drop (er_off s) (d_buf d)))) else x",
    "(s, None)"
   ]
  ],
  "definition": "er_keep",
  "desc": "unread data is lost by SetPrivateKey",
  "breaks": [
   "C85"
  ]
 },
 {
  "id": "t027",
  "edits": [
   [
    "Stream.v",
    "Some (take (er_len s) (drop (er_off s) (d_buf d)))",
    "Some (drop (er_off s) (d_buf d))"
   ]
  ],
  "definition": "er_keep",
  "desc": "the whole buffer is kept",
  "breaks": [
   "C85"
  ]
 },
 {
  "id": "t028",
  "edits": [
   [
    "Stream.v",
    "if m <? len b then Some (drop m b) else None",
    "if m <? len b then Some b else None"
   ]
  ],
  "definition": "er_read_kept",
  "desc": "kept data is delivered twice",
  "breaks": [
   "C85"
  ]
 },
 {
  "id": "t029",
  "edits": [
   [
    "Stream.v",
    "(er_blk s) None, if m <? len b",
    "(er_blk s) (Some IoEOF), if m <? len b"
   ]
  ],
  "definition": "er_read_kept",
  "desc": "kept data ends the stream",
  "breaks": [
   "C85"
  ]
 },
 {
  "id": "t030",
  "edits": [
   [
    "Stream.v",
    "match rs with Ok _ => len b | _ => 0 end",
    "match rs with Ok _ => 0 | _ => 0 end"
   ]
  ],
  "definition": "ew_write",
  "desc": "Write reports 0 bytes",
  "breaks": [
   "C19"
  ]
 },
 {
  "id": "t031",
  "edits": [
   [
    "Stream.v",
    "match rs with Ok _ => len b | _ => 0 end",
    "len b"
   ]
  ],
  "definition": "ew_write",
  "desc": "a failed Write reports the whole length",
  "breaks": [
   "C19"
  ]
 },
 {
  "id": "t032",
  "edits": [
   [
    "Stream.v",
    "  match ew_err s with\n  | Some x => (e, w, g, s, (0, Fail x))\n  | None =>\n      if len b =? 0 then",
    "  match (if len b =? 0 then None else ew_err s) with\n  | Some x => (e, w, g, s, (0, Fail x))\n  | None =>\n      if len b =? 0 then"
   ]
  ],
  "definition": "ew_write",
  "desc": "an empty Write after an error succeeds",
  "breaks": [
   "C19"
  ]
 },
 {
  "id": "t033",
  "edits": [
   [
    "Stream.v",
    "(e, w, g, mkEw buf (ew_blk s) (Some x), Fail x)\n            | Panic p => (e, w, g, mkEw buf (ew_blk s) (ew_err s), Panic p)",
    "(e, w, g, mkEw buf (ew_blk s) None, Fail x)\n            | Panic p => (e, w, g, mkEw buf (ew_blk s) (ew_err s), Panic p)"
   ]
  ],
  "definition": "ew_loop",
  "desc": "a failed flush is forgotten",
  "breaks": [
   "C19"
  ]
 },
 {
  "id": "t034",
  "edits": [
   [
    "Stream.v",
    "| Fail x => (e, w, g, mkEw (ew_buf s) (ew_blk s) (Some x), Fail x)",
    "| Fail x => (e, w, g, s, Fail x)"
   ]
  ],
  "definition": "ew_close",
  "desc": "a failed Close may be repeated",
  "breaks": [
   "C19"
  ]
 },
 {
  "id": "t035",
  "edits": [
   [
    "Stream.v",
    "| Fail x => (e, w, g, mkEw (ew_buf s) (ew_blk s) (Some x), Fail x)",
    "| Fail x => (e, snd (w_close w), g, mkEw (ew_buf s) (ew_blk s) (Some x), Fail x)"
   ]
  ],
  "definition": "ew_close",
  "desc": "the destination is closed after a failed Close",
  "breaks": [
   "C19"
  ]
 },
 {
  "id": "t036",
  "edits": [
   [
    "Stream.v",
    "| (d, Fail x) => (d, mkEr (er_off s) (er_len s) (er_blk s) (Some x), ([], Fail x))",
    "| (d, Fail x) => (d, s, ([], Fail x))"
   ]
  ],
  "definition": "er_read",
  "desc": "a failed stream Read may be repeated",
  "breaks": [
   "C21"
  ]
 },
 {
  "id": "t037",
  "edits": [
   [
    "Stream.v",
    "er_deliver (d_set_eof d eof) (mkEr 0 m (u32 (er_blk s + 1)) None) n",
    "er_deliver (d_set_eof d eof) (mkEr 0 m (u32 (er_blk s + 1)) (if eof then Some IoEOF else None)) n"
   ]
  ],
  "definition": "er_read",
  "desc": "the last chunk is delivered with EOF at once",
  "breaks": [
   "C21"
  ]
 },
 {
  "id": "t038",
  "edits": [
   [
    "Decrypt.v",
    "| Fail x => (d1 (d_auth d), sk', Fail (EWrap \"decrypt\" x))",
    "| Fail x => (d, sk', Fail (EWrap \"decrypt\" x))"
   ]
  ],
  "definition": "set_private_key",
  "desc": "(a fix) key kept only if the sender is right",
  "breaks": [
   "C14"
  ]
 },
 {
  "id": "t039",
  "edits": [
   [
    "Decrypt.v",
    "let auth := d_auth d || signed in",
    "let auth := signed in"
   ]
  ],
  "definition": "set_private_key",
  "desc": "(a fix) auth reset",
  "breaks": [
   "C14"
  ]
 },
 {
  "id": "t040",
  "edits": [
   [
    "Decrypt.v",
    "| (Fail x, sk') => (Fail (EWrap \"decrypt: can't unwrap key\" x), sk')",
    "| (Fail x, sk') => find_key C h ks' sk'"
   ]
  ],
  "definition": "find_key",
  "desc": "errors while unwrapping are skipped",
  "breaks": [
   "C13"
  ]
 },
 {
  "id": "t041",
  "edits": [
   [
    "Decrypt.v",
    "else dec_loop C (S (rd_size (d_rd d))) d w 0",
    "else dec_loop C (S (rd_size (d_rd d))) d w 1"
   ]
  ],
  "definition": "dec_loop",
  "desc": "block number starts at 1 for Decrypt",
  "breaks": [
   "C02"
  ]
 },
 {
  "id": "t042",
  "edits": [
   [
    "Encrypt.v",
    "                  | (Some x, w) => (e, r, w, g, Fail x)\n                  end\n        | x => (e, r, w, g, x)",
    "                  | (Some x, w) => (e, r, w, g, Fail x)\n                  end\n        | x => (e, r, snd (w_close w), g, x)"
   ]
  ],
  "definition": "encrypt",
  "desc": "destination closed also after failures",
  "breaks": [
   "C61"
  ]
 },
 {
  "id": "t043",
  "edits": [
   [
    "Encrypt.v",
    "enc_loop C (S (rd_size r)) e r w 0 g",
    "enc_loop C (S (rd_size r)) e r w (if e_started e then 0 else 1) g"
   ]
  ],
  "definition": "encrypt",
  "desc": "Encrypt after a failed Encrypt starts at block 1",
  "breaks": [
   "C62"
  ]
 },
 {
  "id": "t044",
  "edits": [
   [
    "Encrypt.v",
    "          let kek := take aes_key_size buf in\n          let nonce := drop aes_key_size buf in\n          (ae <-",
    "          let kek := take aes_key_size buf in\n          let nonce := take rx_nonce_size buf in\n          (ae <-"
   ]
  ],
  "definition": "wrap_key",
  "desc": "wrap nonce taken from the key expansion start",
  "breaks": [
   "C02"
  ]
 },
 {
  "id": "t045",
  "edits": [
   [
    "Cli.v",
    "done (code_of r) (ops1 ++ ops2)",
    "done 1 (ops1 ++ ops2)"
   ]
  ],
  "definition": "cli_generate",
  "desc": "generate always exits with 1",
  "breaks": [
   "C43",
   "C64"
  ]
 },
 {
  "id": "t046",
  "edits": [
   [
    "Cli.v",
    "| (_, _, w, _, r) => (code_of r, w)",
    "| (_, _, w, _, r) => (2, w)"
   ]
  ],
  "definition": "enc_body",
  "desc": "encrypt exits with 2 on failure",
  "breaks": [
   "C43"
  ]
 },
 {
  "id": "t047",
  "edits": [
   [
    "Cli.v",
    "| (_, _, w, _, Ok _) => (0, snd (w_close w))\n               | (_, _, w, _, r)",
    "| (_, _, w, _, Ok _) => (0, w)\n               | (_, _, w, _, r)"
   ]
  ],
  "definition": "enc_body",
  "desc": "encrypt's output is not closed (stdout left open)",
  "breaks": [
   "C64"
  ]
 },
 {
  "id": "t048",
  "edits": [
   [
    "Cli.v",
    "  | _ => mkOut 1 [] (wo_stdout W)\n  end.\n\n(** ** verify",
    "  | _ => mkOut 0 [] (wo_stdout W)\n  end.\n\n(** ** verify"
   ]
  ],
  "definition": "cli_sign",
  "desc": "sign with a missing file argument exits 0",
  "breaks": [
   "C92"
  ]
 }
]