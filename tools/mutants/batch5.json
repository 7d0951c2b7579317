[
 {
  "id": "u001",
  "edits": [
   [
    "Stream.v",
    "(er_blk s) None, if m <? len b",
    "(er_blk s) (Some IoEOF), if m <? len b"
   ]
  ],
  "definition": "er_read_kept",
  "desc": "kept data ends the stream (t029 again, now with C95)",
  "breaks": [
   "C95"
  ]
 },
 {
  "id": "u002",
  "edits": [
   [
    "Told.v",
    "Some s => Some (a ++ s) | None => None end\n      | [] =>",
    "Some s => Some (a ++ tl s) | None => None end\n      | [] =>"
   ]
  ],
  "definition": "sprintf",
  "desc": "values taken in the wrong order is impossible; a verb eats the byte after it",
  "breaks": [
   "C96"
  ]
 },
 {
  "id": "u003",
  "edits": [
   [
    "Told.v",
    "Some s => Some (x25 :: s)",
    "Some s => Some (x25 :: x25 :: s)"
   ]
  ],
  "definition": "sprintf",
  "desc": "%% writes two percent signs",
  "breaks": [
   "none: no message has %%"
  ]
 },
 {
  "id": "u004",
  "edits": [
   [
    "Told.v",
    "if Byte.eqb (last s x00) x0a then s else s ++ [x0a]",
    "s ++ [x0a]"
   ]
  ],
  "definition": "warn",
  "desc": "newline appended always",
  "breaks": [
   "C96"
  ]
 },
 {
  "id": "u005",
  "edits": [
   [
    "Told.v",
    "if Byte.eqb (last s x00) x0a then s else s ++ [x0a]",
    "s"
   ]
  ],
  "definition": "warn",
  "desc": "newline never appended",
  "breaks": [
   "C96"
  ]
 },
 {
  "id": "u006",
  "edits": [
   [
    "Told.v",
    "argv0 ++ str \": \" ++ str",
    "argv0 ++ str \" \" ++ str"
   ]
  ],
  "definition": "warn",
  "desc": "no colon after the program name",
  "breaks": [
   "C96"
  ]
 },
 {
  "id": "u007",
  "edits": [
   [
    "Told.v",
    "sprintf (argv0 ++ str \": \" ++",
    "sprintf (str \": \" ++"
   ]
  ],
  "definition": "warn",
  "desc": "program name left out",
  "breaks": [
   "C96"
  ]
 },
 {
  "id": "u008",
  "edits": [
   [
    "Told.v",
    "match r with Fail x => [(\"%s\"%string, [tg_text T x])] | _ => [] end.\n\n(** as Cli",
    "match r with Fail x => [] | _ => [] end.\n\n(** as Cli"
   ]
  ],
  "definition": "die_err",
  "desc": "Die without a message",
  "breaks": [
   "C96"
  ]
 },
 {
  "id": "u009",
  "edits": [
   [
    "Told.v",
    "Definition die_err {A} (T : tongue) (r : res A) : list msg := match r with Fail x => [(\"%s\"%string",
    "Definition die_err {A} (T : tongue) (r : res A) : list msg := match r with Fail x => [(\"%s: %s\"%string"
   ]
  ],
  "definition": "die_err",
  "desc": "Die with the format of two values",
  "breaks": [
   "C96"
  ]
 },
 {
  "id": "u010",
  "edits": [
   [
    "Told.v",
    "mkOut c (sf_ops v m (wo_place W outfile) w) (wo_stdout W), ms)",
    "mkOut c (sf_ops v m (wo_place W outfile) w) (wo_stdout W), [])"
   ]
  ],
  "definition": "with_output_told",
  "desc": "messages of the body dropped when the output is a file",
  "breaks": [
   "C96"
  ]
 },
 {
  "id": "u011",
  "edits": [
   [
    "Told.v",
    "let '(c, w, ms) := body (wo_stdout W) in (mkOut c [] w, ms)",
    "let '(c, w, ms) := body (wo_stdout W) in (mkOut c [] w, [])"
   ]
  ],
  "definition": "with_output_told",
  "desc": "messages of the body dropped on standard output",
  "breaks": [
   "C96"
  ]
 },
 {
  "id": "u012",
  "edits": [
   [
    "Told.v",
    "done 1 [] [(\"Public/Private key files (%s, %s) exist. won't overwrite!\"%string, [skn; pkn])]",
    "done 1 [] []"
   ]
  ],
  "definition": "generate_told",
  "desc": "existing files: no message",
  "breaks": [
   "C96"
  ]
 },
 {
  "id": "u013",
  "edits": [
   [
    "Told.v",
    "[skn; pkn]",
    "[skn]"
   ]
  ],
  "definition": "generate_told",
  "desc": "existing files: one file name missing",
  "breaks": [
   "C96"
  ]
 },
 {
  "id": "u014",
  "edits": [
   [
    "Told.v",
    "None => skip (\"can't find user %s in %s\"%string, [fn; authkeys])",
    "None => let '(r, ms) := recipients_told T C E W authkeys pka fns' e g (errs + 1) in (r, ms)"
   ]
  ],
  "definition": "recipients_told",
  "desc": "unknown user: counted but not named",
  "breaks": [
   "C96"
  ]
 },
 {
  "id": "u015",
  "edits": [
   [
    "Told.v",
    "[fn; authkeys]",
    "[authkeys; fn]"
   ]
  ],
  "definition": "recipients_told",
  "desc": "unknown user: arguments swapped",
  "breaks": [
   "C96"
  ]
 },
 {
  "id": "u016",
  "edits": [
   [
    "Told.v",
    "(errs + 1) in (r, m :: ms)",
    "(errs + 1) in (r, ms ++ [m])"
   ]
  ],
  "definition": "recipients_told",
  "desc": "complaints in reverse order",
  "breaks": [
   "C96"
  ]
 },
 {
  "id": "u017",
  "edits": [
   [
    "Told.v",
    "| Fail x => skip (\"%s\"%string, [tg_text T x])",
    "| Fail x => if errs =? 0 then skip (\"%s\"%string, [tg_text T x]) else recipients_told T C E W authkeys pka fns' e g (errs + 1)"
   ]
  ],
  "definition": "recipients_told",
  "desc": "only the first unreadable key is named",
  "breaks": [
   "C96"
  ]
 },
 {
  "id": "u018",
  "edits": [
   [
    "Told.v",
    "| (e, _, g, Ok _) => recipients_told T C E W authkeys pka fns' e g errs",
    "| (e, _, g, Ok _) => let '(r, ms) := recipients_told T C E W authkeys pka fns' e g errs in (r, (\"%s\"%string, [fn]) :: ms)"
   ]
  ],
  "definition": "recipients_told",
  "desc": "a recipient that was added is complained about",
  "breaks": [
   "C96"
  ]
 },
 {
  "id": "u019",
  "edits": [
   [
    "Told.v",
    "(1, w, ms ++ [(\"Too many errors!\"%string, [])])",
    "(1, w, ms)"
   ]
  ],
  "definition": "enc_body_told",
  "desc": "no final Too many errors",
  "breaks": [
   "none: each bad recipient is still named"
  ]
 },
 {
  "id": "u020",
  "edits": [
   [
    "Told.v",
    "(1, w, ms ++ [(\"Too many errors!\"%string, [])])",
    "(1, w, [(\"Too many errors!\"%string, [])])"
   ]
  ],
  "definition": "enc_body_told",
  "desc": "complaints dropped at Too many errors",
  "breaks": [
   "C96"
  ]
 },
 {
  "id": "u021",
  "edits": [
   [
    "Told.v",
    "(0, snd (w_close w), ms)\n               | (_, _, w, _, r)",
    "(0, snd (w_close w), ms ++ [(\"done\"%string, [])])\n               | (_, _, w, _, r)"
   ]
  ],
  "definition": "enc_body_told",
  "desc": "a message on success",
  "breaks": [
   "C96"
  ]
 },
 {
  "id": "u022",
  "edits": [
   [
    "Told.v",
    "done 1 [(\"can't find homedir for this user\"%string, [])]",
    "done 1 []"
   ]
  ],
  "definition": "encrypt_told",
  "desc": "no home: no message",
  "breaks": [
   "C96"
  ]
 },
 {
  "id": "u023",
  "edits": [
   [
    "Told.v",
    "[infile; tg_text T x])] | _ => [] end)\n            end\n      | r => done (code_of r) (die_err T r)\n      end\n  | r => done (code_of r) (die_err T r)\n  end.\n\n(** crypt.go:324",
    "[infile])] | _ => [] end)\n            end\n      | r => done (code_of r) (die_err T r)\n      end\n  | r => done (code_of r) (die_err T r)\n  end.\n\n(** crypt.go:324"
   ]
  ],
  "definition": "encrypt_told",
  "desc": "unopenable input: value missing",
  "breaks": [
   "C96"
  ]
 },
 {
  "id": "u024",
  "edits": [
   [
    "Told.v",
    "ms ++ if test then",
    "ms ++ if negb test then"
   ]
  ],
  "definition": "dec_body_told",
  "desc": "Enc file OK without --test",
  "breaks": [
   "C96"
  ]
 },
 {
  "id": "u025",
  "edits": [
   [
    "Told.v",
    "| (_, w, r) => (code_of r, w, ms ++ die_err T r)\n          end\n      | (_, _, r)",
    "| (_, w, r) => (code_of r, w, ms ++ (if test then [(\"Enc file OK\"%string, [])] else []) ++ die_err T r)\n          end\n      | (_, _, r)"
   ]
  ],
  "definition": "dec_body_told",
  "desc": "Enc file OK before decrypting",
  "breaks": [
   "C96"
  ]
 },
 {
  "id": "u026",
  "edits": [
   [
    "Told.v",
    "| None => if authenticated_sender d",
    "| None => if negb (authenticated_sender d)"
   ]
  ],
  "definition": "dec_body_told",
  "desc": "the sender warning also when the sender is not authenticated",
  "breaks": [
   "C96"
  ]
 },
 {
  "id": "u027",
  "edits": [
   [
    "Told.v",
    "(mkWriter [] [] [] 0) in done c ms",
    "(mkWriter [] [] [] 0) in done c []"
   ]
  ],
  "definition": "decrypt_told",
  "desc": "test mode loses its message",
  "breaks": [
   "C96"
  ]
 },
 {
  "id": "u028",
  "edits": [
   [
    "Told.v",
    "      | r => (code_of r, w, die_err T r)\n      end\n  | r => (code_of r, w, die_err T r)\n  end.\nDefinition sign_told",
    "      | r => (code_of r, w, [])\n      end\n  | r => (code_of r, w, die_err T r)\n  end.\nDefinition sign_told"
   ]
  ],
  "definition": "sign_body_told",
  "desc": "unreadable file: no message",
  "breaks": [
   "C96"
  ]
 },
 {
  "id": "u029",
  "edits": [
   [
    "Told.v",
    "done 1 [(\"Wrong public key '%s' for verifying '%s'\"%string, [pn; sn])]",
    "done 1 []"
   ]
  ],
  "definition": "verify_told",
  "desc": "wrong public key: no message",
  "breaks": [
   "C96"
  ]
 },
 {
  "id": "u030",
  "edits": [
   [
    "Told.v",
    "(verify_text fn sn ok)",
    "(if ok then verify_text fn sn ok else [])"
   ]
  ],
  "definition": "verify_told",
  "desc": "negative verdict not printed",
  "breaks": [
   "C96"
  ]
 },
 {
  "id": "u031",
  "edits": [
   [
    "Told.v",
    "None => quit 1 [(\"Unknown command %s\"%string, [a])]",
    "None => quit 1 []"
   ]
  ],
  "definition": "main_told",
  "desc": "unknown command: no message",
  "breaks": [
   "C96"
  ]
 },
 {
  "id": "u032",
  "edits": [
   [
    "Told.v",
    "if mo_version o then quit 0 []",
    "if mo_version o then quit 0 [(\"version\"%string, [])]"
   ]
  ],
  "definition": "main_told",
  "desc": "--version also complains",
  "breaks": [
   "C96"
  ]
 },
 {
  "id": "u033",
  "edits": [
   [
    "Cli.v",
    "else if 0 <? len envpw then Ok (wo_getenv W envpw)",
    "else if 0 <? len (wo_getenv W (str \"PASSWORD\")) then Ok (wo_getenv W (str \"PASSWORD\")) else if 0 <? len envpw then Ok (wo_getenv W envpw)"
   ]
  ],
  "definition": "get_pass",
  "desc": "the environment variable PASSWORD is always looked at",
  "breaks": [
   "C97"
  ]
 }
]