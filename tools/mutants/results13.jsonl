{"mid": "x001", "lemmas": ["Thm_Advice.C96_missing_arguments"], "hard": [], "failed": ["C96_missing_arguments"], "secs": 50, "m": {"id": "x001", "definition": "sign_told", "desc": "the message of generate", "breaks": ["C96"], "edits": [["Told.v", "\"Insufficient arguments to 'sign'. Try '%s sign -h' ..\"", "\"Insufficient arguments to 'generate'. Try '%s generate -h' ..\""]]}}
{"mid": "x002", "lemmas": ["Thm_Advice.C96_missing_arguments"], "hard": [], "failed": ["C96_missing_arguments"], "secs": 49, "m": {"id": "x002", "definition": "verify_told", "desc": "advice for another command", "breaks": ["C96"], "edits": [["Told.v", "Try '%s verify -h' ..", "Try '%s sign -h' .."]]}}
{"mid": "x003", "lemmas": ["Thm_Advice.C96_missing_arguments"], "hard": [], "failed": ["C96_missing_arguments"], "secs": 45, "m": {"id": "x003", "definition": "generate_told", "desc": "program path instead of its base name", "breaks": ["C96"], "edits": [["Told.v", "\"Insufficient arguments to 'generate'. Try '%s generate -h' ..\"%string, [tg_base T]", "\"Insufficient arguments to 'generate'. Try '%s generate -h' ..\"%string, [tg_argv0 T]"]]}}
{"mid": "x004", "lemmas": ["Thm_Told.verify_truthful", "Thm_Advice.verify_advice"], "hard": [], "failed": ["C96_missing_arguments", "C96_truthful"], "secs": 55, "m": {"id": "x004", "definition": "verify_told", "desc": "said also when the signature does not match", "breaks": ["C96"], "edits": [["Told.v", "(\"Wrong public key '%s' for verifying '%s'\"%string, [pn; sn])", "(\"Insufficient arguments to 'verify'. Try '%s verify -h' ..\"%string, [tg_base T])"]]}}
{"mid": "x005", "lemmas": ["Thm_Told.C96_program_name_refuted", "Thm_Told.C96_truthful", "Thm_Advice.C96_missing_arguments"], "hard": [], "failed": ["C96_missing_arguments", "C96_program_name_refuted", "C96_truthful"], "secs": 84, "m": {"id": "x005", "definition": "main_told", "desc": "unknown command reported for no command", "breaks": ["C96"], "edits": [["Told.v", "(\"Insufficient arguments. Try '%s -h'\"%string, [tg_base T])", "(\"Unknown command %s\"%string, [tg_base T])"]]}}
{"mid": "x006", "lemmas": ["Thm_Advice.encrypt_advice"], "hard": [], "failed": ["C96_missing_arguments"], "secs": 59, "m": {"id": "x006", "definition": "encrypt_told", "desc": "missing home reported as missing arguments", "breaks": ["C96"], "edits": [["Told.v", "(\"can't find homedir for this user\"%string, [])", "(\"Insufficient args. Try '%s --help'\"%string, [tg_argv0 T])"]]}}
{"mid": "x007", "lemmas": ["Thm_Advice.C96_missing_arguments"], "hard": [], "failed": ["C96_missing_arguments"], "secs": 53, "m": {"id": "x007", "definition": "decrypt_told", "desc": "base name instead of argv[0]", "breaks": ["C96"], "edits": [["Told.v", "| [] => done 1 [(\"Insufficient args. Try '%s --help'\"%string, [tg_argv0 T])]", "| [] => done 1 [(\"Insufficient args. Try '%s --help'\"%string, [tg_base T])]"]]}}
