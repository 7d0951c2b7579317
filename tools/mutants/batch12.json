[
{
"id": "y001",
"definition": "yaml_sig",
"desc": "comment and hash exchanged",
"breaks": [
"C36"
],
"edits": [
[
"KeyFiles.v",
"y_opt E \"comment\" (ss_comment r) ++ y_opt E \"pkhash\" (ss_pkhash r) ++ y_field \"signature\"",
"y_opt E \"comment\" (ss_pkhash r) ++ y_opt E \"pkhash\" (ss_comment r) ++ y_field \"signature\""
]
]
},
{
"id": "y002",
"definition": "yaml_sig",
"desc": "the hash of the key is left out",
"breaks": [
"C36"
],
"edits": [
[
"KeyFiles.v",
"y_opt E \"comment\" (ss_comment r) ++ y_opt E \"pkhash\" (ss_pkhash r) ++ y_field \"signature\"",
"y_opt E \"comment\" (ss_comment r) ++ y_field \"signature\""
]
]
},
{
"id": "y003",
"definition": "read_private_key",
"desc": "no password function is passed on",
"breaks": [
"C34"
],
"edits": [
[
"KeyFiles.v",
"yml <- f ;; make_private_key C E yml getpw.",
"yml <- f ;; make_private_key C E yml None."
]
]
},
{
"id": "y004",
"definition": "read_public_key",
"desc": "an unreadable file is an empty file",
"breaks": [
"C47"
],
"edits": [
[
"KeyFiles.v",
"(f : res bytes) : res pubkey := yml <- f ;; make_public_key C E yml.",
"(f : res bytes) : res pubkey := make_public_key C E (match f with Ok b => b | _ => [] end)."
]
]
},
{
"id": "y005",
"definition": "sign_format",
"desc": "the wrong command is described",
"breaks": [
"C100"
],
"edits": [
[
"Usage.v",
"%s sign|s [options] privkey file",
"%s verify|s [options] privkey file"
]
]
},
{
"id": "y006",
"definition": "enc_texts",
"desc": "one value too few",
"breaks": [
"C100"
],
"edits": [
[
"Usage.v",
"[fill enc_format [tg_base T; tg_base T; tg_base T; tg_base T]]",
"[fill enc_format [tg_base T; tg_base T; tg_base T]]"
]
]
},
{
"id": "y007",
"definition": "dec_texts",
"desc": "the text of encrypt",
"breaks": [
"C100"
],
"edits": [
[
"Usage.v",
"[fill dec_format [tg_base T; tg_base T; tg_base T; tg_base T]]",
"[fill enc_format [tg_base T; tg_base T; tg_base T; tg_base T]]"
]
]
},
{
"id": "y008",
"definition": "verify_texts",
"desc": "options not shown",
"breaks": [
"C100"
],
"edits": [
[
"Usage.v",
"[fill verify_format [tg_base T; tg_base T]; bn_options B Verify]",
"[fill verify_format [tg_base T; tg_base T]]"
]
]
},
{
"id": "y009",
"definition": "verify_texts",
"desc": "options of another command",
"breaks": [
"C100"
],
"edits": [
[
"Usage.v",
"bn_options B Verify]",
"bn_options B Sign]"
]
]
},
{
"id": "y010",
"definition": "ew_calls_mem",
"desc": "the buffer of the first call is used for every call",
"breaks": [
"C104"
],
"edits": [
[
"Mem.v",
"let '(e, w, g, rs) := ew_calls_mem C e eb w g s cs in (e, w, g, r :: rs)",
"let '(e, w, g, rs) := ew_calls_mem C e [] w g s cs in (e, w, g, r :: rs)"
]
]
},
{
"id": "y011",
"definition": "in_slice",
"desc": "the rest of the buffer is lost",
"breaks": [
"C104"
],
"edits": [
[
"Mem.v",
"Ok (take lo d ++ s' ++ drop hi d)",
"Ok (take lo d ++ s')"
]
]
},
{
"id": "y012",
"definition": "call_code",
"desc": "public keys are never converted",
"breaks": [
"C94"
],
"edits": [
[
"Race.v",
"call_prog C (fun k pk => conv_pk k pk) (fun k sk => conv_sk C k sk) pks sks",
"call_prog C (fun k pk => conv_pk 0 pk) (fun k sk => conv_sk C k sk) pks sks"
]
]
},
{
"id": "y013",
"definition": "begin_",
"desc": "nobody has anything to do",
"breaks": [
"C94"
],
"edits": [
[
"Race.v",
"map (fun cs => mkGo cs None",
"map (fun cs => mkGo (tl cs) None"
]
]
},
{
"id": "y014",
"definition": "d_with",
"desc": "the stream state is reset",
"breaks": [
"C11"
],
"edits": [
[
"Decrypt.v",
"(d_auth d) (d_eof d) (d_stream d).\n\n(** encrypt.go:617",
"(d_auth d) (d_eof d) false.\n\n(** encrypt.go:617"
]
]
},
{
"id": "y015",
"definition": "b64_char",
"desc": "the alphabet is shifted by one",
"breaks": [
"C40"
],
"edits": [
[
"Base64.v",
"nth (Z.to_nat d) b64_alphabet x00",
"nth (Z.to_nat d + 1) b64_alphabet x00"
]
]
},
{
"id": "y016",
"definition": "run_ops",
"desc": "the last operation is not done",
"breaks": [
"C56"
],
"edits": [
[
"Fs.v",
"fold_left do_op ops f.",
"fold_left do_op (removelast ops) f."
]
]
},
{
"id": "y017",
"definition": "call_getpw",
"desc": "the error of the password prompt is dropped",
"breaks": [
"C34"
],
"edits": [
[
"Ssh.v",
"match f with Some r => r | None => Panic \"nil function call\" end",
"match f with Some (Fail _) => Ok [] | Some r => r | None => Panic \"nil function call\" end"
]
]
},
{
"id": "y018",
"definition": "main_flags",
"desc": "no letter for the version",
"breaks": [
"C100"
],
"edits": [
[
"Flags.v",
"fl \"version\" (Some x76) true",
"fl \"version\" None true"
]
]
}
]