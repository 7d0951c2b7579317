(** The messages of the sigtool commands on standard error: /repo/src/die.go:23-41 and every call of Die and Warn in /repo/src.
    The commands are those of Cli.v and Main.v again, with the messages next to the outcome (Thm_Told.told_outcome: the outcome is the same).
    A panic is reported by the Go run time, not by the program: no message here. *)
From Verif Require Import Bytes GoErr GoIO Crypto Keys Sign KeyFiles GoText Ssh Encrypt Decrypt Fs Store Cli Main.

(** the arguments of a call of Die or Warn: the format and the values *)
Definition msg : Type := string * list bytes.
(** os.Args[0] and Z = path.Base(os.Args[0]) (sigtool.go:28), and the text of an error: err.Error() *)
Record tongue : Type := mkTongue { tg_argv0 : bytes; tg_base : bytes; tg_text : goerr -> bytes }.

(** fmt.Sprintf for values that are strings or errors.  [None]: other verbs, widths and left-over values, whose rendering is not modelled. *)
Fixpoint sprintf (f : bytes) (args : list bytes) : option bytes :=
  match f with
  | [] => match args with [] => Some [] | _ => None end
  | x25 :: x73 :: f' =>
      match args with
      | a :: args' => match sprintf f' args' with Some s => Some (a ++ s) | None => None end
      | [] => match sprintf f' [] with Some s => Some (str "%!s(MISSING)" ++ s) | None => None end
      end
  | x25 :: x25 :: f' => match sprintf f' args with Some s => Some (x25 :: s) | None => None end
  | x25 :: _ => None
  | b :: f' => match sprintf f' args with Some s => Some (b :: s) | None => None end
  end.
(** die.go:31-41 Warn: what is written to standard error.  (s[n-1] exists: the text contains ": ".) *)
Definition warn (argv0 : bytes) (m : msg) : option bytes :=
  match sprintf (argv0 ++ str ": " ++ str (fst m)) (snd m) with
  | Some s => Some (if Byte.eqb (last s x00) x0a then s else s ++ [x0a])
  | None => None
  end.

(** die.go:23-29 Die("%s", err) *)
Definition die_err {A} (T : tongue) (r : res A) : list msg := match r with Fail x => [("%s"%string, [tg_text T x])] | _ => [] end.

(** as Cli.with_output; [pre] is put before the error of NewSafeFile (sign.go:78: "can't create sig file: ") *)
Definition with_output_told (T : tongue) (W : world) (v : sf_env) (m : Z) (outfile : bytes) (tofile force : bool) (pre : string)
  (body : writer -> Z * writer * list msg) : outcome * list msg :=
  if tofile then
    match safe_open v (wo_fs W) (wo_place W outfile) force with
    | Ok _ => let '(c, w, ms) := body (sf_sink v) in (mkOut c (sf_ops v m (wo_place W outfile) w) (wo_stdout W), ms)
    | r => (mkOut (code_of r) [] (wo_stdout W), match r with Fail x => [(pre, [tg_text T x])] | _ => [] end)
    end
  else let '(c, w, ms) := body (wo_stdout W) in (mkOut c [] w, ms).

(** gen.go:54-99.  A failing Askpass: Die("%s", err) at line 80. *)
Definition generate_told (T : tongue) (C : crypto) (E : ext) (W : world) (v1 v2 : sf_env) (o : gen_opts) : outcome * list msg :=
  let done c ops ms := (mkOut c ops (wo_stdout W), ms) in
  match ge_args o with
  | [] => done 1 [] [("Insufficient arguments to 'generate'. Try '%s generate -h' .."%string, [tg_base T])]
  | bn :: _ =>
      let pkn := wo_clean W bn ++ str ".pub" in
      let skn := wo_clean W bn ++ str ".key" in
      if negb (ge_force o) && (exists_ W pkn || exists_ W skn)
      then done 1 [] [("Public/Private key files (%s, %s) exist. won't overwrite!"%string, [skn; pkn])]
      else
        match get_pass W (ge_nopw o) (ge_envpw o) with
        | Ok pw =>
            let '(seed, g) := rand_buf 32 (wo_rng W) in
            let sk := new_private_key C seed in
            match serialize_private C E v1 (wo_fs W) (wo_place W skn) sk (ge_comment o) (ge_force o) pw g with
            | (ops1, Ok _, _) =>
                match serialize_public E v2 (run_ops (wo_fs W) ops1) (wo_place W pkn) (sk_pk sk) (ge_comment o) (ge_force o) with
                | (ops2, r) => done (code_of r) (ops1 ++ ops2) (die_err T r)
                end
            | (ops1, r, _) => done (code_of r) ops1 (die_err T r)
            end
        | r => done (code_of r) [] (die_err T r)
        end
  end.

(** crypt.go:163-190: the loop over the recipients, with its warnings *)
Fixpoint recipients_told (T : tongue) (C : crypto) (E : ext) (W : world) (authkeys : bytes) (pka : list pubkey) (fns : list bytes) (e : encryptor)
  (g : rng) (errs : Z) : res (encryptor * rng * Z) * list msg :=
  match fns with
  | [] => (Ok (e, g, errs), [])
  | fn :: fns' =>
      let add pk :=
        match add_recipient C e pk g with
        | (e, _, g, Ok _) => recipients_told T C E W authkeys pka fns' e g errs
        | (_, _, _, Fail x) => (Fail x, [("%s"%string, [tg_text T x])])
        | (_, _, _, Panic p) => (Panic p, [])
        end in
      let skip m := let '(r, ms) := recipients_told T C E W authkeys pka fns' e g (errs + 1) in (r, m :: ms) in
      if is_user fn then
        match keymap_get pka fn None with
        | Some pk => add pk
        | None => skip ("can't find user %s in %s"%string, [fn; authkeys])
        end
      else
        match read_public_key C E (slurp W fn) with
        | Ok pk => add pk
        | Fail x => skip ("%s"%string, [tg_text T x])
        | Panic p => (Panic p, [])
        end
  end.
(** crypt.go:158-200 *)
Definition enc_body_told (T : tongue) (C : crypto) (E : ext) (W : world) (authkeys : bytes) (pka : list pubkey) (sk : option privkey) (blk : Z)
  (fns : list bytes) (rd : reader) (w : writer) : Z * writer * list msg :=
  match new_encryptor C sk blk (wo_rng W) with
  | (Ok e, g) =>
      match recipients_told T C E W authkeys pka fns e g 0 with
      | (Ok (e, g, errs), ms) =>
          if 0 <? errs then (1, w, ms ++ [("Too many errors!"%string, [])])
          else match encrypt C e rd w g with
               | (_, _, w, _, Ok _) => (0, snd (w_close w), ms)
               | (_, _, w, _, r) => (code_of r, w, ms ++ die_err T r)
               end
      | (r, ms) => (code_of r, w, ms)
      end
  | (r, _) => (code_of r, w, die_err T r)
  end.
(** crypt.go:31-157.  A failing Askpass dies inside the callback (line 73) with its own error, which is part of the one ReadPrivateKey would
    return: one message in either case. *)
Definition encrypt_told (T : tongue) (C : crypto) (E : ext) (W : world) (v : sf_env) (o : enc_opts) : outcome * list msg :=
  let done c ms := (mkOut c [] (wo_stdout W), ms) in
  match wo_size W (eo_size o) with
  | Ok blk =>
      match (if 0 <? len (eo_keyfile o)
             then sk <- read_private_key C E (slurp W (eo_keyfile o)) (Some (get_pass W (eo_nopw o) (eo_envpw o))) ;; Ok (Some sk)
             else Ok None) with
      | Ok sk =>
          if len (eo_args o) <? 2 then done 1 [("Insufficient args. Try '%s --help'"%string, [tg_argv0 T])]
          else
            let infile := last (eo_args o) [] in
            match (if beq infile (str "-") then Ok (wo_stdin W) else open_in W infile) with
            | Ok rd =>
                match wo_home W with
                | None => done 1 [("can't find homedir for this user"%string, [])]
                | Some home =>
                    let authkeys := home ++ str "/.ssh/authorized_keys" in
                    let go authdata :=
                      match parse_authorized_keys C authdata with
                      | Panic _ => done 2 []
                      | r =>
                          let pka := match r with Ok pka => pka | _ => [] end in
                          with_output_told T W v (oct 6 0 0) (eo_outfile o) (names_file (eo_outfile o)) (eo_force o) "%s"
                            (enc_body_told T C E W authkeys pka sk blk (removelast (eo_args o)) rd)
                      end in
                    match slurp W authkeys with
                    | Ok authdata => go authdata
                    | Fail e => if not_exist e then go [] else done 1 [("can't open %s: %s"%string, [authkeys; tg_text T e])]
                    | Panic _ => done 2 []
                    end
                end
            | r => done (code_of r) (match r with Fail x => [("can't open file %s: %s"%string, [infile; tg_text T x])] | _ => [] end)
            end
      | r => done (code_of r) (die_err T r)
      end
  | r => done (code_of r) (die_err T r)
  end.

(** crypt.go:324-351 *)
Definition dec_body_told (T : tongue) (C : crypto) (sk : privkey) (pk : option pubkey) (infile : bytes) (test : bool) (rd : reader) (w : writer)
  : Z * writer * list msg :=
  match new_decryptor C rd with
  | (Ok d, _) =>
      match set_private_key C d sk pk with
      | (d, _, Ok _) =>
          let ms := match pk with
                    | None => if authenticated_sender d
                              then [("%s: Missing sender Public Key; can't authenticate sender .."%string,
                                     [if (len infile =? 0) || beq infile (str "-") then str "<stdin>" else infile])] else []
                    | Some _ => []
                    end in
          match decrypt C d w with
          | (_, w, Ok _) => (0, snd (w_close w), ms ++ if test then [("Enc file OK"%string, [])] else [])
          | (_, w, r) => (code_of r, w, ms ++ die_err T r)
          end
      | (_, _, r) => (code_of r, w, die_err T r)
      end
  | (r, _) => (code_of r, w, die_err T r)
  end.
(** crypt.go:216-322 *)
Definition decrypt_told (T : tongue) (C : crypto) (E : ext) (W : world) (v : sf_env) (o : dec_opts) : outcome * list msg :=
  let done c ms := (mkOut c [] (wo_stdout W), ms) in
  match do_args o with
  | [] => done 1 [("Insufficient args. Try '%s --help'"%string, [tg_argv0 T])]
  | keyfile :: more =>
      match read_private_key C E (slurp W keyfile) (Some (get_pass W (do_nopw o) (do_envpw o))) with
      | Ok sk =>
          match (if 0 <? len (do_pubkey o) then pk <- read_public_key C E (slurp W (do_pubkey o)) ;; Ok (Some pk) else Ok None) with
          | Ok pk =>
              let infile := match more with f :: _ => f | [] => [] end in
              match (match more with
                     | infile :: _ => if beq infile (str "-") then Ok (wo_stdin W) else open_in W infile
                     | [] => Ok (wo_stdin W)
                     end) with
              | Ok rd =>
                  if do_test o then let '(c, _, ms) := dec_body_told T C sk pk infile true rd (mkWriter [] [] [] 0) in done c ms
                  else with_output_told T W v (oct 6 0 0) (do_outfile o) (names_file (do_outfile o)) (do_force o) "%s"
                         (dec_body_told T C sk pk infile false rd)
              | r => done (code_of r) (match r with Fail x => [("can't open file %s: %s"%string, [infile; tg_text T x])] | _ => [] end)
              end
          | r => done (code_of r) (die_err T r)
          end
      | r => done (code_of r) (die_err T r)
      end
  end.

(** sign.go:87-115 *)
Definition sign_body_told (T : tongue) (C : crypto) (E : ext) (W : world) (o : sign_opts) (kn fn : bytes) (w : writer) : Z * writer * list msg :=
  match read_private_key C E (slurp W kn) (Some (get_pass W (so_nopw o) (so_envpw o))) with
  | Ok sk =>
      match sign_file C sk (map_in W fn) with
      | Ok s => let '(_, w) := fullwrite (marshal_signature E s (str "input=" ++ fn)) w in (0, snd (w_close w), [])
      | r => (code_of r, w, die_err T r)
      end
  | r => (code_of r, w, die_err T r)
  end.
Definition sign_told (T : tongue) (C : crypto) (E : ext) (W : world) (v : sf_env) (o : sign_opts) : outcome * list msg :=
  match so_args o with
  | kn :: fn :: _ =>
      let outf := if 0 <? len (so_output o) then so_output o else fn ++ str ".sig" in
      with_output_told T W v (oct 6 4 4) outf (negb (beq outf (str "-"))) (so_force o) "can't create sig file: %s" (sign_body_told T C E W o kn fn)
  | _ => (mkOut 1 [] (wo_stdout W), [("Insufficient arguments to 'sign'. Try '%s sign -h' .."%string, [tg_base T])])
  end.

(** verify.go:50-95 *)
Definition verify_told (T : tongue) (C : crypto) (E : ext) (W : world) (quiet : bool) (args : list bytes) : outcome * list msg :=
  let done c ms := (mkOut c [] (wo_stdout W), ms) in
  match args with
  | pn :: sn :: fn :: _ =>
      match (match make_public_from_string C pn with
             | Ok r => Ok r
             | Panic p => Panic p
             | Fail _ => pk <- read_public_key C E (slurp W pn) ;; Ok (Some pk)
             end) with
      | Ok pk =>
          match read_signature E (slurp W sn) with
          | Ok sig =>
              match pk with
              | None => done 2 []
              | Some pk =>
                  if negb (is_pk_match sig pk) then done 1 [("Wrong public key '%s' for verifying '%s'"%string, [pn; sn])]
                  else match verify_file C pk (map_in W fn) sig with
                       | Ok ok => (mkOut (if ok then 0 else 1) []
                                     (if quiet then wo_stdout W else snd (fullwrite (verify_text fn sn ok) (wo_stdout W))), [])
                       | r => done (code_of r) (die_err T r)
                       end
              end
          | r => done (code_of r) (match r with Fail x => [("Can't read signature '%s': %s"%string, [sn; tg_text T x])] | _ => [] end)
          end
      | r => done (code_of r) (die_err T r)
      end
  | _ => done 1 [("Insufficient arguments to 'verify'. Try '%s verify -h' .."%string, [tg_base T])]
  end.

(** sigtool.go:30-87.  What pflag itself prints when it ends the program is not modelled. *)
Definition run_told (T : tongue) (C : crypto) (E : ext) (W : world) (P : flags) (v1 v2 : sf_env) (c : command) (args : list bytes) : outcome * list msg :=
  let quit c := (mkOut c [] (wo_stdout W), []) in
  match c with
  | Generate => match fl_gen P args with Quit c => quit c | Options o => generate_told T C E W v1 v2 o end
  | Sign => match fl_sign P args with Quit c => quit c | Options o => sign_told T C E W v1 o end
  | Verify => match fl_verify P args with Quit c => quit c | Options (quiet, a) => verify_told T C E W quiet a end
  | Encrypt_ => match fl_enc P args with Quit c => quit c | Options o => encrypt_told T C E W v1 o end
  | Decrypt_ => match fl_dec P args with Quit c => quit c | Options o => decrypt_told T C E W v1 o end
  | Help => quit 0
  end.
Definition main_told (T : tongue) (C : crypto) (E : ext) (W : world) (P : flags) (v1 v2 : sf_env) (argv : list bytes) : outcome * list msg :=
  let quit c ms := (mkOut c [] (wo_stdout W), ms) in
  match fl_main P argv with
  | Quit c => quit c []
  | Options o =>
      if mo_version o then quit 0 []
      else if mo_help o then quit 0 []
      else match mo_args o with
           | [] => quit 1 [("Insufficient arguments. Try '%s -h'"%string, [tg_base T])]
           | a :: args =>
               match abbrev (map fst cmds) (to_lower a) with
               | None => quit 1 [("Unknown command %s"%string, [a])]
               | Some canon => match find_cmd cmds canon with
                               | None => quit 1 [("can't map command %s"%string, [canon])]
                               | Some c => run_told T C E W P v1 v2 c args
                               end
               end
           end
  end.
