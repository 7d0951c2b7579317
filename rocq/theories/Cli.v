(** /repo/src: the sigtool commands.  Command-line flags are taken as already parsed (github.com/opencoff/pflag, external);
    the messages printed to stderr are in Told.v (C96). *)
From Verif Require Import Bytes GoErr GoIO Crypto Keys Sign KeyFiles GoText Ssh Encrypt Decrypt Fs Store.

(** What a command finds: the files, how path strings map to directory entries, path.Clean; for files that exist: why
    they cannot be opened, in what pieces Read returns their content (and whether it fails midway), how they are mapped
    for hashing; environment variables; what the user types when asked for a passphrase (None: Askpass fails); the home
    directory; standard input and output; the random source; utils.ParseSize of github.com/opencoff/go-utils. *)
Record world : Type := mkWorld {
  wo_fs : fs; wo_place : bytes -> slot; wo_clean : bytes -> bytes;
  wo_refused : bytes -> option goerr; wo_pieces : bytes -> bytes -> reader; wo_mapped : bytes -> bytes -> file_in;
  wo_getenv : bytes -> bytes; wo_ask : option bytes; wo_home : option bytes;
  wo_stdin : reader; wo_stdout : writer; wo_rng : rng; wo_size : bytes -> res Z }.

(** how a command ends: the exit status (die.go:26-29: Die exits with 1; Go exits with 2 after a panic, having run the
    deferred calls), the file system calls made, and standard output *)
Record outcome : Type := mkOut { x_code : Z; x_ops : list fop; x_stdout : writer }.
Definition code_of {A} (r : res A) : Z := match r with Ok _ => 0 | Fail _ => 1 | Panic _ => 2 end.

(** ioutil.ReadFile(p) *)
Definition slurp (W : world) (p : bytes) : res bytes := read_file (wo_fs W) (wo_place W p) (wo_refused W p).
(** crypt.go:393-399 mustOpen(p, O_RDONLY), then reading it *)
Definition open_in (W : world) (p : bytes) : res reader :=
  match content (wo_fs W) (wo_place W p) with
  | None => Fail enoent
  | Some b => match wo_refused W p with Some e => Fail e | None => Ok (wo_pieces W p b) end
  end.
(** os.Open and mmap.Reader of p *)
Definition map_in (W : world) (p : bytes) : file_in :=
  match content (wo_fs W) (wo_place W p) with
  | None => Unopenable enoent
  | Some b => match wo_refused W p with Some e => Unopenable e | None => wo_mapped W p b end
  end.
(** the passphrase callbacks: crypt.go:64-77, 250-265, sign.go:87-103.  A failing Askpass calls Die inside the callback
    (exit 1); here the callback fails, which makes the caller Die. *)
Definition get_pass (W : world) (nopw : bool) (envpw : bytes) : res bytes :=
  if nopw then Ok []
  else if 0 <? len envpw then Ok (wo_getenv W envpw)
  else match wo_ask W with Some p => Ok p | None => Fail (EMsg "askpass") end.

(** a path given with -o that means a file *)
Definition names_file (o : bytes) : bool := (0 <? len o) && negb (beq o (str "-")).

(** run [body] on the destination: standard output, or a SafeFile which is opened first and aborted at exit *)
Definition with_output (W : world) (v : sf_env) (m : Z) (outfile : bytes) (tofile force : bool) (body : writer -> Z * writer) : outcome :=
  if tofile then
    match safe_open v (wo_fs W) (wo_place W outfile) force with
    | Ok _ => let '(c, w) := body (sf_sink v) in mkOut c (sf_ops v m (wo_place W outfile) w) (wo_stdout W)
    | r => mkOut (code_of r) [] (wo_stdout W)
    end
  else let '(c, w) := body (wo_stdout W) in mkOut c [] w.

(** ** generate: src/gen.go:27-100, src/sigtool.go:117-123 exists *)
Record gen_opts : Type := mkGen { ge_nopw : bool; ge_comment : bytes; ge_envpw : bytes; ge_force : bool; ge_args : list bytes }.
Definition exists_ (W : world) (p : bytes) : bool := match content (wo_fs W) (wo_place W p) with Some _ => true | None => false end.
(** [v1], [v2]: what happens to the SafeFiles of the private and of the public key *)
Definition cli_generate (C : crypto) (E : ext) (W : world) (v1 v2 : sf_env) (o : gen_opts) : outcome :=
  let done c ops := mkOut c ops (wo_stdout W) in
  match ge_args o with
  | [] => done 1 []
  | bn :: _ =>
      let pkn := wo_clean W bn ++ str ".pub" in
      let skn := wo_clean W bn ++ str ".key" in
      if negb (ge_force o) && (exists_ W pkn || exists_ W skn) then done 1 []
      else
        match get_pass W (ge_nopw o) (ge_envpw o) with
        | Ok pw =>
            let '(seed, g) := rand_buf 32 (wo_rng W) in
            let sk := new_private_key C seed in
            match serialize_private C E v1 (wo_fs W) (wo_place W skn) sk (ge_comment o) (ge_force o) pw g with
            | (ops1, Ok _, _) =>
                match serialize_public E v2 (run_ops (wo_fs W) ops1) (wo_place W pkn) (sk_pk sk) (ge_comment o) (ge_force o) with
                | (ops2, r) => done (code_of r) (ops1 ++ ops2)
                end
            | (ops1, r, _) => done (code_of r) ops1
            end
        | r => done (code_of r) []
        end
  end.

(** ** encrypt: src/crypt.go:31-201 *)
Record enc_opts : Type := mkEo { eo_outfile : bytes; eo_keyfile : bytes; eo_size : bytes; eo_envpw : bytes; eo_nopw : bool;
  eo_force : bool; eo_args : list bytes }.

(** strings.Index(fn, "@") > 0 *)
Definition is_user (fn : bytes) : bool := match find_byte (Byte.eqb x40) fn with Some i => 0 <? i | None => false end.
(** crypt.go:117-121: keymap[pk.Comment] = pk for each key in turn; then keymap[fn] *)
Fixpoint keymap_get (pka : list pubkey) (fn : bytes) (found : option pubkey) : option pubkey :=
  match pka with
  | [] => found
  | pk :: pka' => keymap_get pka' fn (if beq (pk_comment pk) fn then Some pk else found)
  end.

(** crypt.go:163-190: the loop over the recipients.  [Ok (e, g, errs)], or Die (Fail), or a panic.
    Simplification: a key used twice would have its curve point cached the second time; the cache holds what is
    computed here again. *)
Fixpoint enc_recipients (C : crypto) (E : ext) (W : world) (pka : list pubkey) (fns : list bytes) (e : encryptor) (g : rng) (errs : Z)
  : res (encryptor * rng * Z) :=
  match fns with
  | [] => Ok (e, g, errs)
  | fn :: fns' =>
      let pk := if is_user fn then match keymap_get pka fn None with Some pk => Ok pk | None => Fail (EMsg "can't find user %s in %s") end
                else read_public_key C E (slurp W fn) in
      match pk with
      | Ok pk => match add_recipient C e pk g with
                 | (e, _, g, Ok _) => enc_recipients C E W pka fns' e g errs
                 | (_, _, _, Fail x) => Fail x
                 | (_, _, _, Panic p) => Panic p
                 end
      | Fail _ => enc_recipients C E W pka fns' e g (errs + 1)
      | Panic p => Panic p
      end
  end.

(** crypt.go:158-200: exit status and destination *)
Definition enc_body (C : crypto) (E : ext) (W : world) (pka : list pubkey) (sk : option privkey) (blk : Z) (fns : list bytes) (rd : reader)
  (w : writer) : Z * writer :=
  match new_encryptor C sk blk (wo_rng W) with
  | (Ok e, g) =>
      match enc_recipients C E W pka fns e g 0 with
      | Ok (e, g, errs) =>
          if 0 <? errs then (1, w)
          else match encrypt C e rd w g with
               | (_, _, w, _, Ok _) => (0, snd (w_close w))
               | (_, _, w, _, r) => (code_of r, w)
               end
      | r => (code_of r, w)
      end
  | (r, _) => (code_of r, w)
  end.

(** os.IsNotExist *)
Definition not_exist (e : goerr) : bool := match e with EExt 2 => true | _ => false end.
(** crypt.go:31-157.  Lines 126-142 (the check that input and output are the same file, and the output mode) are dead
    code: the variable inf they test is the outer one, which line 95 shadows and which stays nil. *)
Definition cli_encrypt (C : crypto) (E : ext) (W : world) (v : sf_env) (o : enc_opts) : outcome :=
  let done c := mkOut c [] (wo_stdout W) in
  match wo_size W (eo_size o) with
  | Ok blk =>
      match (if 0 <? len (eo_keyfile o)
             then sk <- read_private_key C E (slurp W (eo_keyfile o)) (Some (get_pass W (eo_nopw o) (eo_envpw o))) ;; Ok (Some sk)
             else Ok None) with
      | Ok sk =>
          if len (eo_args o) <? 2 then done 1
          else
            let infile := last (eo_args o) [] in
            match (if beq infile (str "-") then Ok (wo_stdin W) else open_in W infile) with
            | Ok rd =>
                match wo_home W with
                | None => done 1
                | Some home =>
                    let go authdata :=
                      match parse_authorized_keys C authdata with
                      | Panic _ => done 2
                      | r =>
                          let pka := match r with Ok pka => pka | _ => [] end in
                          with_output W v (oct 6 0 0) (eo_outfile o) (names_file (eo_outfile o)) (eo_force o)
                            (enc_body C E W pka sk blk (removelast (eo_args o)) rd)
                      end in
                    match slurp W (home ++ str "/.ssh/authorized_keys") with
                    | Ok authdata => go authdata
                    | Fail e => if not_exist e then go [] else done 1
                    | Panic _ => done 2
                    end
                end
            | r => done (code_of r)
            end
      | r => done (code_of r)
      end
  | r => done (code_of r)
  end.

(** ** decrypt: src/crypt.go:216-352 *)
Record dec_opts : Type := mkDo { do_outfile : bytes; do_pubkey : bytes; do_envpw : bytes; do_nopw : bool; do_test : bool;
  do_force : bool; do_args : list bytes }.

(** crypt.go:324-346: exit status and destination.  The error of outfd.Close() is ignored. *)
Definition dec_body (C : crypto) (sk : privkey) (pk : option pubkey) (rd : reader) (w : writer) : Z * writer :=
  match new_decryptor C rd with
  | (Ok d, _) =>
      match set_private_key C d sk pk with
      | (d, _, Ok _) =>
          match decrypt C d w with
          | (_, w, Ok _) => (0, snd (w_close w))
          | (_, w, r) => (code_of r, w)
          end
      | (_, _, r) => (code_of r, w)
      end
  | (r, _) => (code_of r, w)
  end.

(** crypt.go:216-322.  Lines 294-308 are dead code as in encrypt.  With --test the output goes to a nullWriter
    (203-213), which accepts everything. *)
Definition cli_decrypt (C : crypto) (E : ext) (W : world) (v : sf_env) (o : dec_opts) : outcome :=
  let done c := mkOut c [] (wo_stdout W) in
  match do_args o with
  | [] => done 1
  | keyfile :: more =>
      match read_private_key C E (slurp W keyfile) (Some (get_pass W (do_nopw o) (do_envpw o))) with
      | Ok sk =>
          match (if 0 <? len (do_pubkey o) then pk <- read_public_key C E (slurp W (do_pubkey o)) ;; Ok (Some pk) else Ok None) with
          | Ok pk =>
              match (match more with
                     | infile :: _ => if beq infile (str "-") then Ok (wo_stdin W) else open_in W infile
                     | [] => Ok (wo_stdin W)
                     end) with
              | Ok rd =>
                  if do_test o then done (fst (dec_body C sk pk rd (mkWriter [] [] [] 0)))
                  else with_output W v (oct 6 0 0) (do_outfile o) (names_file (do_outfile o)) (do_force o) (dec_body C sk pk rd)
              | r => done (code_of r)
              end
          | r => done (code_of r)
          end
      | r => done (code_of r)
      end
  end.

(** ** sign: src/sign.go:28-116 *)
Record sign_opts : Type := mkSo { so_output : bytes; so_envpw : bytes; so_nopw : bool; so_force : bool; so_args : list bytes }.
(** sign.go:87-115.  The errors of Write and Close are ignored (one Write of an os.File or a SafeFile loops over the
    system's short writes, which is [fullwrite]). *)
Definition sign_body (C : crypto) (E : ext) (W : world) (o : sign_opts) (kn fn : bytes) (w : writer) : Z * writer :=
  match read_private_key C E (slurp W kn) (Some (get_pass W (so_nopw o) (so_envpw o))) with
  | Ok sk =>
      match sign_file C sk (map_in W fn) with
      | Ok s => let '(_, w) := fullwrite (marshal_signature E s (str "input=" ++ fn)) w in (0, snd (w_close w))
      | r => (code_of r, w)
      end
  | r => (code_of r, w)
  end.
Definition cli_sign (C : crypto) (E : ext) (W : world) (v : sf_env) (o : sign_opts) : outcome :=
  match so_args o with
  | kn :: fn :: _ =>
      let outf := if 0 <? len (so_output o) then so_output o else fn ++ str ".sig" in
      with_output W v (oct 6 4 4) outf (negb (beq outf (str "-"))) (so_force o) (sign_body C E W o kn fn)
  | _ => mkOut 1 [] (wo_stdout W)
  end.

(** ** verify: src/verify.go:24-96 *)
(** verify.go:50-80: [die c] is what happens when the program ends early with status c (Die: 1; a panic: 2), [say ok] is what
    it does with the verdict (82-95) *)
Definition verify_with {A} (die : Z -> A) (say : bytes -> bytes -> bool -> A) (C : crypto) (E : ext) (W : world) (args : list bytes) : A :=
  match args with
  | pn :: sn :: fn :: _ =>
      match (match make_public_from_string C pn with
             | Ok r => Ok r
             | Panic p => Panic p
             | Fail _ => pk <- read_public_key C E (slurp W pn) ;; Ok (Some pk)
             end) with
      | Ok pk =>
          match read_signature E (slurp W sn) with
          | Ok sig =>
              match pk with
              | None => die 2                       (* IsPKMatch dereferences the nil key *)
              | Some pk =>
                  if negb (is_pk_match sig pk) then die 1
                  else match verify_file C pk (map_in W fn) sig with
                       | Ok true => say fn sn true
                       | Ok false => say fn sn false
                       | r => die (code_of r)
                       end
              end
          | r => die (code_of r)
          end
      | r => die (code_of r)
      end
  | _ => die 1
  end.
(** the exit status (verify.go:82-85, 95) *)
Definition cli_verify (C : crypto) (E : ext) (W : world) (args : list bytes) : Z :=
  verify_with (fun c => c) (fun _ _ ok => if ok then 0 else 1) C E W args.
(** verify.go:82-95: the message, unless --quiet.  fmt.Printf makes one Write of an os.File (which loops over short writes)
    and its error is ignored. *)
Definition verify_text (fn sn : bytes) (ok : bool) : bytes :=
  fn ++ str ": Signature " ++ sn ++ (if ok then str " verified" else str " verification failure") ++ [x0a].
Definition cli_verify_cmd (C : crypto) (E : ext) (W : world) (quiet : bool) (args : list bytes) : outcome :=
  verify_with (fun c => mkOut c [] (wo_stdout W))
    (fun fn sn ok => mkOut (if ok then 0 else 1) [] (if quiet then wo_stdout W else snd (fullwrite (verify_text fn sn ok) (wo_stdout W))))
    C E W args.
