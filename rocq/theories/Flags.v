(** The options the commands declare (/repo/src/*.go) and how github.com/opencoff/pflag (external) reads a command line.
    opencoff/pflag is a fork of spf13/pflag; [parse_args], [parse_short] follow the published source of the latter
    (flag.go: parseArgs, parseLongArg, parseShortArg, parseSingleShortArg; bool.go, string.go). *)
From Verif Require Import Bytes GoErr GoIO Crypto Keys Sign KeyFiles GoText Ssh Encrypt Decrypt Fs Store Cli Main.

(** fs.BoolVarP / fs.StringVarP: long name, shorthand letter ("" = none), does it take a text *)
Record flag : Type := mkFlag { fg_name : bytes; fg_short : option byte; fg_bool : bool }.
Inductive fval : Type := VBool (b : bool) | VText (s : bytes).

(** strconv.ParseBool *)
Definition parse_bool (s : bytes) : option bool :=
  if existsb (beq s) [str "1"; str "t"; str "T"; str "TRUE"; str "true"; str "True"] then Some true
  else if existsb (beq s) [str "0"; str "f"; str "F"; str "FALSE"; str "false"; str "False"] then Some false
  else None.
(** Value.Set of bool.go and string.go *)
Definition set_value (f : flag) (s : bytes) : option fval :=
  if fg_bool f then match parse_bool s with Some b => Some (VBool b) | None => None end else Some (VText s).

(** f.formal[name], f.shorthands[c].  A name is declared once (pflag panics otherwise). *)
Definition by_name (fs : list flag) (n : bytes) : option flag := find (fun f => beq (fg_name f) n) fs.
Definition by_short (fs : list flag) (c : byte) : option flag :=
  find (fun f => match fg_short f with Some d => Byte.eqb d c | None => false end) fs.

(** what Parse comes to: usage was printed (an undeclared --help or -h), an error, or the assignments in order and the arguments *)
Inductive parse : Type := PHelp | PBad | PGood (sets : list (bytes * fval)) (args : list bytes).
Definition p_set (n : bytes) (v : fval) (p : parse) : parse := match p with PGood s a => PGood ((n, v) :: s) a | _ => p end.
Definition p_arg (a : bytes) (p : parse) : parse := match p with PGood s l => PGood s (a :: l) | _ => p end.
Fixpoint p_sets (l : list (bytes * fval)) (p : parse) : parse := match l with [] => p | (n, v) :: l' => p_set n v (p_sets l' p) end.

(** strings.SplitN(name, "=", 2) *)
Fixpoint split_eq (s : bytes) : bytes * option bytes :=
  match s with
  | [] => ([], None)
  | c :: s' => if Byte.eqb c x3d then ([], Some s') else let '(a, b) := split_eq s' in (c :: a, b)
  end.

(** flag.go parseShortArg/parseSingleShortArg on the letters after "-": the assignments, and the flag whose text is the next
    argument; letters that start with "test." are skipped (flags of go test) *)
Inductive short : Type := SHelp | SBad | SGood (sets : list (bytes * fval)) (needs : option flag).
Definition s_set (n : bytes) (v : fval) (p : short) : short := match p with SGood s a => SGood ((n, v) :: s) a | _ => p end.
Fixpoint parse_short (fs : list flag) (s : bytes) : short :=
  if is_prefix (str "test.") s then SGood [] None
  else match s with
       | [] => SGood [] None
       | c :: s' =>
           match by_short fs c with
           | None => if Byte.eqb c x68 then SHelp else SBad
           | Some f =>
               let whole t := match set_value f t with Some v => SGood [(fg_name f, v)] None | None => SBad end in
               match s' with
               | e :: t =>
                   if Byte.eqb e x3d && (0 <? len t) then whole t
                   else if fg_bool f then s_set (fg_name f) (VBool true) (parse_short fs s') else whole s'
               | [] => if fg_bool f then SGood [(fg_name f, VBool true)] None else SGood [] (Some f)
               end
           end
       end.

(** flag.go parseArgs *)
Fixpoint parse_args (fs : list flag) (interspersed : bool) (args : list bytes) : parse :=
  match args with
  | [] => PGood [] []
  | s :: rest =>
      match s with
      | c :: c2 :: name =>
          if negb (Byte.eqb c x2d) then (if interspersed then p_arg s (parse_args fs interspersed rest) else PGood [] args)
          else if Byte.eqb c2 x2d then
            match name with
            | [] => PGood [] rest
            | n0 :: _ =>
                if Byte.eqb n0 x2d || Byte.eqb n0 x3d then PBad
                else
                  let '(n, text) := split_eq name in
                  match by_name fs n with
                  | None => if beq n (str "help") then PHelp else PBad
                  | Some f =>
                      let put t k := match set_value f t with Some v => p_set (fg_name f) v k | None => PBad end in
                      match text with
                      | Some t => put t (parse_args fs interspersed rest)
                      | None =>
                          if fg_bool f then p_set (fg_name f) (VBool true) (parse_args fs interspersed rest)
                          else match rest with
                               | t :: rest' => put t (parse_args fs interspersed rest')
                               | [] => PBad
                               end
                      end
                  end
            end
          else
            match parse_short fs (c2 :: name) with
            | SHelp => PHelp
            | SBad => PBad
            | SGood sets None => p_sets sets (parse_args fs interspersed rest)
            | SGood sets (Some f) =>
                match rest with
                | t :: rest' => p_sets sets (match set_value f t with Some v => p_set (fg_name f) v (parse_args fs interspersed rest') | None => PBad end)
                | [] => PBad
                end
            end
      | _ => if interspersed then p_arg s (parse_args fs interspersed rest) else PGood [] args
      end
  end.
(** the variable behind an option: the last assignment, or the default *)
Fixpoint get_bool (sets : list (bytes * fval)) (n : bytes) (default : bool) : bool :=
  match sets with
  | [] => default
  | (m, VBool b) :: s => get_bool s n (if beq m n then b else default)
  | _ :: s => get_bool s n default
  end.
Fixpoint get_text (sets : list (bytes * fval)) (n : bytes) (default : bytes) : bytes :=
  match sets with
  | [] => default
  | (m, VText b) :: s => get_text s n (if beq m n then b else default)
  | _ :: s => get_text s n default
  end.

Definition fl (n : string) (c : option byte) (b : bool) : flag := mkFlag (str n) c b.
(** sigtool.go:33-38; SetInterspersed(false) *)
Definition main_flags : list flag := [fl "version" (Some x76) true; fl "help" (Some x68) true; fl "debug" None true].
(** gen.go:32-37 *)
Definition gen_flags : list flag :=
  [fl "help" (Some x68) true; fl "no-password" None true; fl "comment" (Some x63) false; fl "env-password" (Some x45) false; fl "overwrite" None true].
(** sign.go:33-38 *)
Definition sign_flags : list flag :=
  [fl "help" (Some x68) true; fl "no-password" None true; fl "env-password" (Some x45) false; fl "output" (Some x6f) false; fl "overwrite" None true].
(** verify.go:27-29 *)
Definition verify_flags : list flag := [fl "help" (Some x68) true; fl "quiet" (Some x71) true].
(** crypt.go:32-49 *)
Definition enc_flags : list flag :=
  [fl "outfile" (Some x6f) false; fl "sign" (Some x73) false; fl "no-password" None true; fl "env-password" (Some x45) false;
   fl "block-size" (Some x42) false; fl "overwrite" None true].
(** crypt.go:217-232 *)
Definition dec_flags : list flag :=
  [fl "outfile" (Some x6f) false; fl "no-password" None true; fl "env-password" (Some x45) false; fl "verify-sender" (Some x76) false;
   fl "test" (Some x74) true; fl "overwrite" None true].

(** flag.ExitOnError.  On an error, and on an undeclared --help or -h, pflag first calls the Usage function of the flag set and then
    exits with 2.  encrypt and decrypt set Usage to encryptUsage and decryptUsage (crypt.go:33-35, 218-220), which exit with 0
    (crypt.go:374, 390): pflag's exit is never reached, [code] is 0.  The other flag sets have pflag's own Usage, which returns, and declare
    help themselves, so that PHelp does not occur (Thm_Flags.v, no_undeclared_help): [code] is 2. *)
Definition ended {A} (code : Z) (p : parse) (f : list (bytes * fval) -> list bytes -> parsed A) : parsed A :=
  match p with PHelp | PBad => Quit code | PGood s a => f s a end.
Definition declared : flags := mkFlags
  (* sigtool.go:39-51 *)
  (fun argv => ended 2 (parse_args main_flags false argv) (fun s a => Options (mkMain (get_bool s (str "version") false) (get_bool s (str "help") false) a)))
  (* gen.go:39-54 *)
  (fun argv => ended 2 (parse_args gen_flags true argv) (fun s a =>
     if get_bool s (str "help") false then Quit 0
     else Options (mkGen (get_bool s (str "no-password") false) (get_text s (str "comment") []) (get_text s (str "env-password") [])
                         (get_bool s (str "overwrite") false) a)))
  (* sign.go:40-54 *)
  (fun argv => ended 2 (parse_args sign_flags true argv) (fun s a =>
     if get_bool s (str "help") false then Quit 0
     else Options (mkSo (get_text s (str "output") []) (get_text s (str "env-password") []) (get_bool s (str "no-password") false)
                        (get_bool s (str "overwrite") false) a)))
  (* verify.go:31-50 *)
  (fun argv => ended 2 (parse_args verify_flags true argv) (fun s a =>
     if get_bool s (str "help") false then Quit 0 else Options (get_bool s (str "quiet") false, a)))
  (* crypt.go:51-54, 83; the default block size is 128k (line 39) *)
  (fun argv => ended 0 (parse_args enc_flags true argv) (fun s a =>
     Options (mkEo (get_text s (str "outfile") []) (get_text s (str "sign") []) (get_text s (str "block-size") (str "128k"))
                   (get_text s (str "env-password") []) (get_bool s (str "no-password") false) (get_bool s (str "overwrite") false) a)))
  (* crypt.go:234-239 *)
  (fun argv => ended 0 (parse_args dec_flags true argv) (fun s a =>
     Options (mkDo (get_text s (str "outfile") []) (get_text s (str "verify-sender") []) (get_text s (str "env-password") [])
                   (get_bool s (str "no-password") false) (get_bool s (str "test") false) (get_bool s (str "overwrite") false) a))).
