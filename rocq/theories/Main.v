(** /repo/src/sigtool.go: the main program. *)
From Verif Require Import Bytes GoErr GoIO Crypto Keys Sign KeyFiles GoText Ssh Encrypt Decrypt Fs Store Cli.

(** What github.com/opencoff/pflag (external) makes of a command line: the program ends there (--help prints the usage and
    exits with 0: gen.go:39-50, sign.go:40-51, verify.go:33-48, crypt.go:48-52, 236-240; a wrong flag makes pflag exit with 2),
    or the options and arguments are known. *)
Inductive parsed (A : Type) : Type := Quit (code : Z) | Options (a : A).
Arguments Quit {A} code.
Arguments Options {A} a.
(** sigtool.go:33-39 *)
Record main_opts : Type := mkMain { mo_version : bool; mo_help : bool; mo_args : list bytes }.
Record flags : Type := mkFlags {
  fl_main : list bytes -> parsed main_opts;
  fl_gen : list bytes -> parsed gen_opts;
  fl_sign : list bytes -> parsed sign_opts;
  fl_verify : list bytes -> parsed (bool * list bytes);
  fl_enc : list bytes -> parsed enc_opts;
  fl_dec : list bytes -> parsed dec_opts }.

(** strings.ToLower.  U+0130 and U+212A are the only characters outside ASCII whose lower case is an ASCII letter (i and k).
    Simplification: other characters outside ASCII are kept as they are; their lower case is not ASCII either, and all the
    words compared with are. *)
Fixpoint to_lower (s : bytes) : bytes :=
  match s with
  | [] => []
  | c :: s1 =>
      let one := (if (65 <=? b2z c) && (b2z c <=? 90) then z2b (b2z c + 32) else c) :: to_lower s1 in
      match s1 with
      | [] => one
      | d :: s2 =>
          if Byte.eqb c xc4 && Byte.eqb d xb0 then x69 :: to_lower s2
          else match s2 with
               | [] => one
               | e :: s3 => if Byte.eqb c xe2 && Byte.eqb d x84 && Byte.eqb e xaa then x6b :: to_lower s3 else one
               end
      end
  end.

(** utils.Abbrev(words)[a] of github.com/opencoff/go-utils (external): the words themselves, and every non-empty prefix of
    exactly one of them *)
Definition abbrev (words : list bytes) (a : bytes) : option bytes :=
  if existsb (beq a) words then Some a
  else match a, filter (is_prefix a) words with
       | _ :: _, [w] => Some w
       | _, _ => None
       end.

(** sigtool.go:54-64 *)
Inductive command : Type := Generate | Sign | Verify | Encrypt_ | Decrypt_ | Help.
Definition cmds : list (bytes * command) :=
  [(str "generate", Generate); (str "sign", Sign); (str "verify", Verify); (str "encrypt", Encrypt_);
   (str "decrypt", Decrypt_); (str "help", Help)].
Fixpoint find_cmd (l : list (bytes * command)) (w : bytes) : option command :=
  match l with [] => None | (k, c) :: l' => if beq k w then Some c else find_cmd l' w end.

(** sigtool.go:82-86 and the flag parsing at the start of each command.  A command that returns exits with 0 (Exit(0)).
    The texts of usage and version on standard output are in Usage.v (C100). *)
Definition run_command (C : crypto) (E : ext) (W : world) (P : flags) (v1 v2 : sf_env) (c : command) (args : list bytes) : outcome :=
  let quit c := mkOut c [] (wo_stdout W) in
  match c with
  | Generate => match fl_gen P args with Quit c => quit c | Options o => cli_generate C E W v1 v2 o end
  | Sign => match fl_sign P args with Quit c => quit c | Options o => cli_sign C E W v1 o end
  | Verify => match fl_verify P args with Quit c => quit c | Options (quiet, a) => cli_verify_cmd C E W quiet a end
  | Encrypt_ => match fl_enc P args with Quit c => quit c | Options o => cli_encrypt C E W v1 o end
  | Decrypt_ => match fl_dec P args with Quit c => quit c | Options o => cli_decrypt C E W v1 o end
  | Help => quit 0
  end.

(** sigtool.go:30-87 main *)
Definition main (C : crypto) (E : ext) (W : world) (P : flags) (v1 v2 : sf_env) (argv : list bytes) : outcome :=
  let quit c := mkOut c [] (wo_stdout W) in
  match fl_main P argv with
  | Quit c => quit c
  | Options o =>
      if mo_version o then quit 0
      else if mo_help o then quit 0
      else match mo_args o with
           | [] => quit 1
           | a :: args =>
               match abbrev (map fst cmds) (to_lower a) with
               | None => quit 1
               | Some canon => match find_cmd cmds canon with
                               | None => quit 1
                               | Some c => run_command C E W P v1 v2 c args
                               end
               end
           end
  end.
