(** The texts about the program on standard output: usage, help and version. *)
From Verif Require Import Bytes GoErr GoIO Crypto Keys Sign KeyFiles GoText Ssh Encrypt Decrypt Fs Store Cli Main Flags Told.

(** sigtool.go:95-110 *)
Definition usage_format : string := "%s is a tool to generate, sign and verify files with Ed25519 signatures.

Usage: %s [global-options] command [options] arg [args..]

Global options:
  -h, --help       Show help and exit
  -v, --version    Show version info and exit
  --debug	   Enable debug (DANGEROUS)

Commands:
  generate, g      Generate a new Ed25519 keypair
  sign, s          Sign a file with a private key
  verify, v        Verify a signature against a file and a public key
  encrypt, e       Encrypt an input file to one or more recipients
  decrypt, d       Decrypt a file with a private key
"%string.
(** gen.go:43-49 *)
Definition gen_format : string := "%s generate|gen|g [options] file-prefix

Generate a new Ed25519 public+private key pair and write public key to
FILE-PREFIX.pub and private key to FILE-PREFIX.key.

Options:
"%string.
(** sign.go:44-49 *)
Definition sign_format : string := "%s sign|s [options] privkey file

Sign FILE with a Ed25519 private key PRIVKEY and write signature to FILE.sig

Options:
"%string.
(** verify.go:35-45 *)
Definition verify_format : string := "%s verify|v [options] pubkey sig file

Verify an Ed25519 signature in SIG of FILE using a public key PUBKEY.
The pubkey can be one of:
  - a file: either OpenSSH ed25519 pubkey or a sigtool pubkey
  - a string: the raw OpenSSH or sigtool pubkey

%s will first parse it as a string before trying to parse it as a file.

Options:
"%string.
(** crypt.go:355-371 *)
Definition enc_format : string := "%s encrypt: Encrypt a file to one or more recipients.

Usage: %s encrypt [options] to [to ...] infile|-

Where TO is the public key of the recipient; it can be one of:

- a file referring to an SSH or sigtool public key.
- string of the form 'a@b' - in which case the user's default
  ssh/authorized_keys is consulted to find the comment matching
  'a@b' - in which case the user's ssh authorized_keys file is consulted to
  find the comment matching the string.

INFILE is an input file to be encrypted. If the input file is '-' then %s
reads from STDIN. Unless '-o' is used, %s writes the encrypted output to STDOUT.

Options:
"%string.
(** crypt.go:378-387 *)
Definition dec_format : string := "%s decrypt: Decrypt a file.

Usage: %s decrypt [options] key [infile]

Where KEY is the private key to be used for decryption and INFILE is
the encrypted input file. If INFILE is not provided, %s reads
from STDIN. Unless '-o' is used, %s writes the decrypted output to STDOUT.

Options:
"%string.

(** What is not in /repo/src: ProductVersion and RepoVersion (sigtool.go:126-127: set by the linker), the text of pflag's PrintDefaults for
    each command's options, and what pflag writes to standard output when it ends the program itself. *)
Record banner : Type := mkBanner { bn_product : bytes; bn_repo : bytes; bn_options : command -> bytes; bn_pflag : list bytes }.

(** fmt.Sprintf, for the formats used here (all verbs are %s and each has its value: Thm_Usage.fill_all) *)
Definition fill (f : string) (args : list bytes) : bytes := match sprintf (str f) args with Some s => s | None => [] end.
(** sigtool.go:41 *)
Definition version_text (T : tongue) (B : banner) : bytes := fill "%s - %s [%s]
"%string [tg_base T; bn_product B; bn_repo B].
(** sigtool.go:94-112 usage *)
Definition usage_text (T : tongue) : bytes := fill usage_format [tg_base T; tg_base T].
(** gen.go:41-51, sign.go:42-52, verify.go:33-49: a text, then (fs.SetOutput(os.Stdout); fs.PrintDefaults()) the options, each in one Write *)
Definition gen_texts (T : tongue) (B : banner) : list bytes := [fill gen_format [tg_base T]; bn_options B Generate].
Definition sign_texts (T : tongue) (B : banner) : list bytes := [fill sign_format [tg_base T]; bn_options B Sign].
Definition verify_texts (T : tongue) (B : banner) : list bytes := [fill verify_format [tg_base T; tg_base T]; bn_options B Verify].
(** crypt.go:354-391 encryptUsage, decryptUsage: without SetOutput the options go to standard error (pflag's default) *)
Definition enc_texts (T : tongue) : list bytes := [fill enc_format [tg_base T; tg_base T; tg_base T; tg_base T]].
Definition dec_texts (T : tongue) : list bytes := [fill dec_format [tg_base T; tg_base T; tg_base T; tg_base T]].

(** what a command prints when the program ends while its options are read: gen.go:39-52, sign.go:40-53, verify.go:31-50, crypt.go:51, 234 *)
Definition command_texts (T : tongue) (B : banner) (c : command) (args : list bytes) : list bytes :=
  let asked fs l := match parse_args fs true args with
                    | PGood s _ => if get_bool s (str "help") false then l else []
                    | _ => bn_pflag B
                    end in
  let wrong fs l := match parse_args fs true args with PGood _ _ => [] | _ => l end in
  match c with
  | Generate => asked gen_flags (gen_texts T B)
  | Sign => asked sign_flags (sign_texts T B)
  | Verify => asked verify_flags (verify_texts T B)
  | Encrypt_ => wrong enc_flags (enc_texts T)
  | Decrypt_ => wrong dec_flags (dec_texts T)
  | Help => [usage_text T]
  end.
(** sigtool.go:33-86 *)
Definition main_texts (T : tongue) (B : banner) (argv : list bytes) : list bytes :=
  match parse_args main_flags false argv with
  | PGood s a =>
      if get_bool s (str "version") false then [version_text T B]
      else if get_bool s (str "help") false then [usage_text T]
      else match a with
           | [] => []
           | w :: args => match abbrev (map fst cmds) (to_lower w) with
                          | Some canon => match find_cmd cmds canon with Some c => command_texts T B c args | None => [] end
                          | None => []
                          end
           end
  | _ => bn_pflag B
  end.
(** one Write of os.Stdout for each text; errors are ignored *)
Definition print_all (l : list bytes) (w : writer) : writer := fold_left (fun w t => snd (fullwrite t w)) l w.
(** [main] with these texts: either they are all it prints, or there are none *)
Definition main_shown (T : tongue) (B : banner) (C : crypto) (E : ext) (W : world) (v1 v2 : sf_env) (argv : list bytes) : outcome :=
  let x := main C E W declared v1 v2 argv in
  mkOut (x_code x) (x_ops x) (print_all (main_texts T B argv) (x_stdout x)).
