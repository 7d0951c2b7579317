(** Specification vocabulary for the commands (C44 - C53): which files and keys the arguments mean. *)
From Verif Require Import Bytes GoErr GoIO SpecIO Crypto Keys Sign SpecSign KeyFiles Ssh Encrypt Decrypt Spec Fs SpecFs Store Cli.

(** the path names a readable file with this content *)
Definition file_holds (W : world) (p b : bytes) : Prop := content (wo_fs W) (wo_place W p) = Some b /\ wo_refused W p = None.
(** no such file (or the system says so) *)
Definition no_file (W : world) (p : bytes) : Prop := content (wo_fs W) (wo_place W p) = None \/ wo_refused W p = Some enoent.

(** an input argument: "-" is standard input *)
Definition input_is (W : world) (p : bytes) (rd : reader) : Prop :=
  p = str "-" /\ rd = wo_stdin W \/ p <> str "-" /\ exists b, file_holds W p b /\ rd = wo_pieces W p b.
(** the passphrase the user gives: none, that of the environment variable, or what is typed *)
Definition passphrase (W : world) (nopw : bool) (envpw : bytes) (r : res bytes) : Prop :=
  if nopw then r = Ok []
  else (envpw <> [] -> r = Ok (wo_getenv W envpw)) /\
       (envpw = [] -> match wo_ask W with Some p => r = Ok p | None => exists e, r = Fail e end).
(** the private key in file [p] *)
Definition private_in (C : crypto) (E : ext) (W : world) (nopw : bool) (envpw p : bytes) (sk : privkey) : Prop :=
  exists b pw, file_holds W p b /\ passphrase W nopw envpw pw /\ make_private_key C E b (Some pw) = Ok sk.
(** the public key in file [p] *)
Definition public_in (C : crypto) (E : ext) (W : world) (p : bytes) (pk : pubkey) : Prop :=
  exists b, file_holds W p b /\ make_public_key C E b = Ok pk.
(** an optional argument: "" is none *)
Definition opt_arg {A} (P : bytes -> A -> Prop) (p : bytes) (x : option A) : Prop :=
  match x with None => p = [] | Some a => p <> [] /\ P p a end.

(** a recipient argument like user@host: it contains an "@", not as its first character *)
Definition user_name (fn : bytes) : Prop := exists a b, fn = a ++ x40 :: b /\ a <> [] /\ ~ In x40 a.
(** the user's authorized keys; none if there is no such file *)
Definition authorized (C : crypto) (W : world) (ks : list pubkey) : Prop :=
  exists home, wo_home W = Some home /\ let p := home ++ str "/.ssh/authorized_keys" in
  (no_file W p /\ ks = [] \/ exists b, file_holds W p b /\ parse_authorized_keys C b = Ok ks).
(** the key a recipient argument stands for: for a user name the last authorized key with that comment *)
Definition recipient (C : crypto) (E : ext) (W : world) (fn : bytes) (pk : pubkey) : Prop :=
  (user_name fn /\ exists pre post, authorized C W (pre ++ pk :: post) /\ pk_comment pk = fn /\ Forall (fun k => pk_comment k <> fn) post) \/
  (~ user_name fn /\ public_in C E W fn pk).

(** files are read and mapped as they are *)
Definition read_whole (W : world) : Prop := forall p b, delivers (wo_pieces W p b) b IoEOF /\ holds (wo_mapped W p b) b.
(** the signature in file [p] *)
Definition signature_in (E : ext) (W : world) (p : bytes) (s : signature) : Prop :=
  exists b old, file_holds W p b /\ unmarshal_signature E old b = (s, Ok tt).
(** the public key argument of verify: the key itself as a string, or else a file *)
Definition key_arg (C : crypto) (E : ext) (W : world) (p : bytes) (pk : pubkey) : Prop :=
  make_public_from_string C p = Ok (Some pk) \/ (exists e, make_public_from_string C p = Fail e) /\ public_in C E W p pk.

(** a file option that means a file: not absent, not "-" *)
Definition a_file (o : bytes) : Prop := o <> [] /\ o <> str "-".

(** Something holds at every moment: whenever the program is stopped, between or within its system calls, by itself or
    by a power failure *)
Definition always (f : fs) (ops : list fop) (P : fs -> Prop) : Prop :=
  forall dn f', crash ops dn -> f' = run_ops f dn \/ survives f dn f' -> P f'.

(** the same world after a command made these system calls *)
Definition after (W : world) (ops : list fop) : world :=
  mkWorld (run_ops (wo_fs W) ops) (wo_place W) (wo_clean W) (wo_refused W) (wo_pieces W) (wo_mapped W) (wo_getenv W) (wo_ask W) (wo_home W)
    (wo_stdin W) (wo_stdout W) (wo_rng W) (wo_size W).
