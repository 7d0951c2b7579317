(** Specification of the OpenSSH formats (C37-C39), independent of the parsers. *)
From Verif Require Import Bytes GoErr Crypto Keys Base64 SpecBase64 GoText Ssh.

(** RFC 4251 "string": a 32-bit big-endian length and that many bytes *)
Definition S4 (s : bytes) : bytes := be32 (len s) ++ s.
(** RFC 8709: the public key blob of an Ed25519 key *)
Definition wire_key (key : bytes) : bytes := S4 (str "ssh-ed25519") ++ S4 key.
(** the blob of a key of another type *)
Definition foreign_blob (blob : bytes) : Prop :=
  exists algo rest, blob = S4 algo ++ rest /\ algo <> str "ssh-ed25519" /\ len algo < 2^32.

(** ** Text *)
(** an ASCII space character (tab, newline, vertical tab, form feed, carriage return, space) *)
Definition space (c : byte) : Prop := 9 <= b2z c <= 13 \/ b2z c = 32.
(** a space or a tab *)
Definition blank (c : byte) : Prop := b2z c = 32 \/ b2z c = 9.
(** a visible ASCII character *)
Definition graphic (c : byte) : Prop := 33 <= b2z c <= 126.
(** text that does not begin or end with a space *)
Definition neat (s : bytes) : Prop :=
  s = [] \/ exists a b, graphic a /\ graphic b /\ (s = [a] \/ exists m, s = a :: m ++ [b]).
Definition blanks (s : bytes) : Prop := s <> [] /\ Forall blank s.
(** one word of visible characters *)
Definition word (s : bytes) : Prop := s <> [] /\ Forall graphic s.
(** text within one line *)
Definition one_line (s : bytes) : Prop := Forall (fun c => c <> x0a /\ c <> x0d) s.

(** [k] is the key object for the 32 key bytes [key] with comment [c] *)
Definition loaded (C : crypto) (key comment : bytes) (pk : pubkey) : Prop :=
  pk = mkPub key comment None (take 16 (sha256 C key)).

(** ** authorized_keys *)
(** the part of an entry from the key type on: "type blob" or "type blob comment" *)
Definition key_part (kt blobtext comment part : bytes) : Prop :=
  exists bl1, blanks bl1 /\ word kt /\
    ((comment = [] /\ part = kt ++ bl1 ++ blobtext) \/
     (comment <> [] /\ neat comment /\ one_line comment /\ exists bl2, blanks bl2 /\ part = kt ++ bl1 ++ blobtext ++ bl2 ++ comment)).

(** the options field of an entry: visible characters, and double-quoted strings in which a quote is escaped by a backslash *)
Inductive quoted : bytes -> Prop :=
| q_nil : quoted []
| q_char : forall c s, c <> x22 -> c <> x5c -> c <> x0a -> c <> x0d -> quoted s -> quoted (c :: s)
| q_escaped : forall s, quoted s -> quoted (x5c :: x22 :: s).
Inductive options : bytes -> Prop :=
| o_nil : options []
| o_char : forall c s, graphic c -> c <> x22 -> c <> x5c -> options s -> options (c :: s)
| o_quoted : forall q s, quoted q -> options s -> options (x22 :: q ++ x22 :: s).

(** the second blank-separated word of a line *)
Definition second_word (line w : bytes) : Prop :=
  exists w1 bl tl, line = w1 ++ bl ++ w ++ tl /\ w1 <> [] /\ Forall (fun c => ~ blank c) w1 /\ blanks bl /\
    (exists c w', w = c :: w' /\ graphic c) /\ Forall (fun c => ~ blank c) w /\ (tl = [] \/ exists c tl', tl = c :: tl' /\ blank c).

(** the keys (with comments) a blob stands for: an Ed25519 key, or none if it is of another type *)
Inductive stands_for (blob comment : bytes) : list (bytes * bytes) -> Prop :=
| sf_key : forall key, len key = 32 -> blob = wire_key key -> stands_for blob comment [(key, comment)]
| sf_other : foreign_blob blob -> len blob < 2^32 -> stands_for blob comment [].

(** a line of the file (without its newline) and the keys (with comments) it stands for *)
Inductive auth_entry : bytes -> list (bytes * bytes) -> Prop :=
| ae_blank : forall s, Forall space s -> auth_entry s []
| ae_comment : forall s t, Forall space s -> auth_entry (s ++ x23 :: t) []
| ae_key : forall s part s' kt blobtext blob comment ks,
    Forall space s -> Forall space s' -> ~ In x0d s -> key_part kt blobtext comment part -> hd_error kt <> Some x23 ->
    b64_text blobtext blob -> stands_for blob comment ks ->
    auth_entry (s ++ part ++ s') ks
| ae_options : forall s o bl part s' kt blobtext blob comment ks w,
    Forall space s -> Forall space s' -> ~ In x0d s -> options o -> o <> [] -> hd_error o <> Some x23 -> blanks bl ->
    key_part kt blobtext comment part ->
    (* the word after the first blank is not itself base64 *)
    second_word (o ++ bl ++ part) w -> (forall b, ~ b64_text (unbroken w) b) ->
    b64_text blobtext blob -> stands_for blob comment ks ->
    auth_entry (s ++ (o ++ bl ++ part) ++ s') ks.

(** the entries of a file: one per line *)
Inductive auth_file : bytes -> list (bytes * bytes) -> Prop :=
| af_nil : auth_file [] []
| af_last : forall l ks, ~ In x0a l -> auth_entry l ks -> auth_file l ks
| af_line : forall l ks f ks', ~ In x0a l -> auth_entry l ks -> auth_file f ks' -> auth_file (l ++ x0a :: f) (ks ++ ks').

(** ** openssh-key-v1 private key containers *)
(** padding bytes 1, 2, 3, ..., n *)
Definition padding (n : nat) : bytes := map (fun i => z2b (Z.of_nat i)) (seq 1 n).
(** the (decrypted) private section *)
Definition private_section (priv sect : bytes) : Prop :=
  exists check pub comment n, len priv = 64 /\ 0 <= check < 2^32 /\ (n <= 255)%nat /\ len pub < 2^32 /\ len comment < 2^32 /\
    sect = be32 check ++ be32 check ++ S4 (str "ssh-ed25519") ++ S4 pub ++ S4 priv ++ S4 comment ++ padding n.
Definition container (cipher kdf kdfopts pub block : bytes) : bytes :=
  str "openssh-key-v1" ++ [x00] ++ S4 cipher ++ S4 kdf ++ S4 kdfopts ++ be32 1 ++ S4 pub ++ S4 block.
(** how the private section is obtained from the encrypted block with the password [pw] *)
Inductive unlocks (C : crypto) (pw : option bytes) : bytes -> bytes -> bytes -> bytes -> bytes -> Prop :=
| un_none : forall opts block, unlocks C pw (str "none") (str "none") opts block block
| un_cbc : forall p salt rounds block, pw = Some p -> p <> [] -> 0 < len salt <= 2^20 -> 1 <= rounds < 2^32 -> len block mod 16 = 0 ->
    let k := bcrypt_kdf C p salt rounds in
    unlocks C pw (str "aes256-cbc") (str "bcrypt") (S4 salt ++ be32 rounds) block
      (aes256_cbc_dec C (take 32 k) (take 16 (drop 32 k)) block)
| un_ctr : forall p salt rounds block, pw = Some p -> p <> [] -> 0 < len salt <= 2^20 -> 1 <= rounds < 2^32 ->
    let k := bcrypt_kdf C p salt rounds in
    unlocks C pw (str "aes256-ctr") (str "bcrypt") (S4 salt ++ be32 rounds) block
      (aes256_ctr C (take 32 k) (take 16 (drop 32 k)) block).

(** what a call of the password callback yields: None if there is no callback, or it fails *)
Definition password (f : getpw_fn) : option bytes := match f with Some (Ok p) => Some p | _ => None end.
(** the private key object for 64 key bytes (seed and public key) *)
Definition private_key_of (C : crypto) (priv : bytes) : privkey :=
  mkPriv priv None (mkPub (drop 32 priv) [] None (take 16 (sha256 C (drop 32 priv)))).

(** ** one-line public keys *)
(** text without blanks *)
Definition lone (s : bytes) : Prop := Forall (fun c => ~ blank c) s.
(** the line has exactly three fields separated by runs of blanks (the first or the last may be empty, i.e. the line
    may begin or end with blanks) *)
Definition three_fields (line a b c : bytes) : Prop :=
  exists bl1 bl2, line = a ++ bl1 ++ b ++ bl2 ++ c /\ blanks bl1 /\ blanks bl2 /\ lone a /\ lone b /\ lone c /\ b <> [].

(** ** soundness of authorized_keys *)
(** [sub] is a part of the text [s] *)
Definition part_of (sub s : bytes) : Prop := exists a b, s = a ++ sub ++ b.
