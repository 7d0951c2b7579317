(** Specification of the key files on which the parsers crash (C36, C56). *)
From Verif Require Import Bytes GoErr Crypto Keys Base64 SpecBase64 Ssh SpecSsh KeyFiles.

(** scrypt's cost parameters: accepted; crashing (division by zero, or more than 2^48 bytes of memory).  All others are
    refused with an error. *)
Definition power_of_2 (N : Z) : Prop := exists k, 1 <= k /\ N = 2^k.
Definition scrypt_fits (N r p : Z) : Prop := power_of_2 N /\ 1 <= r /\ 1 <= p /\ r * p < 2^30 /\ 128 * N * r <= 2^48.
Definition scrypt_crash (N r p : Z) : Prop := power_of_2 N /\
  (p = 0 \/ (r = 0 /\ (0 < p \/ p <= - 2^56)) \/ (1 <= r /\ 1 <= p /\ r * p < 2^30 /\ 2^48 < 128 * N * r < 2^63)).

(** sigtool's own format: salt and key are there and are base64, and the scrypt parameters crash, or are fine and the salt's
    base64 text is shorter than 16 characters (12 bytes are needed) *)
Definition crashing_yaml (r : spriv) : Prop :=
  sp_salt r <> [] /\ sp_esk r <> [] /\ (exists salt, b64_text (unbroken (sp_salt r)) salt) /\ (exists esk, b64_text (unbroken (sp_esk r)) esk) /\
  (scrypt_crash (sp_N r) (sp_R r) (sp_P r) \/ (scrypt_fits (sp_N r) (sp_R r) (sp_P r) /\ len (sp_salt r) < 16)).

(** OpenSSH's format.  [spare]: what remains of the capacity of the slice holding [d] *)
Definition crashing_openssh (d : bytes) (spare : Z) (getpw : getpw_fn) : Prop :=
  len d + spare < 15 \/ d = str "openssh-key-v1" \/
  (getpw = None /\ exists cipher opts pub block, d = container cipher (str "bcrypt") opts pub block /\
     (cipher = str "aes256-cbc" \/ cipher = str "aes256-ctr")) \/
  (exists p salt rounds pub block, d = container (str "aes256-cbc") (str "bcrypt") (S4 salt ++ be32 rounds) pub block /\
     getpw = Some (Ok p) /\ p <> [] /\ 0 < len salt <= 2^20 /\ 1 <= rounds < 2^32 /\ len block mod 16 <> 0).

(** a file is taken for an OpenSSH key if it contains this, not at its very beginning *)
Definition openssh_text (b : bytes) : Prop :=
  exists p q, p <> [] /\ b = p ++ str "OPENSSH PRIVATE KEY-" ++ q /\ forall r, b <> str "OPENSSH PRIVATE KEY-" ++ r.

(** the content of a private key file that makes its parser crash.  The passphrase is asked for before anything is parsed
    in sigtool's own format, so that a failing callback prevents the crash. *)
Definition crashing_private (E : ext) (b : bytes) (getpw : getpw_fn) : Prop :=
  (openssh_text b /\ exists blk, pem_decode E b = Some blk /\ pem_encrypted blk = false /\ pem_type blk = str "OPENSSH PRIVATE KEY" /\
     crashing_openssh (pem_bytes blk) (pem_spare blk) getpw) \/
  (~ openssh_text b /\ (forall e, getpw <> Some (Fail e)) /\ exists r, y_priv E b = Some r /\ crashing_yaml r).
(** ... of a public key file: an OpenSSH line with a key of another type *)
Definition crashing_public (b : bytes) : Prop :=
  exists k t c blob, three_fields b k t c /\ b64_text (unbroken t) blob /\ foreign_blob blob.
