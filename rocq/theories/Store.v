(** Serialize and Read on files: /repo/sign/keys.go:213-219, 418-425; /repo/sign/sign.go:84-92, 138-144. *)
From Verif Require Import Bytes GoErr GoIO Crypto Keys Sign KeyFiles Ssh Fs.

(** keys.go:213-219 PrivateKey.Serialize *)
Definition serialize_private (C : crypto) (E : ext) (v : sf_env) (f : fs) (dst : slot) (sk : privkey) (comment : bytes)
  (overwrite : bool) (pw : bytes) (g : rng) : list fop * res unit * rng :=
  match marshal_private C E sk comment pw g with
  | (Ok b, g) => (write_file v (oct 6 0 0) f dst b overwrite, g)
  | (Fail e, g) => ([], Fail e, g)
  | (Panic p, g) => ([], Panic p, g)
  end.
(** keys.go:418-425 PublicKey.Serialize *)
Definition serialize_public (E : ext) (v : sf_env) (f : fs) (dst : slot) (pk : pubkey) (comment : bytes) (overwrite : bool)
  : list fop * res unit := write_file v (oct 6 4 4) f dst (marshal_public E pk comment) overwrite.
(** sign.go:138-144 Signature.Serialize *)
Definition serialize_signature (E : ext) (v : sf_env) (f : fs) (dst : slot) (s : signature) (comment : bytes) (overwrite : bool)
  : list fop * res unit := write_file v (oct 6 4 4) f dst (marshal_signature E s comment) overwrite.

(** os.ReadFile of a path leading to slot s; [refused]: why an existing file cannot be read (permissions, I/O errors).
    A missing file is the error [enoent]. *)
Definition enoent : goerr := EExt 2.
Definition read_file (f : fs) (s : slot) (refused : option goerr) : res bytes :=
  match content f s with
  | None => Fail enoent
  | Some b => match refused with Some e => Fail e | None => Ok b end
  end.
