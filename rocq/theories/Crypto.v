(** Cryptographic primitives used by /repo/sign, all external to the repository: Go's crypto/*,
    golang.org/x/crypto (hkdf, curve25519, scrypt) and dchest/bcrypt_pbkdf.  They are a record of
    functions; theorems quantify over every such record satisfying [crypto_ok]. *)
From Verif Require Import Bytes GoErr.

Record crypto : Type := mkCrypto {
  sha256 : bytes -> bytes;
  sha512 : bytes -> bytes;
  hmac_sha256 : bytes -> bytes -> bytes;                 (* key, data *)
  hkdf_sha512 : bytes -> bytes -> bytes -> Z -> bytes;   (* secret, salt, info, number of output bytes *)
  gcm_seal : bytes -> bytes -> bytes -> bytes -> bytes;  (* key, nonce, plaintext, additional data *)
  gcm_open : bytes -> bytes -> bytes -> bytes -> option bytes; (* key, nonce, ciphertext||tag, ad *)
  x25519 : bytes -> bytes -> bytes;                      (* scalar, u-coordinate *)
  ed_public : bytes -> bytes;                            (* 32-byte seed -> 32-byte public key *)
  ed_sign : bytes -> bytes -> bytes;                     (* 64-byte private key, message *)
  ed_verify : bytes -> bytes -> bytes -> bool;           (* public key, message, 64-byte signature *)
  scrypt : bytes -> bytes -> Z -> Z -> Z -> bytes;       (* password, salt, N, r, p; 32 bytes out *)
  bcrypt_kdf : bytes -> bytes -> Z -> bytes;             (* password, salt, rounds; 48 bytes out *)
  aes256_cbc_dec : bytes -> bytes -> bytes -> bytes;     (* key, iv, data *)
  aes256_ctr : bytes -> bytes -> bytes -> bytes          (* key, iv, data *)
}.

(** the Montgomery base point u = 9 (curve25519.Basepoint) *)
Definition basepoint : bytes := x09 :: zeros 31.

(** crypto/cipher: GCM overhead (tag) and nonce size *)
Definition gcm_overhead : Z := 16.

(** aes.NewCipher + cipher.NewGCM (the AEAD object is its key): only the key size can be wrong *)
Definition new_gcm (key : bytes) : res bytes :=
  if (len key =? 16) || (len key =? 24) || (len key =? 32) then Ok key
  else Fail (EMsg "crypto/aes: invalid key size").

(** curve25519.X25519(scalar, point) for a point other than the Basepoint slice *)
Definition X25519 (C : crypto) (scalar point : bytes) : res bytes :=
  if negb (len scalar =? 32) then Fail (EMsg "bad scalar length")
  else if negb (len point =? 32) then Fail (EMsg "bad point length")
  else let s := x25519 C scalar point in
       if beq s (zeros 32) then Fail (EMsg "bad input point: low order point") else Ok s.

(** ed25519.Verify: panics on a public key of the wrong size, false on a signature of the wrong size *)
Definition Ed_Verify (C : crypto) (pk msg sig : bytes) : res bool :=
  if negb (len pk =? 32) then Panic "ed25519: bad public key length"
  else Ok (if len sig =? 64 then ed_verify C pk msg sig else false).

(** ed25519.PrivateKey.Sign (never returns an error with crypto.Hash(0); panics on a wrong key size) *)
Definition Ed_Sign (C : crypto) (sk msg : bytes) : res bytes :=
  if negb (len sk =? 64) then Panic "ed25519: bad private key length" else Ok (ed_sign C sk msg).

(** scrypt.Key(password, salt, N, r, p, 32) of golang.org/x/crypto v0.37.0: parameter checks as in its
    source; note maxInt/128/p and maxInt/128/r divide by p and r.  It then allocates 32*N*r uint32: more than 2^48 bytes
    make the Go runtime (linux/amd64) panic.  Running out of memory below that limit is not modelled. *)
Definition max_int : Z := 2^63 - 1.
Definition is_pow2 (n : Z) : bool := Z.land n (n - 1) =? 0.
Definition scrypt_key (C : crypto) (pw salt : bytes) (N r p : Z) : res bytes :=
  if (N <=? 1) || negb (is_pow2 N) then Fail (EMsg "scrypt: N must be > 1 and a power of 2")
  else if 2^30 <=? u64 (u64 r * u64 p) then Fail (EMsg "scrypt: parameters are too large")
  else if p =? 0 then Panic "integer divide by zero"
  else if Z.quot (Z.quot max_int 128) p <? r then Fail (EMsg "scrypt: parameters are too large")
  else if Z.quot max_int 256 <? r then Fail (EMsg "scrypt: parameters are too large")
  else if r =? 0 then Panic "integer divide by zero"
  else if Z.quot (Z.quot max_int 128) r <? N then Fail (EMsg "scrypt: parameters are too large")
  else if 2^48 <? 128 * N * r then Panic "makeslice: len out of range"
  else Ok (scrypt C pw salt N r p).

