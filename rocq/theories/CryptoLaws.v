(** The laws assumed of the cryptographic primitives. *)
From Verif Require Import Bytes GoErr Crypto Keys.

(** ** Laws.  Each is an equation (or length fact) that holds of the real algorithm. *)
Record crypto_ok (C : crypto) : Prop := {
  ok_sha256_len : forall m, len (sha256 C m) = 32;
  ok_sha512_len : forall m, len (sha512 C m) = 64;
  ok_hmac_len : forall k m, len (hmac_sha256 C k m) = 32;
  ok_hkdf_len : forall s t i n, 0 <= n <= 255 * 64 -> len (hkdf_sha512 C s t i n) = n;
  ok_seal_len : forall k n p a, len (gcm_seal C k n p a) = len p + gcm_overhead;
  (* decryption inverts encryption; and an accepted ciphertext is the encryption of its plaintext *)
  ok_open_seal : forall k n p a, gcm_open C k n (gcm_seal C k n p a) a = Some p;
  ok_open_tidy : forall k n c a p, gcm_open C k n c a = Some p -> c = gcm_seal C k n p a;
  ok_x25519_len : forall s p, len (x25519 C s p) = 32;
  ok_ed_public_len : forall seed, len (ed_public C seed) = 32;
  ok_sign_len : forall sk m, len (ed_sign C sk m) = 64;
  (* a signature is never 64 zero bytes (R would be a point of order 4) *)
  ok_sign_nonzero : forall sk m, ed_sign C sk m <> zeros 64;
  ok_verify_sign : forall seed m, len seed = 32 ->
      ed_verify C (ed_public C seed) m (ed_sign C (seed ++ ed_public C seed) m) = true;
  (* Diffie-Hellman *)
  ok_dh : forall a b, len a = 32 -> len b = 32 ->
      x25519 C a (x25519 C b basepoint) = x25519 C b (x25519 C a basepoint);
  (* ... never yields the all-zero result on honest points (prime-order subgroup, clamped scalars) *)
  ok_dh_nonzero : forall a b, len a = 32 -> len b = 32 ->
      x25519 C a (x25519 C b basepoint) <> zeros 32;
  (* the birational map of keys.go:430-465 sends the Ed25519 public key of a seed to the X25519 public
     key of the scalar of keys.go:196-209 *)
  ok_birational : forall seed, len seed = 32 ->
      curve_of (ed_public C seed) = x25519 C (clamp (take 32 (sha512 C seed))) basepoint;
  ok_scrypt_len : forall pw salt n r p, len (scrypt C pw salt n r p) = 32;
  (* CBC decryption and CTR keep the length *)
  ok_cbc_len : forall k iv d, len (aes256_cbc_dec C k iv d) = len d;
  ok_ctr_len : forall k iv d, len (aes256_ctr C k iv d) = len d
}.
