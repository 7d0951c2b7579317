(** Secrecy without probabilities: two crypto records which agree on everything an observer without certain keys can compute. *)
From Verif Require Import Bytes GoErr Crypto.

(** [C] and [C'] are the same functions, except that AES-GCM may differ under the keys in [aead], HMAC-SHA256 under the keys in [mac] and
    Ed25519 on the messages in [msg].  Whoever never evaluates AES-GCM under a key in [aead], HMAC-SHA256 under a key in [mac], or Ed25519 on a
    message in [msg], gets the same results from both, whatever he computes. *)
Record same_but (aead mac msg : bytes -> Prop) (C C' : crypto) : Prop := {
  sb_sha256 : sha256 C' = sha256 C;
  sb_sha512 : sha512 C' = sha512 C;
  sb_hkdf : hkdf_sha512 C' = hkdf_sha512 C;
  sb_x25519 : x25519 C' = x25519 C;
  sb_public : ed_public C' = ed_public C;
  sb_scrypt : scrypt C' = scrypt C;
  sb_bcrypt : bcrypt_kdf C' = bcrypt_kdf C;
  sb_cbc : aes256_cbc_dec C' = aes256_cbc_dec C;
  sb_ctr : aes256_ctr C' = aes256_ctr C;
  sb_sign : forall k m, ~ msg m -> ed_sign C' k m = ed_sign C k m;
  sb_verify : forall k m s, ~ msg m -> ed_verify C' k m s = ed_verify C k m s;
  sb_hmac : forall k m, ~ mac k -> hmac_sha256 C' k m = hmac_sha256 C k m;
  sb_seal : forall k n p a, ~ aead k -> gcm_seal C' k n p a = gcm_seal C k n p a;
  sb_open : forall k n c a, ~ aead k -> gcm_open C' k n c a = gcm_open C k n c a }.
Definition nothing : bytes -> Prop := fun _ => False.
