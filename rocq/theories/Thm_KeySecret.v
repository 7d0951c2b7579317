(** C89: what a private key file shows to somebody who lacks the password. *)
From Verif Require Import Bytes BytesLemmas GoErr GoIO IOProofs Crypto CryptoLaws Keys KeyFiles ExtLaws Spec SpecSecret EncryptProofs Thm_Secret Toy Scene ToyExt.
Require Import ZifyBool.

(** under the key [dk], the plaintexts [a] and [b] change places *)
Section Swapped.
  Variables (C : crypto) (dk a b : bytes).
  Hypothesis Hlen : len a = len b.
  Definition pi (k x : bytes) : bytes := if beq k dk then swap a b x else x.
  Definition swapped : crypto :=
    mkCrypto (sha256 C) (sha512 C) (hmac_sha256 C) (hkdf_sha512 C) (fun k n p ad => gcm_seal C k n (pi k p) ad)
      (fun k n c ad => match gcm_open C k n c ad with Some p => Some (pi k p) | None => None end)
      (x25519 C) (ed_public C) (ed_sign C) (ed_verify C) (scrypt C) (bcrypt_kdf C) (aes256_cbc_dec C) (aes256_ctr C).
  Lemma pi_pi k x : pi k (pi k x) = x.
  Proof. unfold pi. destruct (beq k dk); [apply swap_swap|reflexivity]. Qed.
  Lemma pi_len k x : len (pi k x) = len x.
  Proof. unfold pi. destruct (beq k dk); [apply swap_len, Hlen|reflexivity]. Qed.
  Lemma swapped_ok : crypto_ok C -> crypto_ok swapped.
  Proof.
    intros []. constructor; cbn [swapped sha256 sha512 hmac_sha256 hkdf_sha512 gcm_seal gcm_open x25519 ed_public ed_sign ed_verify scrypt aes256_cbc_dec aes256_ctr]; auto.
    - intros. rewrite ok_seal_len, pi_len. reflexivity.
    - intros. rewrite ok_open_seal, pi_pi. reflexivity.
    - intros k n c ad p H. destruct (gcm_open C k n c ad) as [q|] eqn:E; [|discriminate]. injection H as <-.
      rewrite pi_pi. apply ok_open_tidy. exact E.
  Qed.
  Lemma swapped_same : same_but (eq dk) nothing nothing C swapped.
  Proof.
    assert (Hs : forall k x, dk <> k -> pi k x = x).
    { intros k x Hk. unfold pi. destruct (beq k dk) eqn:E; [apply beq_eq in E; congruence|reflexivity]. }
    constructor; try reflexivity; cbn [swapped hmac_sha256 gcm_seal gcm_open]; try (intros; reflexivity).
    - intros. rewrite Hs by assumption. reflexivity.
    - intros. destruct (gcm_open C k n c a0); [|reflexivity]. rewrite Hs by assumption. reflexivity.
  Qed.
End Swapped.

Lemma same_trans (P Q : bytes -> Prop) C1 C2 C3 : (forall k, P k -> Q k) -> same_but P nothing nothing C1 C2 -> same_but Q nothing nothing C2 C3 -> same_but Q nothing nothing C1 C3.
Proof.
  intros H [] []. constructor; try congruence; intros.
  - rewrite sb_sign0, sb_sign by assumption. reflexivity.
  - rewrite sb_verify0, sb_verify by assumption. reflexivity.
  - rewrite sb_hmac0, sb_hmac by assumption. reflexivity.
  - rewrite sb_seal0, sb_seal by auto. reflexivity.
  - rewrite sb_open0, sb_open by auto. reflexivity.
Qed.
Lemma same_weak (P Q : bytes -> Prop) C1 C2 : (forall k, P k -> Q k) -> same_but P nothing nothing C1 C2 -> same_but Q nothing nothing C1 C2.
Proof. intros H []. constructor; auto. Qed.

(** the key that a password stands for, with the salt that the file shows *)
Definition password_key (C : crypto) (pw salt : bytes) : bytes := scrypt C (sha512 C pw) salt (2^19) 8 1.

(** The text of a private key file made from the key bytes of [sk] and the password [pw]: for every other private key [sk'] and every
    other password [pw'] there is a crypto record, the same as [C] for everybody who uses AES-GCM with the key of neither password,
    which obeys all the laws and with which the same randomness makes the very same file out of [sk'] and [pw'].  So whoever has not
    tried the right password learns nothing from the file about the key or the password. *)
Theorem C89_key_file_hides :
  forall C E, crypto_ok C -> forall sk sk' comment pw pw' g file g', len (sk_Sk sk) = 64 -> len (sk_Sk sk') = 64 ->
  marshal_private C E sk comment pw g = (Ok file, g') ->
  let salt := fst (rand_buf 32 g) in
  exists C', crypto_ok C' /\ same_but (fun k => k = password_key C pw salt \/ k = password_key C pw' salt) nothing nothing C C' /\
    marshal_private C' E sk' comment pw' g = (Ok file, g').
Proof.
  intros C E HC sk sk' comment pw pw' g file g' H1 H2 H salt.
  set (k := password_key C pw salt). set (k' := password_key C pw' salt). set (n := take gcm_nonce_size salt).
  set (C1 := exchanged C (k, n, []) (k', n, [])). set (C2 := swapped C1 k' (sk_Sk sk) (sk_Sk sk')).
  assert (L : len (sk_Sk sk) = len (sk_Sk sk')) by lia.
  exists C2. split; [apply swapped_ok; [exact L|]; apply exchanged_ok; exact HC|]. split.
  { eapply same_trans; [|apply exchanged_same|eapply same_weak; [|apply swapped_same]]; cbn [fst]; [auto|]. intros x <-. right. reflexivity. }
  unfold marshal_private in *. unfold salt in *. destruct (rand_buf 32 g) as [sa g1]. cbn [fst] in *.
  assert (S : gcm_seal C2 k' n (sk_Sk sk') [] = gcm_seal C k n (sk_Sk sk) []).
  { unfold C2. cbn [swapped gcm_seal]. unfold pi. rewrite beq_refl, swap_l. unfold C1. cbn [exchanged gcm_seal]. rewrite tau_r. reflexivity. }
  assert (Q : forall D p, scrypt_key D p sa scrypt_N scrypt_r scrypt_p = Ok (scrypt D p sa (2^19) 8 1)) by (intros; vm_compute; reflexivity).
  rewrite Q in H |- *. change (scrypt C2) with (scrypt C). change (sha512 C2) with (sha512 C).
  fold (password_key C pw sa) in H. fold (password_key C pw' sa). fold k in H. fold k'.
  assert (G : forall p, new_gcm (password_key C p sa) = Ok (password_key C p sa)).
  { intros p. unfold new_gcm, password_key. rewrite (ok_scrypt_len C HC). reflexivity. }
  unfold k, k' in *. rewrite G in H |- *. fold n in H |- *. rewrite S. exact H.
Qed.
Print Assumptions C89_key_file_hides.

(** two keys and two passwords *)
Example C89_instance : exists file g',
  marshal_private toy toyE skA (str "my key") (str "secret") g0 = (Ok file, g') /\ len (sk_Sk skA) = 64 /\ len (sk_Sk skB) = 64 /\ ~ (sk_Sk skA = sk_Sk skB) /\ password_key toy (str "secret") (fst (rand_buf 32 g0)) <> password_key toy (str "Secret") (fst (rand_buf 32 g0)) /\ marshal_private toy toyE skB (str "my key") (str "Secret") g0 <> (Ok file, g').
Proof.
  destruct (marshal_private toy toyE skA (str "my key") (str "secret") g0) as [[file|x|x] g'] eqn:X;
    [|vm_compute in X; discriminate X|vm_compute in X; discriminate X].
  exists file, g'. split; [reflexivity|]. split; [vm_compute; reflexivity|]. split; [vm_compute; reflexivity|].
  split; [vm_compute; discriminate|]. split; [vm_compute; discriminate|].
  intros Y. rewrite <- X in Y. apply (f_equal fst) in Y.
  assert (Z : (match fst (marshal_private toy toyE skB (str "my key") (str "Secret") g0), fst (marshal_private toy toyE skA (str "my key") (str "secret") g0) with
     Ok a, Ok b => beq a b | _, _ => true end) = false) by (vm_compute; reflexivity).
  rewrite Y in Z. destruct (fst (marshal_private toy toyE skA (str "my key") (str "secret") g0)) as [f|y|y]; [rewrite beq_refl in Z; discriminate Z|discriminate Z|discriminate Z].
Qed.
