(** Theorems on signing and verifying messages and files (C30, C31) and on the curve conversion (C41). *)
From Verif Require Import Bytes BytesLemmas GoErr GoIO SpecIO Crypto CryptoLaws Keys KeysProofs Sign SpecSign Spec Prime25519 Toy Scene.
From Coq Require Import Znumtheory.
Require Import ZifyBool.
Ltac Zify.zify_post_hook ::= Z.div_mod_to_equations.
Local Notation length := List.length.
Local Notation concat := List.concat.

Lemma fold_app ws : forall h, fold_left (fun h b : bytes => h ++ b) ws h = h ++ concat ws.
Proof. induction ws as [|w ws IH]; intros h; cbn [fold_left concat]; [rewrite app_nil_r; reflexivity|]. rewrite IH, app_assoc. reflexivity. Qed.
Lemma fold_len ws : forall n, fold_left (fun n (b : bytes) => n + len b) ws n = n + len (concat ws).
Proof. induction ws as [|w ws IH]; intros n; cbn [fold_left concat]; [change (len (@nil byte)) with 0; lia|]. rewrite IH, len_app. lia. Qed.
Lemma file_cksum_holds C f c : holds f c -> file_cksum C f = Ok (sha512 C (file_hash_input c)).
Proof. intros (ws & -> & Hc). cbn [file_cksum]. rewrite fold_app, fold_len, Hc. reflexivity. Qed.
Lemma file_cksum_unreadable C f : unreadable f -> exists e, file_cksum C f = Fail e.
Proof. destruct f as [e|ws [e|]]; cbn; eauto. congruence. Qed.
Lemma len_split32 (a b : bytes) : len a = 32 -> len b = 32 -> len (a ++ b) = 64.
Proof. rewrite len_app. lia. Qed.

(** ** C30: a signature made with a private key verifies under its public key - for messages and for files of any
    content and size, whatever windows the file is read in - and carries the name of that key; a file which cannot be
    opened or read makes SignFile and VerifyFile return an error. *)
Theorem C30_signatures_verify :
  forall C, crypto_ok C -> forall seed sk pk, keypair C seed sk -> pubof C seed pk -> named C pk -> named C (sk_pk sk) ->
  (forall m, exists s, sign_message C sk m = Ok s /\ len (sig_Sig s) = 64 /\ verify_message C pk m s = Ok true /\ is_pk_match s pk = true) /\
  (forall f content, holds f content -> exists s, sign_file C sk f = Ok s /\ is_pk_match s pk = true /\
     forall f', holds f' content -> verify_file C pk f' s = Ok true) /\
  (forall f s, unreadable f -> (exists e, sign_file C sk f = Fail e) /\ (exists e, verify_file C pk f s = Fail e)).
Proof.
  intros C HC seed sk pk [Ks Ksk Kpk _] [_ Ppk _] Np Ns.
  assert (M : forall m, exists s, sign_message C sk m = Ok s /\ len (sig_Sig s) = 64 /\ verify_message C pk m s = Ok true /\ is_pk_match s pk = true).
  { intros m. unfold sign_message, Ed_Sign. rewrite Ksk, (len_split32 _ _ Ks (ok_ed_public_len C HC seed)).
    cbn [Z.eqb Pos.eqb negb bind]. eexists. split; [reflexivity|]. cbn [sig_Sig sig_pkhash]. pose proof (ok_sign_len C HC) as Hl.
    split; [apply Hl|]. unfold verify_message, Ed_Verify, is_pk_match. cbn [sig_Sig sig_pkhash]. rewrite Ppk, (ok_ed_public_len C HC), Hl.
    cbn [Z.eqb Pos.eqb negb]. rewrite (ok_verify_sign C HC) by exact Ks. split; [reflexivity|].
    rewrite Np, Ns, Ppk, Kpk. apply beq_refl. }
  split; [exact M|]. split.
  - intros f c Hf. destruct (M (sha512 C (file_hash_input c))) as (s & Hs & _ & Hv & Hm). exists s.
    unfold sign_file. rewrite (file_cksum_holds C f c Hf). cbn [bind]. split; [exact Hs|]. split; [exact Hm|].
    intros f' Hf'. unfold verify_file. rewrite (file_cksum_holds C f' c Hf'). exact Hv.
  - intros f s Hf. destruct (file_cksum_unreadable C f Hf) as (e & He). unfold sign_file, verify_file. rewrite He. cbn. eauto.
Qed.
Print Assumptions C30_signatures_verify.
(** every key object the package hands out is named *)
Corollary C30_key_objects_named :
  forall C, (forall seed, named C (sk_pk (new_private_key C seed))) /\
  (forall sk b sk', make_private_from_bytes C sk b = Ok sk' -> named C (sk_pk sk')) /\
  (forall pk b pk', make_public_from_bytes C pk b = Ok pk' -> named C pk').
Proof.
  intros C. split; [reflexivity|]. split; intros k b k'; unfold make_private_from_bytes, make_public_from_bytes;
    destruct (negb _); intros H; try discriminate H; injection H as <-; reflexivity.
Qed.
Print Assumptions C30_key_objects_named.
Definition two_windows : file_in := Opened [str "hello"; []; str " world"] None.
Example C30_instance : keypair toy seedA skA /\ pubof toy seedA pkA /\ named toy pkA /\ named toy (sk_pk skA) /\
  holds two_windows text /\ holds (Opened [text] None) text /\ unreadable (Opened [str "he"] (Some (EExt 5))).
Proof.
  split; [apply kA|]. split; [apply pA|]. split; [reflexivity|]. split; [reflexivity|].
  split; [exists [str "hello"; []; str " world"]; split; reflexivity|]. split; [exists [text]; split; reflexivity|]. cbn. discriminate.
Qed.

(** A newly generated key (32 random bytes as seed) is a key pair in the sense of all these theorems: its messages verify under its own
    public key, and its private key is the seed followed by the Ed25519 public key of the seed. *)
Theorem C30_generated_keys :
  forall C, crypto_ok C -> forall seed, len seed = 32 ->
  let sk := new_private_key C seed in
  keypair C seed sk /\ pubof C seed (sk_pk sk) /\ sk_Sk sk = seed ++ pk_Pk (sk_pk sk) /\
  forall m, exists s, sign_message C sk m = Ok s /\ verify_message C (sk_pk sk) m s = Ok true /\ is_pk_match s (sk_pk sk) = true.
Proof.
  intros C HC seed Hs sk. assert (K : keypair C seed sk) by (constructor; [exact Hs|reflexivity|reflexivity|now left]).
  assert (P : pubof C seed (sk_pk sk)) by (constructor; [exact Hs|reflexivity|now left]). split; [exact K|]. split; [exact P|]. split; [reflexivity|].
  assert (N : named C (sk_pk sk)) by reflexivity. intros m.
  destruct (C30_signatures_verify C HC seed sk (sk_pk sk) K P N N) as (M & _). destruct (M m) as (s & H1 & _ & H2 & H3). eauto.
Qed.
Print Assumptions C30_generated_keys.
Example C30_generated_instance : len seedA = 32. Proof. vm_compute. reflexivity. Qed.

(** VerifyMessage is exactly "64 bytes that Ed25519 accepts for the digest under that key", and IsPKMatch exactly the
    equality of the names *)
Theorem C30_verify_exact :
  forall C pk m s, len (pk_Pk pk) = 32 ->
  (verify_message C pk m s = Ok true <-> len (sig_Sig s) = 64 /\ ed_verify C (pk_Pk pk) (sha512 C (msg_hash_input m)) (sig_Sig s) = true) /\
  (verify_message C pk m s <> Ok true <-> verify_message C pk m s = Ok false) /\
  (is_pk_match s pk = true <-> pk_hash pk = sig_pkhash s).
Proof.
  intros C pk m s Hl. unfold verify_message, Ed_Verify, is_pk_match, msg_digest, msg_hash_input. rewrite Hl. cbn [Z.eqb Pos.eqb negb].
  split; [|split; [|apply beq_iff]].
  - destruct (Z.eqb_spec (len (sig_Sig s)) 64) as [E|E]; split.
    + intros H. injection H as H. auto.
    + intros (_ & ->). reflexivity.
    + intros H. discriminate H.
    + intros (H & _). contradiction.
  - destruct (if len (sig_Sig s) =? 64 then _ else _); split; congruence.
Qed.
Print Assumptions C30_verify_exact.
Example C30_verify_instance : exists s, len (pk_Pk pkA) = 32 /\ sign_message toy skA text = Ok s /\
  verify_message toy pkA text s = Ok true /\ verify_message toy pkB text s = Ok false /\ verify_message toy pkA text8 s = Ok false /\ is_pk_match s pkB = false.
Proof. eexists. split; [vm_compute; reflexivity|]. split; [vm_compute; reflexivity|]. repeat split; vm_compute; reflexivity. Qed.

(** ** C31: what is hashed for a file determines its content (and so its size): one signature accepted for two files
    with different contents exhibits two different strings with the same SHA-512, namely the strings hashed for
    these very files, or one Ed25519 signature valid for two different messages. *)
Theorem C31_file_signature_binds :
  forall C pk f1 f2 c1 c2 s, len (pk_Pk pk) = 32 -> holds f1 c1 -> holds f2 c2 -> c1 <> c2 ->
  verify_file C pk f1 s = Ok true -> verify_file C pk f2 s = Ok true ->
  let i1 := file_hash_input c1 in let i2 := file_hash_input c2 in
  let j1 := msg_hash_input (sha512 C i1) in let j2 := msg_hash_input (sha512 C i2) in
  i1 <> i2 /\
  (sha512 C i1 = sha512 C i2 \/
   j1 <> j2 /\ (sha512 C j1 = sha512 C j2 \/
                sha512 C j1 <> sha512 C j2 /\ ed_verify C (pk_Pk pk) (sha512 C j1) (sig_Sig s) = true /\
                ed_verify C (pk_Pk pk) (sha512 C j2) (sig_Sig s) = true)).
Proof.
  intros C pk f1 f2 c1 c2 s Hl H1 H2 Hne V1 V2 i1 i2 j1 j2. unfold verify_file in V1, V2.
  rewrite (file_cksum_holds C _ _ H1) in V1. rewrite (file_cksum_holds C _ _ H2) in V2. cbn [bind] in V1, V2.
  pose proof (proj1 (proj1 (C30_verify_exact C pk _ s Hl)) V1) as W1. pose proof (proj1 (proj1 (C30_verify_exact C pk _ s Hl)) V2) as W2. clear V1 V2. rename W1 into V1, W2 into V2. fold i1 in V1. fold i2 in V2. fold j1 in V1. fold j2 in V2.
  split. { unfold i1, i2, file_hash_input. intros E. apply app_inj_len_r in E; [|reflexivity]. apply Hne. apply E. }
  destruct (bytes_eq_dec (sha512 C i1) (sha512 C i2)) as [E|E]; [left; exact E|]. right.
  split. { unfold j1, j2, msg_hash_input. intros Ej. apply app_inj_len in Ej; [|reflexivity]. apply E. apply Ej. }
  destruct (bytes_eq_dec (sha512 C j1) (sha512 C j2)) as [E2|E2]; [left; exact E2|]. right. split; [exact E2|]. split; [apply V1|apply V2].
Qed.
Print Assumptions C31_file_signature_binds.
(** over the toy hash a signature of "hello world" is rejected for "helloooo" *)
Example C31_instance : exists s, sign_file toy skA two_windows = Ok s /\ verify_file toy pkA (Opened [text] None) s = Ok true /\
  verify_file toy pkA (Opened [text8] None) s = Ok false /\ text <> text8.
Proof. eexists. split; [vm_compute; reflexivity|]. split; [vm_compute; reflexivity|]. split; [vm_compute; reflexivity|]. discriminate. Qed.
(** The hash input is injective in content and size, and no file's signature can stand for one of the 32-byte digests
    signed inside encrypted files (sender and trailer signatures): what is signed differs, before hashing, in length. *)
Theorem C31_hash_input_injective :
  forall C, crypto_ok C ->
  (forall c1 c2, file_hash_input c1 = file_hash_input c2 -> c1 = c2) /\
  (forall m1 m2, msg_hash_input m1 = msg_hash_input m2 -> m1 = m2) /\
  (forall c k x, msg_hash_input (sha512 C (file_hash_input c)) <> msg_hash_input (hmac_sha256 C k x) /\
                 msg_hash_input (sha512 C (file_hash_input c)) <> msg_hash_input (sha256 C x)).
Proof.
  intros C HC. split; [|split].
  - intros c1 c2 E. unfold file_hash_input in E. apply app_inj_len_r in E; [apply E|reflexivity].
  - intros m1 m2 E. apply app_inv_head in E. exact E.
  - intros c k x. split; intros E; apply app_inv_head in E; apply (f_equal len) in E; rewrite (ok_sha512_len C HC) in E.
    + rewrite (ok_hmac_len C HC) in E. discriminate E.
    + rewrite (ok_sha256_len C HC) in E. discriminate E.
Qed.
Print Assumptions C31_hash_input_injective.

(** ** C41: conversion of Ed25519 keys to X25519 keys *)
(** the y coordinate in an Ed25519 public key: the low 255 bits, little-endian (the top bit is the sign of x) *)
Definition y_coordinate (Pk : bytes) : Z := unle Pk mod 2^255.

Lemma nonzero_coprime p c : prime p -> c mod p <> 0 -> rel_prime c p.
Proof. intros Hp Hc. apply rel_prime_sym, prime_rel_prime; [exact Hp|]. intros D. apply Hc. apply Z.mod_divide; [|exact D]. pose proof (prime_ge_2 _ Hp). lia. Qed.
Lemma quotient_unique p c u v : prime p -> c mod p <> 0 -> 0 <= u < p -> 0 <= v < p -> (u * c) mod p = (v * c) mod p -> u = v.
Proof.
  intros Hp Hc Hu Hv E. pose proof (prime_ge_2 _ Hp) as H2. assert (D : (p | u - v)).
  { apply Gauss with c; [|apply rel_prime_sym, nonzero_coprime; assumption]. apply Z.mod_divide; [lia|].
    replace (c * (u - v)) with (u * c - v * c) by ring. rewrite Zminus_mod, E, Z.sub_diag. reflexivity. }
  destruct D as [k Hk]. assert (k = 0) by nia. lia.
Qed.

(** For every 32-byte key: the result is the 32-byte little-endian encoding of a number below p which is (1+y)/(1-y)
    modulo p if 1-y is not 0 modulo p (p is prime, see Prime25519.v, so 1-y then has an inverse and there is only one such number),
    and 0 if 1-y is 0 modulo p; it depends on the y coordinate only; a second call returns
    the same bytes; nothing else in the key object changes. *)
Theorem C41_public_key_conversion :
  forall pk, len (pk_Pk pk) = 32 -> pk_ck pk = None ->
  let p := 2^255 - 19 in let y := y_coordinate (pk_Pk pk) in
  exists ck pk', to_curve_pk pk = Ok (ck, pk') /\ len ck = 32 /\ unle ck < p /\
    ((1 - y) mod p <> 0 -> (unle ck * (1 - y)) mod p = (1 + y) mod p /\
      forall u, 0 <= u < p -> (u * (1 - y)) mod p = (1 + y) mod p -> u = unle ck) /\
    ((1 - y) mod p = 0 -> unle ck = 0) /\
    to_curve_pk pk' = Ok (ck, pk') /\ pk_Pk pk' = pk_Pk pk /\ pk_hash pk' = pk_hash pk /\ pk_comment pk' = pk_comment pk /\
    (forall pk2, len (pk_Pk pk2) = 32 -> pk_ck pk2 = None -> y_coordinate (pk_Pk pk2) = y ->
       exists pk2', to_curve_pk pk2 = Ok (ck, pk2')).
Proof.
  intros pk Hl Hc p y. destruct (curve_of_spec (pk_Pk pk) Hl) as (u & Hu & Hr & H1 & H2).
  assert (Hn : unle (le 32 u) = u). { rewrite unle_le. apply Z.mod_small. change (256 ^ Z.of_nat 32) with (2^256). unfold curve_p in Hr. lia. }
  exists (le 32 u). eexists. unfold to_curve_pk at 1. rewrite Hc, Hl. cbn [Z.ltb Z.compare Pos.compare Pos.compare_cont]. rewrite Hu.
  split; [reflexivity|]. split; [apply len_le|]. rewrite Hn. split; [exact (proj2 Hr)|]. split.
  { intros Hy. specialize (H1 (nonzero_coprime _ _ p25519_prime Hy)). split; [exact H1|].
    intros v Hv Ev. apply (quotient_unique _ _ _ _ p25519_prime Hy Hv Hr). exact (eq_trans Ev (eq_sym H1)). }
  split; [exact H2|].
  split; [reflexivity|]. split; [reflexivity|]. split; [reflexivity|]. split; [reflexivity|].
  intros pk2 Hl2 Hc2 Hy. unfold to_curve_pk. rewrite Hc2, Hl2. cbn [Z.ltb Z.compare Pos.compare Pos.compare_cont]. eexists. repeat f_equal.
  rewrite <- Hu. unfold curve_of. rewrite !masked_y by assumption. unfold y, y_coordinate in Hy. rewrite Hy. reflexivity.
Qed.
Print Assumptions C41_public_key_conversion.
Example C41_instance : len (pk_Pk pkA) = 32 /\ pk_ck pkA = None /\ (1 - y_coordinate (le 32 3)) mod (2^255 - 19) <> 0 /\
  (1 - y_coordinate (le 32 (1 + 2^255))) mod (2^255 - 19) = 0.
Proof.
  split; [vm_compute; reflexivity|]. split; [reflexivity|]. split; [vm_compute; discriminate|vm_compute; reflexivity].
Qed.
(** keys longer than 32 bytes (which the package never makes) would panic; with the cache filled it is returned *)
Theorem C41_private_key_conversion :
  forall C, crypto_ok C -> forall sk, sk_ck sk = None ->
  let h := take 32 (sha512 C (take 32 (sk_Sk sk))) in
  exists ck sk', to_curve_sk C sk = (ck, sk') /\ len ck = 32 /\
    (* the low three bits and the top bit cleared, bit 254 set, the other bits those of the hash *)
    unle ck = 2^254 + 8 * ((unle h mod 2^254) / 8) /\
    to_curve_sk C sk' = (ck, sk') /\ sk_Sk sk' = sk_Sk sk /\ sk_pk sk' = sk_pk sk.
Proof.
  intros C HC sk Hc h. unfold to_curve_sk at 1. rewrite Hc. fold h.
  assert (Hl : len h = 32) by (apply len_take_le; rewrite (ok_sha512_len C HC); lia).
  destruct (clamp_value h Hl) as (L & V). eexists _, _. split; [reflexivity|]. split; [exact L|]. split; [exact V|].
  split; [reflexivity|]. split; reflexivity.
Qed.
Print Assumptions C41_private_key_conversion.
Example C41_private_instance : sk_ck skA = None. Proof. reflexivity. Qed.
(** both conversions of one key pair fit together: the X25519 public key of the converted private key is the converted
    public key.  (The base point is the 32-byte string of u-coordinate 9, RFC 7748.) *)
Theorem C41_conversions_agree :
  forall C, crypto_ok C -> forall seed sk pk, keypair C seed sk -> pubof C seed pk ->
  exists pk' ck base, to_curve_pk pk = Ok (ck, pk') /\ len base = 32 /\ unle base = 9 /\ ck = x25519 C (fst (to_curve_sk C sk)) base.
Proof.
  intros C HC seed sk pk [Ks Ksk _ Kc] [_ Ppk Pc]. unfold to_curve_pk, to_curve_sk. rewrite Ppk, Ksk, (ok_ed_public_len C HC).
  cbn [Z.ltb Z.compare Pos.compare Pos.compare_cont]. rewrite (take_app_eq 32 seed) by lia. pose proof (ok_birational C HC seed Ks) as B.
  destruct Pc as [-> | ->], Kc as [-> | ->]; cbn [fst]; eexists _, _, basepoint; (split; [reflexivity|]); (split; [reflexivity|]); (split; [reflexivity|]); exact B.
Qed.
Print Assumptions C41_conversions_agree.
Example C41_agree_instance : keypair toy seedA skA /\ pubof toy seedA pkA. Proof. split; [apply kA|apply pA]. Qed.
