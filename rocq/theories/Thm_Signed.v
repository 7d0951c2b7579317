(** C79: a file that verifies is one that the owner of the key has signed. *)
From Verif Require Import Bytes BytesLemmas GoErr GoIO SpecIO Pb SpecPb Crypto CryptoLaws Keys Sign SpecSign
  Encrypt Decrypt Stream Spec SpecStream Support KeyFiles ExtLaws GoText Ssh Fs SpecFs Store Cli SpecCli CliProofs Toy Scene ToyExt CliScene Thm_Sign Thm_Decrypt Thm_Commands Thm_Origin.
Require Import ZifyBool.
Local Notation length := List.length.

(** ** Specification *)
(** all that the owner of a key has ever signed: the digests of the files [files] ("sigtool sign"), and the header and trailer messages of the
    encrypted files [sent] ("sigtool encrypt -s") *)
Inductive owner_signed (C : crypto) (files : list bytes) (sent : list (encryptor * bytes * bytes)) : bytes -> Prop :=
| ow_file c : In c files -> owner_signed C files sent (sha512 C (file_hash_input c))
| ow_header e p file : In (e, p, file) sent -> owner_signed C files sent (sender_message C (e_hdr e) (e_key e))
| ow_trailer e p file cs : In (e, p, file) sent -> file_chunks C e p file cs ->
    owner_signed C files sent (hmac_sha256 C (fk_mac (keys_of C (e_hdr e) (e_key e))) (mac_input cs)).
(** the owner's Ed25519 key has signed the 64 bytes [d] *)
Definition ed_signed (C : crypto) (files : list bytes) (sent : list (encryptor * bytes * bytes)) (d : bytes) : Prop :=
  exists m, owner_signed C files sent m /\ d = sha512 C (msg_hash_input m).
(** two different inputs with the same SHA-512 *)
Definition collision512 (C : crypto) (a b : bytes) : Prop := a <> b /\ sha512 C a = sha512 C b.

(** ** Proofs *)
Lemma signed_file C (HC : crypto_ok C) files sent c : let m := sha512 C (file_hash_input c) in
  ed_signed C files sent (sha512 C (msg_hash_input m)) ->
  In c files \/ (exists c', In c' files /\ collision512 C (file_hash_input c) (file_hash_input c')) \/
  exists m', owner_signed C files sent m' /\ collision512 C (msg_hash_input m) (msg_hash_input m').
Proof.
  intros m (m' & Ho & Hd). destruct (list_eq_dec Byte.byte_eq_dec m m') as [<-|N].
  - inversion Ho as [c' Hin Hm|e p file Hin Hm|e p file cs Hin Hcs Hm].
    + destruct (list_eq_dec Byte.byte_eq_dec (file_hash_input c) (file_hash_input c')) as [Ei|Ni].
      * left. apply (proj1 (C31_hash_input_injective C HC)) in Ei. subst c'. exact Hin.
      * right. left. exists c'. split; [exact Hin|]. split; [exact Ni|]. symmetry. exact Hm.
    + exfalso. pose proof (f_equal len Hm) as L. unfold m in L. rewrite (ok_sha512_len C HC) in L. unfold sender_message in L. rewrite (ok_sha256_len C HC) in L. discriminate L.
    + exfalso. pose proof (f_equal len Hm) as L. unfold m in L. rewrite (ok_sha512_len C HC), (ok_hmac_len C HC) in L. discriminate L.
  - right. right. exists m'. split; [exact Ho|]. split; [|exact Hd]. intros X. apply (proj1 (proj2 (C31_hash_input_injective C HC))) in X. contradiction.
Qed.

(** If VerifyFile accepts a file under a public key, the signature is an Ed25519 signature of a digest which the owner of the key has signed - then
    the file's content is that of a file the owner has signed, or SHA-512 collides on two given inputs - or has not signed (a forgery). *)
Theorem C79_verified_file :
  forall C, crypto_ok C -> forall pk f c s, len (pk_Pk pk) = 32 -> holds f c -> verify_file C pk f s = Ok true ->
  let m := sha512 C (file_hash_input c) in let d := sha512 C (msg_hash_input m) in
  ed_verify C (pk_Pk pk) d (sig_Sig s) = true /\
  forall files sent, ed_signed C files sent d ->
    In c files \/ (exists c', In c' files /\ collision512 C (file_hash_input c) (file_hash_input c')) \/
    exists m', owner_signed C files sent m' /\ collision512 C (msg_hash_input m) (msg_hash_input m').
Proof.
  intros C HC pk f c s Hl Hh Hv m d. split; [|intros files sent; apply (signed_file C HC)].
  unfold verify_file in Hv. rewrite (file_cksum_holds C f c Hh) in Hv. cbn [bind] in Hv. fold m in Hv. apply (proj1 (C30_verify_exact C pk m s Hl)) in Hv. exact (proj2 Hv).
Qed.
Print Assumptions C79_verified_file.
(** the same for the command: exit status 0 *)
Theorem C79_verify_command :
  forall C E W args, crypto_ok C -> cli_verify C E W args = 0 ->
  exists K S F more pk s c, args = K :: S :: F :: more /\ key_arg C E W K pk /\ signature_in E W S s /\ hashed_as W F c /\
  let m := sha512 C (file_hash_input c) in let d := sha512 C (msg_hash_input m) in
  ed_verify C (pk_Pk pk) d (sig_Sig s) = true /\
  forall files sent, ed_signed C files sent d ->
    In c files \/ (exists c', In c' files /\ collision512 C (file_hash_input c) (file_hash_input c')) \/
    exists m', owner_signed C files sent m' /\ collision512 C (msg_hash_input m) (msg_hash_input m').
Proof.
  intros C E W args HC H. apply C47_verify_exact in H. destruct H as (K & S & F & more & pk & s & c & H1 & H2 & H3 & H4 & H5 & H6).
  exists K, S, F, more, pk, s, c. do 4 (split; [assumption|]). split; [|intros files sent; apply (signed_file C HC)].
  exact (proj2 H6).
Qed.
Print Assumptions C79_verify_command.

(** an instance: the owner of skS signed one file and encrypted another; the signature of the first verifies *)
Example C79_instance : exists s, sign_file toy skS (Opened [text] None) = Ok s /\ verify_file toy pkS (Opened [take 3 text; drop 3 text] None) s = Ok true /\
  ed_signed toy [text] sent1 (sha512 toy (msg_hash_input (sha512 toy (file_hash_input text)))).
Proof.
  destruct (C30_signatures_verify toy toy_ok seedS skS pkS kS pS eq_refl eq_refl) as (_ & H & _).
  destruct (H (Opened [text] None) text) as (s & H1 & _ & H2); [exists [text]; split; [reflexivity|apply app_nil_r]|].
  exists s. split; [exact H1|]. split; [apply H2; exists [take 3 text; drop 3 text]; split; [reflexivity|vm_compute; reflexivity]|].
  exists (sha512 toy (file_hash_input text)). split; [apply ow_file; left; reflexivity|reflexivity].
Qed.
