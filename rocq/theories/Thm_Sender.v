(** C83: an encrypted file does not show who sent it. *)
From Verif Require Import Bytes BytesLemmas GoErr GoIO SpecIO IOProofs Pb SpecPb PbProofs Crypto CryptoLaws Keys Sign
  Encrypt Decrypt Stream Spec SpecStream SpecSecret EncryptProofs DecryptProofs AcceptProofs OpenProofs RoundTrip StreamProofs
  Support Thm_StreamFormat Thm_Secret Toy Scene.
Require Import ZifyBool.
Ltac Zify.zify_post_hook ::= Z.div_mod_to_equations.
Local Notation length := List.length.
Local Notation concat := List.concat.

(** ** The other crypto record: one value under one AEAD slot with empty associated data changes places with another one; on the message [M] the
    key pairs of two seeds change places *)
Section Masked.
  Variables (C : crypto) (ek en x y : bytes) (seed seed' M : bytes).
  Hypotheses (HC : crypto_ok C) (Hxy : len x = len y) (Hs : len seed = 32) (Hs' : len seed' = 32).
  Let p := ed_public C seed.
  Let p' := ed_public C seed'.

  Definition mask (k n a v : bytes) : bytes := if beq k ek && beq n en && (len a =? 0) then swap x y v else v.
  Definition msign (on : bool) (k m : bytes) : bytes :=
    if on && beq m M then
      if beq (drop 32 k) p then ed_sign C (seed' ++ p') M
      else if beq (drop 32 k) p' then ed_sign C (seed ++ p) M else ed_sign C k m
    else ed_sign C k m.
  Definition mverify (on : bool) (k m s : bytes) : bool := ed_verify C (if on && beq m M then swap p p' k else k) m s.
  Definition masked (on : bool) : crypto :=
    mkCrypto (sha256 C) (sha512 C) (hmac_sha256 C) (hkdf_sha512 C)
      (fun k n v a => gcm_seal C k n (mask k n a v) a)
      (fun k n c a => match gcm_open C k n c a with Some v => Some (mask k n a v) | None => None end)
      (x25519 C) (ed_public C) (msign on) (mverify on) (scrypt C) (bcrypt_kdf C) (aes256_cbc_dec C) (aes256_ctr C).

  Lemma mask_mask k n a v : mask k n a (mask k n a v) = v.
  Proof. unfold mask. destruct (_ && _); [apply swap_swap|reflexivity]. Qed.
  Lemma mask_len k n a v : len (mask k n a v) = len v.
  Proof. unfold mask. destruct (_ && _); [apply swap_len, Hxy|reflexivity]. Qed.
  Lemma masked_ok on : crypto_ok (masked on).
  Proof.
    destruct HC. constructor; cbn [masked sha256 sha512 hmac_sha256 hkdf_sha512 gcm_seal gcm_open x25519 ed_public ed_sign ed_verify scrypt aes256_cbc_dec aes256_ctr]; auto.
    - intros. rewrite ok_seal_len, mask_len. reflexivity.
    - intros. rewrite ok_open_seal, mask_mask. reflexivity.
    - intros k n c a q H. destruct (gcm_open C k n c a) as [v|] eqn:E; [|discriminate]. injection H as <-.
      rewrite mask_mask. apply ok_open_tidy. exact E.
    - intros. unfold msign. destruct (_ && _); [destruct (beq _ p); [|destruct (beq _ p')]|]; apply ok_sign_len.
    - intros. unfold msign. destruct (_ && _); [destruct (beq _ p); [|destruct (beq _ p')]|]; apply ok_sign_nonzero.
    - intros sd m Hsd. unfold msign, mverify. destruct (on && beq m M) eqn:E; [|apply ok_verify_sign; exact Hsd].
      apply andb_true_iff in E. destruct E as [_ E]. apply beq_eq in E. subst m.
      rewrite (drop_app_eq 32 sd) by (symmetry; exact Hsd). unfold swap.
      destruct (beq (ed_public C sd) p) eqn:E1; [apply ok_verify_sign; exact Hs'|].
      destruct (beq (ed_public C sd) p') eqn:E2; [apply ok_verify_sign; exact Hs|]. apply ok_verify_sign. exact Hsd.
  Qed.
  Lemma masked_same on : same_but (eq ek) nothing (fun m => on = true /\ m = M) C (masked on).
  Proof.
    assert (H : forall k n a v, ek <> k -> mask k n a v = v).
    { intros k n a v Hk. unfold mask. destruct (beq k ek) eqn:E; [apply beq_eq in E; congruence|reflexivity]. }
    assert (Hm : forall m, ~ (on = true /\ m = M) -> on && beq m M = false).
    { intros m Hm. destruct on; [|reflexivity]. cbn [andb]. apply beq_neq. intros ->. apply Hm. auto. }
    constructor; try reflexivity; cbn [masked hmac_sha256 gcm_seal gcm_open ed_sign ed_verify]; try (intros; reflexivity).
    - intros k m Hn. unfold msign. rewrite Hm by exact Hn. reflexivity.
    - intros k m s Hn. unfold mverify. rewrite Hm by exact Hn. reflexivity.
    - intros. rewrite H by assumption. reflexivity.
    - intros. destruct (gcm_open C k n c a); [|reflexivity]. rewrite H by assumption. reflexivity.
  Qed.
  Lemma masked_seal on k n v a : len a <> 0 -> gcm_seal (masked on) k n v a = gcm_seal C k n v a.
  Proof. intros H. cbn [masked gcm_seal]. unfold mask. destruct (Z.eqb_spec (len a) 0); [contradiction|]. rewrite andb_false_r. reflexivity. Qed.
  Lemma masked_box on : gcm_seal (masked on) ek en y [] = gcm_seal C ek en x [].
  Proof. cbn [masked gcm_seal]. unfold mask. rewrite !beq_refl. cbn [andb Z.eqb]. change (len (@nil byte) =? 0) with true. cbn [andb]. rewrite swap_l. reflexivity. Qed.
End Masked.

(** the encryptor with another sender *)
Definition e_from (e : encryptor) (s : option privkey) : encryptor :=
  mkEnc (e_hdr e) (e_key e) (e_nonce e) (e_buflen e) (e_ae e) (e_hmac e) (e_encSK e) s
        (match s with Some _ => true | None => false end) (e_started e) (e_stream e).
Lemma wrap_key_from C e s pk g : wrap_key C (e_from e s) pk g = wrap_key C e pk g.
Proof. reflexivity. Qed.
Lemma add_recipients_from C s pks : forall e g, add_recipients C (e_from e s) pks g =
  match add_recipients C e pks g with Some (e', g') => Some (e_from e' s, g') | None => None end.
Proof.
  induction pks as [|pk pks IH]; intros; [reflexivity|]. cbn [add_recipients]. unfold add_recipient. change (e_started (e_from e s)) with (e_started e).
  destruct (e_started e); [reflexivity|]. rewrite wrap_key_from. destruct (wrap_key C e pk g) as [[[w q]| |] g1]; try reflexivity.
  change (e_with_hdr (e_from e s) (h_add_key (e_hdr (e_from e s)) w)) with (e_from (e_with_hdr e (h_add_key (e_hdr e) w)) s). apply IH.
Qed.

(** a session under [C] becomes a session of another sender under [C'] if the sender box stays the same *)
Lemma session_from C C' sender sender' blk pks g e g' : crypto_ok C -> crypto_ok C' -> good_sender sender -> good_sender sender' ->
  sha256 C' = sha256 C -> hkdf_sha512 C' = hkdf_sha512 C -> x25519 C' = x25519 C ->
  (forall pk k n p, In pk pks -> gcm_seal C' k n p (pk_Pk pk) = gcm_seal C k n p (pk_Pk pk)) ->
  session C sender blk pks g e g' ->
  sender_box C' sender' (h_pk (e_hdr e)) (h_salt (e_hdr e)) (e_key e) = sender_box C sender (h_pk (e_hdr e)) (h_salt (e_hdr e)) (e_key e) ->
  session C' sender' blk pks g (e_from e sender') g'.
Proof.
  intros HC HC' Hg Hg' H1 H3 H5 H7 (e0 & g0 & Hn & Ha) Hbox.
  assert (He : h_pk (e_hdr e) = h_pk (e_hdr e0) /\ h_salt (e_hdr e) = h_salt (e_hdr e0) /\ e_key e = e_key e0).
  { clear -Ha. revert e0 g0 Ha. induction pks as [|p l IH]; intros a b H; cbn [add_recipients] in H; [injection H as <- <-; auto|].
    destruct (add_recipient C a p b) as [[[a1 q] b1] r] eqn:E. destruct r; try discriminate. destruct (IH _ _ H) as (A & B & D).
    unfold add_recipient in E. destruct (e_started a); [discriminate|]. destruct (wrap_key C a p b) as [[[w q1]| |] b2]; try discriminate.
    injection E as <- _ _ _. cbn [e_with_hdr e_hdr h_add_key h_keys h_salt h_pk e_key] in A, B, D. auto. }
  destruct He as (E1 & E2 & E3). rewrite E1, E2, E3 in Hbox.
  exists (e_from e0 sender'), g0. split.
  - unfold new_encryptor, new_sender in *. rewrite H5. destruct (rand_buf 32 g) as [r gx]. destruct (rand_buf aes_key_size gx) as [key gy]. destruct (rand_buf salt_size gy) as [salt gz].
    rewrite (add_sender_sig_spec C sender _ _ _ HC Hg) in Hn. rewrite (add_sender_sig_spec C' sender' _ _ _ HC' Hg').
    injection Hn as <- <-. cbn [e_hdr h_pk h_salt e_key] in Hbox. rewrite Hbox. reflexivity.
  - rewrite add_recipients_from, (add_recipients_same C C') by assumption. rewrite Ha. reflexivity.
Qed.
Lemma frames_same C C' dk base cs : (forall k n p a, len a = 4 -> gcm_seal C' k n p a = gcm_seal C k n p a) -> forall i, frames C' dk base i cs = frames C dk base i cs.
Proof.
  intros H. assert (Hf : forall i last c, frame C' dk base i last c = frame C dk base i last c) by (intros; unfold frame; rewrite H by reflexivity; reflexivity).
  induction cs as [|c cs IH]; intros i; [reflexivity|]. destruct cs as [|c' cs']; [apply Hf|].
  change (frames C' dk base i (c :: c' :: cs')) with (frame C' dk base i false c ++ frames C' dk base (i + 1) (c' :: cs')).
  rewrite Hf, IH. reflexivity.
Qed.

(** the key of the encrypted sender field of a header, made from the root key *)
Definition sender_key (C : crypto) (h : header) (root : bytes) : bytes := fst (sender_keys C root (h_salt h)).
(** what Ed25519 signs in the trailer: made with the MAC key, which is made from the root key *)
Definition trailer_message (C : crypto) (fk : file_keys) (data : bytes) : bytes := sha512 C (str "sigtool signed message" ++ hmac_sha256 C (fk_mac fk) data).

(** ** C83: the sender is hidden.
    A file sent by [sk] may as well have been sent by any other key [sk']: there is a crypto record, the same as [C] for everybody who
    neither uses AES-GCM under the key of the sender field nor Ed25519 on the message of the trailer, with which a session with sender [sk']
    and the same randomness makes the same file. *)
Theorem C83_sender_hidden :
  forall C, crypto_ok C ->
  forall seed sk seed' sk' blksize pks g e g', keypair C seed sk -> keypair C seed' sk' -> ed_public C seed <> ed_public C seed' ->
  0 <= blksize -> len pks < 2^40 -> (forall pk, In pk pks -> len (pk_Pk pk) = 32) -> session C (Some sk) blksize pks g e g' ->
  forall rd s er wr e2 rd2 wr2 g2, delivers rd s er -> encrypt C e rd wr g' = (e2, rd2, wr2, g2, Ok tt) ->
  let fk := keys_of C (e_hdr e) (e_key e) in
  exists C' e' data, crypto_ok C' /\
    same_but (eq (sender_key C (e_hdr e) (e_key e))) nothing (eq (trailer_message C fk data)) C C' /\
    session C' (Some sk') blksize pks g e' g' /\
    (forall rd' wr', delivers rd' s IoEOF -> accepts wr' -> exists e3 rd3 wr3 g3, encrypt C' e' rd' wr' g' = (e3, rd3, wr3, g3, Ok tt)) /\
    forall rd' er' wr' e3 rd3 wr3 g3, delivers rd' s er' -> encrypt C' e' rd' wr' g' = (e3, rd3, wr3, g3, Ok tt) ->
      exists file, wrote wr wr2 file /\ wrote wr' wr3 file.
Proof.
  intros C HC seed sk seed' sk' blk pks g e g' Hk Hk' Hne Hb Hp Hpk Hs rd s er wr e2 rd2 wr2 g2 Hd He fk.
  pose proof (keypair_good _ _ _ HC Hk) as Hg. pose proof (keypair_good _ _ _ HC Hk') as Hg'.
  pose proof (session_ready _ _ _ _ _ _ _ HC Hg Hs) as Hr. pose proof (header_small _ _ _ _ _ HC Hb Hr Hp) as Hl.
  pose proof (block_size_range blk Hb) as Hbr.
  pose proof (encrypt_spec _ _ _ _ _ _ _ _ _ _ _ _ _ _ _ HC Hg Hb Hr Hl Hd He) as (_ & _ & cs & Hcs & Ht). fold fk in Ht.
  set (M := trailer_message C fk (mac_input cs)).
  set (h := e_hdr e) in *. set (ek := fst (sender_keys C (e_key e) (h_salt h))). set (en := snd (sender_keys C (e_key e) (h_salt h))).
  set (x := sender_sig C (Some sk) (h_pk h) (h_salt h) (e_key e)).
  set (y := msign C seed seed' M true (sk_Sk sk') (msg_digest C (sender_cksum C (h_pk h) (h_salt h) (e_key e)))).
  set (C' := masked C ek en x y seed seed' M true).
  assert (Hy : len y = 64).
  { unfold y, msign. destruct (_ && _); [destruct (beq _ _); [|destruct (beq _ _)]|]; apply (ok_sign_len C HC). }
  assert (Hx : len x = 64) by (apply len_sender_sig; exact HC).
  assert (HC' : crypto_ok C').
  { apply masked_ok; [exact HC|lia|apply (kp_seed _ _ _ Hk)|apply (kp_seed _ _ _ Hk')]. }
  assert (Hseal : forall k n p a, len a <> 0 -> gcm_seal C' k n p a = gcm_seal C k n p a) by (intros; apply masked_seal; assumption).
  assert (Hs' : session C' (Some sk') blk pks g (e_from e (Some sk')) g').
  { apply (session_from C C' (Some sk)); try assumption; try reflexivity.
    - intros pk k n p Hin. apply Hseal. rewrite (Hpk _ Hin). discriminate.
    - fold h. unfold sender_box. change (sender_keys C' (e_key e) (h_salt h)) with (sender_keys C (e_key e) (h_salt h)).
      rewrite (surjective_pairing (sender_keys C (e_key e) (h_salt h))). fold ek en. fold x.
      change (sender_sig C' (Some sk') (h_pk h) (h_salt h) (e_key e)) with y. apply masked_box. }
  pose proof (session_ready _ _ _ _ _ _ _ HC' Hg' Hs') as Hr'. pose proof (header_small _ _ _ _ _ HC' Hb Hr' Hp) as Hl'.
  exists C', (e_from e (Some sk')), (mac_input cs). split; [exact HC'|].
  split.
  { destruct (masked_same C ek en x y seed seed' M true). constructor; auto.
    - intros k m Hm. apply sb_sign. intros [_ E]. apply Hm. symmetry. exact E.
    - intros k m v Hm. apply sb_verify. intros [_ E]. apply Hm. symmetry. exact E. }
  split; [exact Hs'|]. split.
  { intros rd' wr' Hd' Ha'. eapply encrypt_total; eauto. }
  intros rd' er' wr' e3 rd3 wr3 g3 Hd' He'.
  pose proof (encrypt_spec _ _ _ _ _ _ _ _ _ _ _ _ _ _ _ HC' Hg' Hb Hr' Hl' Hd' He') as (_ & _ & cs2 & Hcs2 & Ht').
  rewrite (encrypt_chunks_det _ _ _ (proj1 Hbr) Hcs _ Hcs2) in Ht'. clear cs2 Hcs2.
  change (e_hdr (e_from e (Some sk'))) with h in Ht'. change (e_key (e_from e (Some sk'))) with (e_key e) in Ht'.
  change (keys_of C' h (e_key e)) with fk in Ht'.
  assert (Htr : the_trailer C' (e_from e (Some sk')) (fk_mac fk) (mac_input cs) g' = the_trailer C e (fk_mac fk) (mac_input cs) g').
  { unfold the_trailer. rewrite (rd_snd _ _ _ _ _ Hr). cbn [e_from e_sender]. f_equal.
    change (ed_sign C' (sk_Sk sk') (msg_digest C' (hmac_sha256 C' (fk_mac fk) (mac_input cs)))) with (msign C seed seed' M true (sk_Sk sk') M).
    change (msg_digest C (hmac_sha256 C (fk_mac fk) (mac_input cs))) with M.
    unfold msign. rewrite beq_refl. cbn [andb]. rewrite (kp_sk _ _ _ Hk'), (kp_sk _ _ _ Hk).
    rewrite drop_app_eq by (symmetry; apply (kp_seed _ _ _ Hk')).
    destruct (beq (ed_public C seed') (ed_public C seed)) eqn:E; [apply beq_eq in E; congruence|]. rewrite beq_refl. reflexivity. }
  rewrite Htr in Ht'. destruct (the_trailer C e (fk_mac fk) (mac_input cs) g') as [tr gx].
  destruct Ht as (_ & _ & Ho & _). destruct Ht' as (_ & _ & Ho' & _). eexists. split; [exact Ho|]. unfold wrote. rewrite Ho'. f_equal.
  unfold sigtool_file, header_cksum. change (sha256 C') with (sha256 C). do 2 f_equal.
  unfold body. change (keys_of C' h (e_key e)) with fk. change (keys_of C h (e_key e)) with fk. f_equal.
  apply frames_same. intros. apply Hseal. lia.
Qed.
Print Assumptions C83_sender_hidden.

(** ** Random tapes which agree as far as they were read *)
Lemma rng_bytes_ext t t' n : forall p, (forall i, p <= i < p + Z.of_nat n -> t i = t' i) -> rng_bytes t p n = rng_bytes t' p n.
Proof. induction n as [|n IH]; intros p H; [reflexivity|]. cbn [rng_bytes]. rewrite H by lia. f_equal. apply IH. intros i Hi. apply H. lia. Qed.
Lemma rand_buf_tape n g b g' t : 0 <= n -> rand_buf n g = (b, g') -> (forall i, pos g <= i < pos g' -> t i = tape g i) ->
  rand_buf n (mkRng t (pos g)) = (b, mkRng t (pos g')).
Proof.
  intros Hn H Ht. injection H as <- <-. cbn [pos] in Ht. unfold rand_buf. cbn [tape pos]. f_equal. apply rng_bytes_ext. intros i Hi. apply Ht. lia.
Qed.
Lemma rand_buf_pos n g b g' : rand_buf n g = (b, g') -> pos g <= pos g' /\ tape g' = tape g.
Proof. intros H. injection H as <- <-. cbn [pos tape]. split; [lia|reflexivity]. Qed.
Lemma add_recipients_pos C pks : forall e g e' g', add_recipients C e pks g = Some (e', g') -> pos g <= pos g' /\ tape g' = tape g.
Proof.
  induction pks as [|pk pks IH]; intros e g e' g' H; cbn [add_recipients] in H; [injection H as <- <-; split; [lia|reflexivity]|].
  unfold add_recipient in H. destruct (e_started e); [discriminate|]. unfold wrap_key in H.
  destruct (to_curve_pk pk) as [[c q]| |]; try discriminate. destruct (X25519 C (e_encSK e) c); try discriminate.
  destruct (rand_buf rx_nonce_size g) as [r gx] eqn:Er. destruct (rand_buf_pos _ _ _ _ Er) as [A B].
  destruct (wrapf _ _); cbn [bind] in H; try discriminate. destruct (IH _ _ _ _ H) as [D E]. split; [lia|congruence].
Qed.
Lemma add_recipients_tape C t pks : forall e g e' g', add_recipients C e pks g = Some (e', g') -> (forall i, pos g <= i < pos g' -> t i = tape g i) ->
  add_recipients C e pks (mkRng t (pos g)) = Some (e', mkRng t (pos g')).
Proof.
  induction pks as [|pk pks IH]; intros e g e' g' H Ht; cbn [add_recipients] in *; [injection H as <- <-; reflexivity|].
  unfold add_recipient in *. destruct (e_started e); [discriminate|]. unfold wrap_key in *.
  destruct (to_curve_pk pk) as [[c q]| |]; try discriminate. destruct (X25519 C (e_encSK e) c); try discriminate.
  destruct (rand_buf rx_nonce_size g) as [r gx] eqn:Er. destruct (rand_buf_pos _ _ _ _ Er) as [A B].
  destruct (wrapf "wrap" _) eqn:Ew; cbn [bind] in H; try discriminate. destruct (add_recipients_pos _ _ _ _ _ _ H) as [D E].
  rewrite (rand_buf_tape rx_nonce_size _ _ _ t ltac:(unfold rx_nonce_size; lia) Er) by (intros i Hi; apply Ht; lia). rewrite Ew. cbn [bind].
  apply (IH _ _ _ _ H). intros i Hi. rewrite B. apply Ht. lia.
Qed.
Lemma session_tape C sender blk pks g e g' t : session C sender blk pks g e g' -> (forall i, pos g <= i < pos g' -> t i = tape g i) ->
  session C sender blk pks (mkRng t (pos g)) e (mkRng t (pos g')).
Proof.
  intros (e0 & g0 & Hn & Ha) Ht. destruct (add_recipients_pos _ _ _ _ _ _ Ha) as [D E]. exists e0, (mkRng t (pos g0)).
  unfold new_encryptor, new_sender in *.
  destruct (rand_buf 32 g) as [r gx] eqn:E1. destruct (rand_buf aes_key_size gx) as [key gy] eqn:E2. destruct (rand_buf salt_size gy) as [salt gz] eqn:E3.
  destruct (rand_buf_pos _ _ _ _ E1) as [A1 B1]. destruct (rand_buf_pos _ _ _ _ E2) as [A2 B2]. destruct (rand_buf_pos _ _ _ _ E3) as [A3 B3].
  assert (gz = g0) as -> by (destruct (add_sender_sig _ _ _ _ _) as [[]| |]; injection Hn; auto).
  rewrite (rand_buf_tape 32 _ _ _ t ltac:(lia) E1) by (intros i Hi; apply Ht; lia).
  rewrite (rand_buf_tape aes_key_size _ _ _ t ltac:(unfold aes_key_size; lia) E2) by (intros i Hi; rewrite B1; apply Ht; lia).
  rewrite (rand_buf_tape salt_size _ _ _ t ltac:(unfold salt_size; lia) E3) by (intros i Hi; rewrite B2, B1; apply Ht; lia).
  split.
  - destruct (add_sender_sig _ _ _ _ _) as [[]| |]; try discriminate Hn. injection Hn as <-. reflexivity.
  - apply (add_recipients_tape C t pks _ g0); [exact Ha|]. intros i Hi. rewrite B3, B2, B1. apply Ht. lia.
Qed.

(** ... and it may as well have been made without a sender, by somebody whose random source gave the same bytes up to the trailer *)
Theorem C83_anonymous :
  forall C, crypto_ok C ->
  forall seed sk blksize pks g e g', keypair C seed sk ->
  0 <= blksize -> len pks < 2^40 -> (forall pk, In pk pks -> len (pk_Pk pk) = 32) -> session C (Some sk) blksize pks g e g' ->
  forall rd s er wr e2 rd2 wr2 g2, delivers rd s er -> encrypt C e rd wr g' = (e2, rd2, wr2, g2, Ok tt) ->
  exists C' e' h h', crypto_ok C' /\ same_but (eq (sender_key C (e_hdr e) (e_key e))) nothing nothing C C' /\
    pos h = pos g /\ (forall i, i < pos g' -> tape h i = tape g i) /\
    session C' None blksize pks h e' h' /\
    (forall rd' wr', delivers rd' s IoEOF -> accepts wr' -> exists e3 rd3 wr3 g3, encrypt C' e' rd' wr' h' = (e3, rd3, wr3, g3, Ok tt)) /\
    forall rd' er' wr' e3 rd3 wr3 g3, delivers rd' s er' -> encrypt C' e' rd' wr' h' = (e3, rd3, wr3, g3, Ok tt) ->
      exists file, wrote wr wr2 file /\ wrote wr' wr3 file.
Proof.
  intros C HC seed sk blk pks g e g' Hk Hb Hp Hpk Hs rd s er wr e2 rd2 wr2 g2 Hd He.
  pose proof (keypair_good _ _ _ HC Hk) as Hg. assert (Hg' : good_sender None) by (intros ? ?; discriminate).
  pose proof (session_ready _ _ _ _ _ _ _ HC Hg Hs) as Hr. pose proof (header_small _ _ _ _ _ HC Hb Hr Hp) as Hl.
  pose proof (block_size_range blk Hb) as Hbr.
  pose proof (encrypt_spec _ _ _ _ _ _ _ _ _ _ _ _ _ _ _ HC Hg Hb Hr Hl Hd He) as (_ & _ & cs & Hcs & Ht).
  set (fk := keys_of C (e_hdr e) (e_key e)) in *.
  set (h := e_hdr e) in *. set (ek := fst (sender_keys C (e_key e) (h_salt h))). set (en := snd (sender_keys C (e_key e) (h_salt h))).
  set (x := sender_sig C (Some sk) (h_pk h) (h_salt h) (e_key e)).
  set (C' := masked C ek en x (zeros 64) seed seed [] false).
  assert (Hx : len x = 64) by (apply len_sender_sig; exact HC).
  assert (HC' : crypto_ok C').
  { apply masked_ok; [exact HC|rewrite Hx; reflexivity|apply (kp_seed _ _ _ Hk)|apply (kp_seed _ _ _ Hk)]. }
  assert (Hseal : forall k n p a, len a <> 0 -> gcm_seal C' k n p a = gcm_seal C k n p a) by (intros; apply masked_seal; assumption).
  assert (Hs' : session C' None blk pks g (e_from e None) g').
  { apply (session_from C C' (Some sk)); try assumption; try reflexivity.
    - intros pk k n p Hin. apply Hseal. rewrite (Hpk _ Hin). discriminate.
    - fold h. unfold sender_box. change (sender_keys C' (e_key e) (h_salt h)) with (sender_keys C (e_key e) (h_salt h)).
      rewrite (surjective_pairing (sender_keys C (e_key e) (h_salt h))). fold ek en. fold x.
      change (sender_sig C' None (h_pk h) (h_salt h) (e_key e)) with (zeros 64). apply masked_box. }
  destruct (the_trailer C e (fk_mac fk) (mac_input cs) g') as [tr gx]. destruct Ht as (_ & (Htl & _) & Ho & _).
  set (t := fun i => if i <? pos g' then tape g i else nth (Z.to_nat (i - pos g')) tr x00).
  assert (Hpos : pos g <= pos g').
  { destruct Hs as (e0 & g0 & Hn & Ha). destruct (add_recipients_pos _ _ _ _ _ _ Ha) as [D _].
    unfold new_encryptor, new_sender in Hn. destruct (rand_buf 32 g) as [r g1] eqn:E1. destruct (rand_buf aes_key_size g1) as [key g2'] eqn:E2.
    destruct (rand_buf salt_size g2') as [salt g3] eqn:E3. apply rand_buf_pos in E1, E2, E3.
    destruct (add_sender_sig _ _ _ _ _) as [[]| |]; injection Hn as _ <-; lia. }
  assert (Hst : session C' None blk pks (mkRng t (pos g)) (e_from e None) (mkRng t (pos g'))).
  { apply (session_tape _ _ _ _ g _ g'); [exact Hs'|]. intros i Hi. unfold t. destruct (Z.ltb_spec i (pos g')); [reflexivity|lia]. }
  pose proof (session_ready _ _ _ _ _ _ _ HC' Hg' Hst) as Hr'. pose proof (header_small _ _ _ _ _ HC' Hb Hr' Hp) as Hl'.
  exists C', (e_from e None), (mkRng t (pos g)), (mkRng t (pos g')). split; [exact HC'|].
  split.
  { destruct (masked_same C ek en x (zeros 64) seed seed [] false). constructor; auto; intros; first [apply sb_sign|apply sb_verify]; intros [E _]; discriminate. }
  split; [reflexivity|]. split; [intros i Hi; cbn [tape]; unfold t; destruct (Z.ltb_spec i (pos g')); [reflexivity|lia]|].
  split; [exact Hst|]. split.
  { intros rd' wr' Hd' Ha'. eapply encrypt_total; eauto. }
  intros rd' er' wr' e3 rd3 wr3 g3 Hd' He'.
  pose proof (encrypt_spec _ _ _ _ _ _ _ _ _ _ _ _ _ _ _ HC' Hg' Hb Hr' Hl' Hd' He') as (_ & _ & cs2 & Hcs2 & Ht').
  rewrite (encrypt_chunks_det _ _ _ (proj1 Hbr) Hcs _ Hcs2) in Ht'. clear cs2 Hcs2.
  change (e_hdr (e_from e None)) with h in Ht'. change (e_key (e_from e None)) with (e_key e) in Ht'.
  assert (Htr : fst (rand_buf sig_size (mkRng t (pos g'))) = tr).
  { unfold rand_buf. cbn [fst tape pos]. unfold sig_size. change (Z.to_nat 64) with 64%nat.
    assert (Hn : length tr = 64%nat) by (unfold len in Htl; lia). rewrite <- Hn. clear -Hpos.
    assert (forall l k, (forall j, (j < length l)%nat -> t (pos g' + k + Z.of_nat j) = nth j l x00) -> rng_bytes t (pos g' + k) (length l) = l) as Haux.
    { induction l as [|b l IH]; intros k H; [reflexivity|]. cbn [length rng_bytes]. f_equal.
      - rewrite <- (Z.add_0_r (pos g' + k)). apply (H 0%nat). cbn; lia.
      - replace (pos g' + k + 1) with (pos g' + (k + 1)) by lia. apply IH. intros j Hj.
        replace (pos g' + (k + 1) + Z.of_nat j) with (pos g' + k + Z.of_nat (S j)) by lia. apply (H (S j)). cbn; lia. }
    rewrite <- (Z.add_0_r (pos g')). apply Haux. intros j Hj. unfold t. destruct (Z.ltb_spec (pos g' + 0 + Z.of_nat j) (pos g')); [lia|].
    f_equal. lia. }
  unfold the_trailer in Ht'. cbn [e_from e_sender] in Ht'. rewrite (surjective_pairing (rand_buf sig_size (mkRng t (pos g')))), Htr in Ht'.
  destruct Ht' as (_ & _ & Ho' & _). eexists. split; [exact Ho|]. unfold wrote. rewrite Ho'. f_equal.
  unfold sigtool_file, header_cksum. change (sha256 C') with (sha256 C). do 2 f_equal.
  unfold body. change (keys_of C' h (e_key e)) with fk. change (keys_of C h (e_key e)) with fk. f_equal.
  apply frames_same. intros. apply Hseal. lia.
Qed.
Print Assumptions C83_anonymous.
(** the signed file of the examples could have been sent by B, or by nobody *)
Example C83_instance : (exists C' e' e r w g, crypto_ok C' /\ session C' (Some skB) 4 [pkA; pkB] g0 e' g1 /\
    encrypt C' e' (whole text) dst g1 = (e, r, w, g, Ok tt) /\ w_out w = file1) /\
  (exists C' e' h h' e r w g, crypto_ok C' /\ session C' None 4 [pkA; pkB] h e' h' /\
    encrypt C' e' (whole text) dst h' = (e, r, w, g, Ok tt) /\ w_out w = file1).
Proof.
  destruct file1_made as (e & r & w & g & He & Hw).
  assert (H32 : forall pk, In pk [pkA; pkB] -> len (pk_Pk pk) = 32).
  { intros pk [<-|[<-|[]]]; vm_compute; reflexivity. }
  split.
  - destruct (C83_sender_hidden toy toy_ok seedS skS seedB skB 4 [pkA; pkB] g0 e1 g1 kS kB
      ltac:(intros E; apply (f_equal (fun l => beq l (ed_public toy seedS))) in E; vm_compute in E; discriminate) ltac:(lia) ltac:(cbn; lia)
      H32 session1 src text IoEOF dst e r w g src_delivers He) as (C' & e' & d & HC & _ & Hs & Ht & Hf).
    destruct (Ht (whole text) dst (delivers_whole _) dst_accepts) as (e3 & rd3 & wr3 & g3 & H3).
    destruct (Hf _ _ _ _ _ _ _ (delivers_whole _) H3) as (file & F1 & F2).
    exists C', e', e3, rd3, wr3, g3. split; [exact HC|]. split; [exact Hs|]. split; [exact H3|].
    unfold wrote in F1, F2. rewrite Hw in F1. rewrite F1, F2. reflexivity.
  - destruct (C83_anonymous toy toy_ok seedS skS 4 [pkA; pkB] g0 e1 g1 kS ltac:(lia) ltac:(cbn; lia)
      H32 session1 src text IoEOF dst e r w g src_delivers He) as (C' & e' & h & h' & HC & _ & _ & _ & Hs & Ht & Hf).
    destruct (Ht (whole text) dst (delivers_whole _) dst_accepts) as (e3 & rd3 & wr3 & g3 & H3).
    destruct (Hf _ _ _ _ _ _ _ (delivers_whole _) H3) as (file & F1 & F2).
    exists C', e', h, h', e3, rd3, wr3, g3. split; [exact HC|]. split; [exact Hs|]. split; [exact H3|].
    unfold wrote in F1, F2. rewrite Hw in F1. rewrite F1, F2. reflexivity.
Qed.
