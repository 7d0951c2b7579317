(** C81, C82: what an encrypted file shows to somebody who lacks the keys. *)
From Verif Require Import Bytes BytesLemmas GoErr GoIO SpecIO IOProofs Pb SpecPb PbProofs Crypto CryptoLaws Keys Sign
  Encrypt Decrypt Stream Spec SpecStream SpecSecret EncryptProofs DecryptProofs AcceptProofs OpenProofs RoundTrip StreamProofs
  Support Thm_Encrypt Thm_Stream Thm_StreamFormat Toy Scene.
Require Import ZifyBool.
Ltac Zify.zify_post_hook ::= Z.div_mod_to_equations.
Local Notation length := List.length.
Local Notation concat := List.concat.

(** ** Exchanging two values *)
Definition swap (a b x : bytes) : bytes := if beq x a then b else if beq x b then a else x.
Lemma swap_l a b : swap a b b = a.
Proof. unfold swap. destruct (beq b a) eqn:E; [apply beq_eq in E; exact E|]. rewrite beq_refl. reflexivity. Qed.
Lemma swap_swap a b x : swap a b (swap a b x) = x.
Proof.
  unfold swap. destruct (beq x a) eqn:E1.
  - apply beq_eq in E1. subst x. destruct (beq b a) eqn:E2; [apply beq_eq in E2; exact E2|]. rewrite beq_refl. reflexivity.
  - destruct (beq x b) eqn:E2; [apply beq_eq in E2; subst x; rewrite beq_refl; reflexivity|]. rewrite E1, E2. reflexivity.
Qed.
Lemma swap_len a b x : len a = len b -> len (swap a b x) = len x.
Proof. intros H. unfold swap. destruct (beq x a) eqn:E1; [apply beq_eq in E1; subst; auto|]. destruct (beq x b) eqn:E2; [apply beq_eq in E2; subst; auto|]. reflexivity. Qed.

(** ** The other crypto record of C81: under the data key, chunk i of [cs] and chunk i of [cs'] change places; so do the two MAC inputs *)
Section Other.
  Variables (C : crypto) (dk mk : bytes) (cs cs' : list bytes).
  Hypothesis Hlen : forall i, len (nth i cs []) = len (nth i cs' []).

  Definition sigma (k n a x : bytes) : bytes :=
    if beq k dk && (len a =? 4) then let i := Z.to_nat (unbe32 (take 4 n)) in swap (nth i cs []) (nth i cs' []) x else x.
  Definition other : crypto :=
    mkCrypto (sha256 C) (sha512 C)
      (fun k m => if beq k mk then hmac_sha256 C k (swap (mac_input cs) (mac_input cs') m) else hmac_sha256 C k m)
      (hkdf_sha512 C) (fun k n p a => gcm_seal C k n (sigma k n a p) a)
      (fun k n c a => match gcm_open C k n c a with Some p => Some (sigma k n a p) | None => None end)
      (x25519 C) (ed_public C) (ed_sign C) (ed_verify C) (scrypt C) (bcrypt_kdf C) (aes256_cbc_dec C) (aes256_ctr C).

  Lemma sigma_sigma k n a x : sigma k n a (sigma k n a x) = x.
  Proof. unfold sigma. destruct (_ && _); [apply swap_swap|reflexivity]. Qed.
  Lemma sigma_len k n a x : len (sigma k n a x) = len x.
  Proof. unfold sigma. destruct (_ && _); [apply swap_len, Hlen|reflexivity]. Qed.

  Lemma other_ok : crypto_ok C -> crypto_ok other.
  Proof.
    intros []. constructor; cbn [other sha256 sha512 hmac_sha256 hkdf_sha512 gcm_seal gcm_open x25519 ed_public ed_sign ed_verify scrypt aes256_cbc_dec aes256_ctr]; auto.
    - intros k m. destruct (beq k mk); apply ok_hmac_len.
    - intros. rewrite ok_seal_len, sigma_len. reflexivity.
    - intros. rewrite ok_open_seal, sigma_sigma. reflexivity.
    - intros k n c a p H. destruct (gcm_open C k n c a) as [q|] eqn:E; [|discriminate]. injection H as <-.
      rewrite sigma_sigma. apply ok_open_tidy. exact E.
  Qed.

  Lemma other_same : same_but (eq dk) (eq mk) nothing C other.
  Proof.
    assert (Hs : forall k n a x, dk <> k -> sigma k n a x = x).
    { intros k n a x Hk. unfold sigma. destruct (beq k dk) eqn:E; [apply beq_eq in E; congruence|reflexivity]. }
    constructor; try reflexivity; cbn [other hmac_sha256 gcm_seal gcm_open]; try (intros; reflexivity).
    - intros k m Hk. destruct (beq k mk) eqn:E; [apply beq_eq in E; congruence|reflexivity].
    - intros. rewrite Hs by assumption. reflexivity.
    - intros. destruct (gcm_open C k n c a); [|reflexivity]. rewrite Hs by assumption. reflexivity.
  Qed.

  (** outside the frames (4 bytes of associated data) nothing changes *)
  Lemma other_seal k n p a : len a <> 4 -> gcm_seal other k n p a = gcm_seal C k n p a.
  Proof. intros H. cbn [other gcm_seal]. unfold sigma. destruct (Z.eqb_spec (len a) 4); [contradiction|]. rewrite andb_false_r. reflexivity. Qed.
End Other.

(** two crypto records with the same functions, and the same AES-GCM for associated data of other lengths than 4, make the same sessions *)
Lemma add_sender_sig_same C C' sender pk salt key :
  sha256 C' = sha256 C -> sha512 C' = sha512 C -> hkdf_sha512 C' = hkdf_sha512 C -> ed_sign C' = ed_sign C ->
  (forall k n p, gcm_seal C' k n p [] = gcm_seal C k n p []) ->
  add_sender_sig C' sender pk salt key = add_sender_sig C sender pk salt key.
Proof.
  intros H1 H2 H3 H4 H5. unfold add_sender_sig, expand, sender_cksum, sign_message, msg_digest, Ed_Sign. rewrite H1, H2, H3, H4.
  destruct (match sender with Some _ => _ | None => _ end) as [[sig auth]|x|p]; cbn [bind]; try reflexivity.
  destruct (wrapf _ _); cbn [bind]; [|reflexivity|reflexivity]. rewrite H5. reflexivity.
Qed.
Lemma new_encryptor_same C C' sender blk g :
  sha256 C' = sha256 C -> sha512 C' = sha512 C -> hkdf_sha512 C' = hkdf_sha512 C -> ed_sign C' = ed_sign C -> x25519 C' = x25519 C ->
  (forall k n p, gcm_seal C' k n p [] = gcm_seal C k n p []) ->
  new_encryptor C' sender blk g = new_encryptor C sender blk g.
Proof.
  intros H1 H2 H3 H4 H5 H6. unfold new_encryptor, new_sender. rewrite H5. destruct (rand_buf 32 g). destruct (rand_buf aes_key_size _). destruct (rand_buf salt_size _).
  rewrite (add_sender_sig_same C C') by assumption. reflexivity.
Qed.
Lemma wrap_key_same C C' e pk g :
  sha256 C' = sha256 C -> hkdf_sha512 C' = hkdf_sha512 C -> x25519 C' = x25519 C ->
  (forall k n p, gcm_seal C' k n p (pk_Pk pk) = gcm_seal C k n p (pk_Pk pk)) ->
  wrap_key C' e pk g = wrap_key C e pk g.
Proof.
  intros H1 H3 H5 H6. unfold wrap_key. destruct (to_curve_pk pk) as [[q]| |]; try reflexivity.
  replace (X25519 C' (e_encSK e) q) with (X25519 C (e_encSK e) q) by (unfold X25519; rewrite H5; reflexivity).
  destruct (X25519 C (e_encSK e) q); try reflexivity. destruct (rand_buf rx_nonce_size g). unfold expand. rewrite H1, H3. f_equal.
  destruct (wrapf _ _); cbn [bind]; try reflexivity. rewrite H6. reflexivity.
Qed.
Lemma add_recipients_same C C' : sha256 C' = sha256 C -> hkdf_sha512 C' = hkdf_sha512 C -> x25519 C' = x25519 C -> forall pks,
  (forall pk k n p, In pk pks -> gcm_seal C' k n p (pk_Pk pk) = gcm_seal C k n p (pk_Pk pk)) ->
  forall e g, add_recipients C' e pks g = add_recipients C e pks g.
Proof.
  intros H1 H3 H5. induction pks as [|pk pks IH]; intros H6 e g; [reflexivity|]. cbn [add_recipients]. unfold add_recipient.
  destruct (e_started e); [reflexivity|]. rewrite (wrap_key_same C C') by (try assumption; intros; apply H6; left; reflexivity).
  destruct (wrap_key C e pk g) as [[[]| |] g']; try reflexivity. apply IH. intros. apply H6. right. assumption.
Qed.
Lemma session_same C C' sender blk pks g e g' : 
  sha256 C' = sha256 C -> sha512 C' = sha512 C -> hkdf_sha512 C' = hkdf_sha512 C -> ed_sign C' = ed_sign C -> x25519 C' = x25519 C ->
  (forall k n p, gcm_seal C' k n p [] = gcm_seal C k n p []) ->
  (forall pk k n p, In pk pks -> gcm_seal C' k n p (pk_Pk pk) = gcm_seal C k n p (pk_Pk pk)) ->
  session C sender blk pks g e g' -> session C' sender blk pks g e g'.
Proof.
  intros H1 H2 H3 H4 H5 H6 H7 (e0 & g0 & Hn & Ha). exists e0, g0. rewrite (new_encryptor_same C C') by assumption. split; [exact Hn|].
  rewrite (add_recipients_same C C') by assumption. exact Ha.
Qed.

(** ** The chunks of two texts of the same length *)
Lemma chunked_lens n (P : Z -> Prop) cs s : 0 < n -> (forall k, P k -> 0 <= k < n) -> chunked n P cs s -> forall cs' s', chunked n P cs' s' -> len s = len s' ->
  Forall2 (fun c c' => len c = len c') cs cs'.
Proof.
  intros Hn HP. induction 1 as [c Hc|c cs s Hc H IH]; intros cs2 s2 H2 Hl; destruct H2 as [d Hd|d ds t Hd H3].
  - constructor; [exact Hl|constructor].
  - exfalso. rewrite len_app, Hd in Hl. pose proof (HP _ Hc). pose proof (len_nonneg t). lia.
  - exfalso. rewrite len_app, Hc in Hl. pose proof (HP _ Hd). pose proof (len_nonneg s). lia.
  - constructor; [congruence|]. apply (IH ds t H3). rewrite !len_app in Hl. lia.
Qed.
Lemma lens_nth cs cs' : Forall2 (fun c c' : bytes => len c = len c') cs cs' -> forall i, len (nth i cs []) = len (nth i cs' []).
Proof. induction 1; intros [|i]; cbn; auto. Qed.

(** the frames of [cs'] under the other record are the frames of [cs] *)
Lemma other_frame C dk mk cs cs' base i last c c' : 0 <= i < 2^32 -> nth (Z.to_nat i) cs [] = c -> nth (Z.to_nat i) cs' [] = c' -> len c = len c' ->
  frame (other C dk mk cs cs') dk base i last c' = frame C dk base i last c.
Proof.
  intros Hi E E' Hl. assert (Hw : frame_word c' last = frame_word c last) by (unfold frame_word; rewrite Hl; reflexivity).
  assert (Hs : sigma dk cs cs' dk (frame_nonce base i) (frame_word c last) c' = c).
  { unfold sigma. rewrite beq_refl. replace (len (frame_word c last)) with 4 by reflexivity. cbn [andb Z.eqb Pos.eqb].
    unfold frame_nonce. rewrite (take_app_l 4 (be32 i)) by (rewrite len_be32; lia). rewrite take_all by (rewrite len_be32; lia). rewrite unbe32_be32', Z.mod_small by lia. cbv zeta.
    rewrite E, E'. apply swap_l. }
  unfold frame. rewrite Hw. cbn [other gcm_seal]. rewrite Hs. reflexivity.
Qed.
Lemma other_frames C dk mk base pre pre' : forall l l', Forall2 (fun c c' => len c = len c') pre pre' -> Forall2 (fun c c' => len c = len c') l l' ->
  len (pre ++ l) <= 2^32 ->
  frames (other C dk mk (pre ++ l) (pre' ++ l')) dk base (len pre) l' = frames C dk base (len pre) l.
Proof.
  intros l l' Hp Hl. revert pre pre' Hp. induction Hl as [|c c' l l' Hc Hl IH]; intros pre pre' Hp Hn; [reflexivity|].
  assert (Hpl : length pre = length pre') by (clear -Hp; induction Hp; cbn; congruence).
  assert (H1 : forall last, frame (other C dk mk (pre ++ c :: l) (pre' ++ c' :: l')) dk base (len pre) last c' = frame C dk base (len pre) last c).
  { intros last. apply other_frame; auto.
    - rewrite len_app, len_cons in Hn. pose proof (len_nonneg l). pose proof (len_nonneg pre). lia.
    - unfold len. rewrite Nat2Z.id, app_nth2, Nat.sub_diag by lia. reflexivity.
    - unfold len. rewrite Nat2Z.id, Hpl, app_nth2, Nat.sub_diag by lia. reflexivity. }
  destruct Hl as [|d d' l l' Hd Hl].
  - cbn [frames]. apply H1.
  - change (frames (other C dk mk (pre ++ c :: d :: l) (pre' ++ c' :: d' :: l')) dk base (len pre) (c' :: d' :: l')) with
      (frame (other C dk mk (pre ++ c :: d :: l) (pre' ++ c' :: d' :: l')) dk base (len pre) false c' ++
       frames (other C dk mk (pre ++ c :: d :: l) (pre' ++ c' :: d' :: l')) dk base (len pre + 1) (d' :: l')).
    change (frames C dk base (len pre) (c :: d :: l)) with (frame C dk base (len pre) false c ++ frames C dk base (len pre + 1) (d :: l)).
    rewrite H1. f_equal.
    specialize (IH (pre ++ [c]) (pre' ++ [c'])). rewrite <- !app_assoc in IH. cbn [app] in IH.
    replace (len pre + 1) with (len (pre ++ [c])) by (rewrite len_app; reflexivity). apply IH; [|exact Hn].
    apply Forall2_app; [exact Hp|]. constructor; [exact Hc|constructor].
Qed.

(** ** C81: the content is hidden.
    [file] was made from the plaintext [s].  For every other plaintext [s'] of the same length there is a crypto record which is the same as
    [C] for everybody who does not use the file's data key (with AES-GCM) or MAC key (with HMAC), which obeys all the laws, and with
    which the same session makes the very same file out of [s'].  So nothing that can be computed from the file without one of these two keys
    tells more about the plaintext than its length. *)
Theorem C81_content_hidden :
  forall C, crypto_ok C ->
  forall sender blksize pks g e g', 0 <= blksize -> len pks < 2^40 ->
  (forall sk, sender = Some sk -> len (sk_Sk sk) = 64) -> (forall pk, In pk pks -> len (pk_Pk pk) = 32) -> session C sender blksize pks g e g' ->
  forall rd s er wr e2 rd2 wr2 g2, delivers rd s er -> encrypt C e rd wr g' = (e2, rd2, wr2, g2, Ok tt) -> len s < (2^32 - 1) * chunk_of blksize ->
  forall s', len s' = len s ->
  let fk := keys_of C (e_hdr e) (e_key e) in
  exists C', crypto_ok C' /\ same_but (eq (fk_data fk)) (eq (fk_mac fk)) nothing C C' /\ session C' sender blksize pks g e g' /\
    (forall rd' wr', delivers rd' s' IoEOF -> accepts wr' -> exists e3 rd3 wr3 g3, encrypt C' e rd' wr' g' = (e3, rd3, wr3, g3, Ok tt)) /\
    forall rd' er' wr' e3 rd3 wr3 g3, delivers rd' s' er' -> encrypt C' e rd' wr' g' = (e3, rd3, wr3, g3, Ok tt) ->
      exists file, wrote wr wr2 file /\ wrote wr' wr3 file.
Proof.
  intros C HC sender blk pks g e g' Hb Hp Hg Hpk Hs rd s er wr e2 rd2 wr2 g2 Hd He Hsz s' Hss fk.
  rewrite <- (block_size_chunk blk Hb) in Hsz.
  pose proof (session_ready _ _ _ _ _ _ _ HC Hg Hs) as Hr. pose proof (header_small _ _ _ _ _ HC Hb Hr Hp) as Hl.
  pose proof (block_size_range blk Hb) as Hbr.
  pose proof (encrypt_spec _ _ _ _ _ _ _ _ _ _ _ _ _ _ _ HC Hg Hb Hr Hl Hd He) as (_ & _ & cs & Hcs & Ht). fold fk in Ht.
  destruct (encrypt_chunks_exists (block_size blk) (proj1 Hbr) s') as (cs' & Hcs').
  assert (HF : Forall2 (fun c c' => len c = len c') cs cs').
  { eapply chunked_lens; [| |exact Hcs|exact Hcs'|congruence]; cbn beta; lia. }
  set (C' := other C (fk_data fk) (fk_mac fk) cs cs').
  assert (HC' : crypto_ok C') by (apply other_ok; [apply lens_nth; exact HF|exact HC]).
  assert (Hs' : session C' sender blk pks g e g').
  { apply (session_same C C'); try reflexivity; [| |exact Hs].
    - intros. apply other_seal. discriminate.
    - intros pk k n p Hin. apply other_seal. rewrite (Hpk _ Hin). discriminate. }
  pose proof (session_ready _ _ _ _ _ _ _ HC' Hg Hs') as Hr'. pose proof (header_small _ _ _ _ _ HC' Hb Hr' Hp) as Hl'.
  exists C'. split; [exact HC'|]. split; [apply other_same|]. split; [exact Hs'|]. split.
  { intros rd' wr' Hd' Ha'. eapply encrypt_total; eauto. }
  intros rd' er' wr' e3 rd3 wr3 g3 Hd' He'.
  pose proof (encrypt_spec _ _ _ _ _ _ _ _ _ _ _ _ _ _ _ HC' Hg Hb Hr' Hl' Hd' He') as (_ & _ & cs2 & Hcs2 & Ht').
  rewrite (encrypt_chunks_det _ _ _ (proj1 Hbr) Hcs' _ Hcs2) in Ht'. clear cs2 Hcs2.
  change (keys_of C' (e_hdr e) (e_key e)) with fk in Ht'.
  assert (Htr : the_trailer C' e (fk_mac fk) (mac_input cs') g' = the_trailer C e (fk_mac fk) (mac_input cs) g').
  { unfold the_trailer. destruct (e_sender e); [|reflexivity]. unfold msg_digest. unfold C'. cbn [other ed_sign sha512 hmac_sha256].
    rewrite beq_refl, swap_l. reflexivity. }
  rewrite Htr in Ht'. destruct (the_trailer C e (fk_mac fk) (mac_input cs) g') as [tr gx].
  destruct Ht as (_ & _ & Ho & _). destruct Ht' as (_ & _ & Ho' & _). eexists. split; [exact Ho|]. unfold wrote. rewrite Ho'. f_equal.
  unfold sigtool_file, header_cksum. change (sha256 C') with (sha256 C). do 2 f_equal.
  unfold body. change (keys_of C' (e_hdr e) (e_key e)) with fk. change (keys_of C (e_hdr e) (e_key e)) with fk. f_equal.
  apply (other_frames C (fk_data fk) (fk_mac fk) (fk_base fk) [] [] cs cs' (Forall2_nil _) HF).
  cbn [app]. pose proof (made_count _ _ _ (proj1 Hbr) (or_introl Hcs) Hsz). unfold len. lia.
Qed.
Print Assumptions C81_content_hidden.

Lemma stream_lens n cs s cs' s' : 0 < n -> stream_chunks n cs s -> stream_chunks n cs' s' -> len s = len s' ->
  Forall2 (fun c c' => len c = len c') cs cs'.
Proof.
  assert (Hpos : forall ds t, 0 < n -> chunked n (fun k => 0 < k <= n) ds t -> 0 < len t).
  { intros ds t Hn [d Hd|d es u Hd H]; [lia|]. rewrite len_app, Hd. pose proof (len_nonneg u). lia. }
  intros Hn [H|[-> ->]] [H'|[-> ->]] Hl.
  - revert cs' s' H' Hl. induction H as [c Hc|c cs s Hc H IH]; intros cs2 s2 H2 Hl; destruct H2 as [d Hd|d ds t Hd H3].
    + constructor; [exact Hl|constructor].
    + exfalso. rewrite len_app, Hd in Hl. pose proof (Hpos _ _ Hn H3). lia.
    + exfalso. rewrite len_app, Hc in Hl. pose proof (Hpos _ _ Hn H). lia.
    + constructor; [congruence|]. apply (IH ds t H3). rewrite !len_app in Hl. lia.
  - pose proof (Hpos _ _ Hn H). change (len (@nil byte)) with 0 in Hl. lia.
  - pose proof (Hpos _ _ Hn H'). change (len (@nil byte)) with 0 in Hl. lia.
  - constructor; [reflexivity|constructor].
Qed.

(** a destination without errors takes everything *)
Lemma streamed_total C sender blk pks g e g' : crypto_ok C -> 0 <= blk -> len pks < 2^40 -> good_sender sender -> session C sender blk pks g e g' ->
  forall wr bs, accepts wr -> exists wr2 g2, streamed_to C e g' wr bs wr2 g2.
Proof.
  intros HC Hb Hp Hg Hs wr bs Ha. destruct (C02_stream_writes_succeed C HC sender blk pks g e g' Hb Hp Hg Hs wr Ha) as (e1 & wr1 & w1 & Hn & H).
  destruct (H bs) as (e2 & wr2 & g2 & w2 & e3 & wr3 & g3 & w3 & H1 & H2). exists wr3, g3. unfold streamed_to. eauto 20.
Qed.
(** streams within and beyond the bound of C07 *)
Example C07_stream_wrap_instance : exists e g w w' h h', session toy None 1 [pkA] g0 e g /\
  streamed_to toy e g sink [zeros (2^32)] w h /\ len (concat [zeros (2^32)]) <= 2^32 * chunk_of 1 /\
  streamed_to toy e g sink [zeros (2^32); [x00]] w' h' /\ 2^32 * chunk_of 1 < len (concat [zeros (2^32); [x00]]).
Proof.
  destruct (C01_encrypt_succeeds toy toy_ok None 1 [pkA] g0 ltac:(lia) ltac:(cbn; lia) ltac:(discriminate)
    ltac:(intros pk [<-|[]]; exists seedA; apply pA)) as (e & g & Hs & _).
  assert (Ha : accepts sink) by (split; constructor).
  assert (T : forall bs, exists wr2 g2, streamed_to toy e g sink bs wr2 g2).
  { intros bs. apply (streamed_total toy None 1 [pkA] g0 e g toy_ok); [lia|cbn; lia|discriminate|exact Hs|exact Ha]. }
  destruct (T [zeros (2^32)]) as (w & h & S1). destruct (T [zeros (2^32); [x00]]) as (w' & h' & S2).
  exists e, g, w, w', h, h'. split; [exact Hs|]. split; [exact S1|].
  assert (L : forall t, len (concat (zeros (2^32) :: t)) = 2^32 + len (concat t)) by (intros t; cbn [List.concat]; rewrite len_app, len_zeros by lia; reflexivity).
  rewrite !L. change (chunk_of 1) with 1. change (len (concat (@nil bytes))) with 0. change (len (concat [[x00]])) with 1.
  split; [lia|]. split; [exact S2|lia].
Qed.
(** the same for files written through NewStreamWriter, Writes (of [bs] and of [bs']) and Close *)
Theorem C81_stream_content_hidden :
  forall C, crypto_ok C ->
  forall sender blksize pks g e g', 0 <= blksize -> len pks < 2^40 ->
  (forall sk, sender = Some sk -> len (sk_Sk sk) = 64) -> (forall pk, In pk pks -> len (pk_Pk pk) = 32) -> session C sender blksize pks g e g' ->
  forall wr bs wr2 g2, streamed_to C e g' wr bs wr2 g2 -> len (concat bs) < (2^32 - 1) * chunk_of blksize ->
  forall s', len s' = len (concat bs) ->
  let fk := keys_of C (e_hdr e) (e_key e) in
  exists C', crypto_ok C' /\ same_but (eq (fk_data fk)) (eq (fk_mac fk)) nothing C C' /\ session C' sender blksize pks g e g' /\
    (forall wr' bs', accepts wr' -> exists wr3 g3, streamed_to C' e g' wr' bs' wr3 g3) /\
    forall wr' bs' wr3 g3, concat bs' = s' -> streamed_to C' e g' wr' bs' wr3 g3 ->
      exists file, wrote wr wr2 file /\ wrote wr' wr3 file.
Proof.
  intros C HC sender blk pks g e g' Hb Hp Hg Hpk Hs wr bs wr2 g2 He Hsz s' Hss fk.
  rewrite <- (block_size_chunk blk Hb) in Hsz.
  pose proof (session_ready _ _ _ _ _ _ _ HC Hg Hs) as Hr. pose proof (header_small _ _ _ _ _ HC Hb Hr Hp) as Hl.
  pose proof (block_size_range blk Hb) as Hbr.
  destruct (streamed_exact _ _ _ _ _ _ _ _ _ _ HC Hg Hb Hr Hl He) as (cs & Hcs & Ht). cbv zeta in Ht. fold fk in Ht.
  assert (exists cs', stream_chunks (block_size blk) cs' s') as (cs' & Hcs').
  { destruct (bytes_eq_dec s' []) as [->|Hne]; [exists [[]]; right; auto|].
    destruct (stream_chunks_exists (block_size blk) (proj1 Hbr) s' Hne) as (cs' & H). exists cs'. left. exact H. }
  assert (HF : Forall2 (fun c c' => len c = len c') cs cs').
  { eapply stream_lens; [|exact Hcs|exact Hcs'|congruence]. lia. }
  set (C' := other C (fk_data fk) (fk_mac fk) cs cs').
  assert (HC' : crypto_ok C') by (apply other_ok; [apply lens_nth; exact HF|exact HC]).
  assert (Hs' : session C' sender blk pks g e g').
  { apply (session_same C C'); try reflexivity; [| |exact Hs].
    - intros. apply other_seal. discriminate.
    - intros pk k n p Hin. apply other_seal. rewrite (Hpk _ Hin). discriminate. }
  pose proof (session_ready _ _ _ _ _ _ _ HC' Hg Hs') as Hr'. pose proof (header_small _ _ _ _ _ HC' Hb Hr' Hp) as Hl'.
  exists C'. split; [exact HC'|]. split; [apply other_same|]. split; [exact Hs'|].
  split; [eapply streamed_total; eauto|].
  intros wr' bs' wr3 g3 Hbs He'.
  destruct (streamed_exact _ _ _ _ _ _ _ _ _ _ HC' Hg Hb Hr' Hl' He') as (cs2 & Hcs2 & Ht'). cbv zeta in Ht'. rewrite Hbs in Hcs2.
  rewrite (stream_chunks_det _ _ _ (proj1 Hbr) Hcs' _ Hcs2) in Ht'. clear cs2 Hcs2.
  change (keys_of C' (e_hdr e) (e_key e)) with fk in Ht'.
  assert (Htr : trailer_from C' sender (fk_mac fk) (mac_input cs') g' = trailer_from C sender (fk_mac fk) (mac_input cs) g').
  { unfold trailer_from. destruct sender; [|reflexivity]. unfold msg_digest. unfold C'. cbn [other ed_sign sha512 hmac_sha256].
    rewrite beq_refl, swap_l. reflexivity. }
  rewrite Htr in Ht'. destruct (trailer_from C sender (fk_mac fk) (mac_input cs) g') as [tr gx].
  destruct Ht as (_ & _ & Ho & _). destruct Ht' as (_ & _ & Ho' & _). eexists. split; [exact Ho|]. unfold wrote. rewrite Ho'. f_equal.
  unfold sigtool_file, header_cksum. change (sha256 C') with (sha256 C). do 2 f_equal.
  unfold body. change (keys_of C' (e_hdr e) (e_key e)) with fk. change (keys_of C (e_hdr e) (e_key e)) with fk. f_equal.
  apply (other_frames C (fk_data fk) (fk_mac fk) (fk_base fk) [] [] cs cs' (Forall2_nil _) HF).
  cbn [app]. pose proof (made_count _ _ _ (proj1 Hbr) (or_intror Hcs) Hsz). unfold len. lia.
Qed.
Print Assumptions C81_stream_content_hidden.

(** ** The other crypto record of C82: two AEAD slots (key, nonce, associated data) change places *)
Definition slot : Type := (bytes * bytes * bytes)%type.
Definition slot_eq (x y : slot) : bool := let '(k, n, a) := x in let '(k', n', a') := y in beq k k' && beq n n' && beq a a'.
Lemma slot_eq_iff x y : slot_eq x y = true <-> x = y.
Proof.
  destruct x as [[k n] a], y as [[k' n'] a']. unfold slot_eq. rewrite !andb_true_iff, !beq_iff. split; [intros [[-> ->] ->]; reflexivity|].
  intros H. injection H as -> -> ->. auto.
Qed.
Definition tau (s s' x : slot) : slot := if slot_eq x s then s' else if slot_eq x s' then s else x.
Section Exchanged.
  Variables (C : crypto) (s s' : slot).
  Definition exchanged : crypto :=
    mkCrypto (sha256 C) (sha512 C) (hmac_sha256 C) (hkdf_sha512 C)
      (fun k n p a => let '(k, n, a) := tau s s' (k, n, a) in gcm_seal C k n p a)
      (fun k n c a => let '(k, n, a) := tau s s' (k, n, a) in gcm_open C k n c a)
      (x25519 C) (ed_public C) (ed_sign C) (ed_verify C) (scrypt C) (bcrypt_kdf C) (aes256_cbc_dec C) (aes256_ctr C).
  Lemma exchanged_ok : crypto_ok C -> crypto_ok exchanged.
  Proof.
    intros []. constructor; cbn [exchanged sha256 sha512 hmac_sha256 hkdf_sha512 gcm_seal gcm_open x25519 ed_public ed_sign ed_verify scrypt aes256_cbc_dec aes256_ctr]; auto.
    - intros. destruct (tau s s' (k, n, a)) as [[k1 n1] a1]. apply ok_seal_len.
    - intros. destruct (tau s s' (k, n, a)) as [[k1 n1] a1]. apply ok_open_seal.
    - intros k n c a p. destruct (tau s s' (k, n, a)) as [[k1 n1] a1]. apply ok_open_tidy.
  Qed.
  Lemma tau_other k n a : a <> snd s -> a <> snd s' -> tau s s' (k, n, a) = (k, n, a).
  Proof.
    intros H H'. unfold tau. destruct (slot_eq (k, n, a) s) eqn:E; [apply slot_eq_iff in E; subst s; cbn in H; congruence|].
    destruct (slot_eq (k, n, a) s') eqn:E'; [apply slot_eq_iff in E'; subst s'; cbn in H'; congruence|]. reflexivity.
  Qed.
  Lemma tau_r : tau s s' s' = s.
  Proof. unfold tau. destruct (slot_eq s' s) eqn:E; [apply slot_eq_iff in E; exact E|]. rewrite (proj2 (slot_eq_iff s' s') eq_refl). reflexivity. Qed.
  Lemma exchanged_seal k n p a : a <> snd s -> a <> snd s' -> gcm_seal exchanged k n p a = gcm_seal C k n p a.
  Proof. intros. cbn [exchanged gcm_seal]. rewrite tau_other by assumption. reflexivity. Qed.
  Lemma exchanged_same : same_but (fun k => k = fst (fst s) \/ k = fst (fst s')) nothing nothing C exchanged.
  Proof.
    assert (H : forall k n a, ~ (k = fst (fst s) \/ k = fst (fst s')) -> tau s s' (k, n, a) = (k, n, a)).
    { intros k n a H. unfold tau. destruct (slot_eq (k, n, a) s) eqn:E; [apply slot_eq_iff in E; subst s; cbn in H; tauto|].
      destruct (slot_eq (k, n, a) s') eqn:E'; [apply slot_eq_iff in E'; subst s'; cbn in H; tauto|]. reflexivity. }
    constructor; try reflexivity; cbn [exchanged gcm_seal gcm_open hmac_sha256 ed_sign ed_verify]; intros; try reflexivity; rewrite H by assumption; reflexivity.
  Qed.
End Exchanged.

(** the same functions with 4 bytes of associated data: the same output *)
Section SameOutput.
  Variables C C' : crypto.
  Hypotheses (H1 : sha256 C' = sha256 C) (H2 : sha512 C' = sha512 C) (H3 : hkdf_sha512 C' = hkdf_sha512 C) (H4 : ed_sign C' = ed_sign C)
    (H5 : hmac_sha256 C' = hmac_sha256 C) (H6 : forall k n p a, len a = 4 -> gcm_seal C' k n p a = gcm_seal C k n p a).
  Lemma enc_start_same e w : enc_start C' e w = enc_start C e w.
  Proof. unfold enc_start, expand. rewrite H1, H3. reflexivity. Qed.
  Lemma write_trailer_same e w g : write_trailer C' e w g = write_trailer C e w g.
  Proof. unfold write_trailer, sign_message, Ed_Sign, msg_digest. rewrite H2, H4, H5. reflexivity. Qed.
  Lemma enc_block_same e pt w i eof g : enc_block C' e pt w i eof g = enc_block C e pt w i eof g.
  Proof.
    unfold enc_block. destruct (e_ae e) as [k|]; [|reflexivity]. destruct (e_hmac e) as [[hk hd]|]; [|reflexivity].
    rewrite H6 by reflexivity. destruct (_ <? _); [reflexivity|]. destruct (fullwrite _ w) as [[x|] w']; [reflexivity|].
    destruct eof; [|reflexivity]. rewrite write_trailer_same. reflexivity.
  Qed.
  Lemma enc_loop_same fuel : forall e r w i g, enc_loop C' fuel e r w i g = enc_loop C fuel e r w i g.
  Proof.
    induction fuel as [|f IH]; intros; [reflexivity|]. cbn [enc_loop]. destruct (read_full r _) as [[b err] r'].
    destruct (match err with None => _ | Some _ => _ end) as [eof| |]; try reflexivity. rewrite enc_block_same.
    destruct (enc_block C e b w i eof g) as [[[e' w'] g'] rs]. destruct rs; try reflexivity. destruct eof; [reflexivity|]. apply IH.
  Qed.
  Lemma encrypt_same e r w g : encrypt C' e r w g = encrypt C e r w g.
  Proof. unfold encrypt. destruct (e_stream e); [reflexivity|]. rewrite enc_start_same. destruct (if e_started e then _ else _) as [[e1 w1] rs]. destruct rs; try reflexivity. rewrite enc_loop_same. reflexivity. Qed.
  Lemma new_stream_writer_same e w : new_stream_writer C' e w = new_stream_writer C e w.
  Proof. unfold new_stream_writer. rewrite enc_start_same. reflexivity. Qed.
  Lemma ew_loop_same fuel : forall e w g s b, ew_loop C' fuel e w g s b = ew_loop C fuel e w g s b.
  Proof.
    induction fuel as [|f IH]; intros; destruct b as [|c b]; try reflexivity. cbn [ew_loop]. destruct (_ && _); [|apply IH].
    rewrite enc_block_same. destruct (enc_block C e _ w _ false g) as [[[e' w'] g'] rs]. destruct rs; try reflexivity. apply IH.
  Qed.
  Lemma ew_write_same e w g s b : ew_write C' e w g s b = ew_write C e w g s b.
  Proof. unfold ew_write. destruct (ew_err s); [reflexivity|]. destruct (len b =? 0); [reflexivity|]. rewrite ew_loop_same. reflexivity. Qed.
  Lemma ew_close_same e w g s : ew_close C' e w g s = ew_close C e w g s.
  Proof. unfold ew_close. destruct (ew_err s); [reflexivity|]. rewrite enc_block_same. reflexivity. Qed.
  Lemma write_all_same bs : forall e w g s, write_all C' e w g s bs = write_all C e w g s bs.
  Proof.
    induction bs as [|b bs IH]; intros; [reflexivity|]. cbn [write_all]. rewrite ew_write_same.
    destruct (ew_write C e w g s b) as [[[[e1 w1] g1] s1] r]. rewrite IH. reflexivity.
  Qed.
  Lemma streamed_same e g w bs w' g' : streamed_to C' e g w bs w' g' <-> streamed_to C e g w bs w' g'.
  Proof.
    split; intros (e1 & wr1 & w1 & e2 & wr2 & g2 & w2 & rs & e3 & w3 & A & B & D); exists e1, wr1, w1, e2, wr2, g2, w2, rs, e3, w3.
    - rewrite new_stream_writer_same in A. rewrite write_all_same in B. rewrite ew_close_same in D. auto.
    - rewrite new_stream_writer_same, write_all_same, ew_close_same. auto.
  Qed.
End SameOutput.

Lemma add_recipients_app C l1 : forall l2 e g, add_recipients C e (l1 ++ l2) g =
  match add_recipients C e l1 g with Some (e', g') => add_recipients C e' l2 g' | None => None end.
Proof.
  induction l1 as [|pk l1 IH]; intros; [reflexivity|]. cbn [app add_recipients]. destruct (add_recipient C e pk g) as [[[e1 q] g1] r].
  destruct r; try reflexivity. apply IH.
Qed.

(** the key-encryption key of the recipient with Ed25519 seed [seed] for the wrapped key with nonce [n]: made from his private key and the
    header *)
Definition kek_of (C : crypto) (h : header) (seed n : bytes) : bytes := fst (wrap_keys C (x25519 C (scalar_of C seed) (h_pk h)) (h_salt h) n).

(** ** C82: the recipients are hidden.
    Any recipient [pk] of a session can be exchanged for any other key [pk'] (neither of them given twice): there is a crypto record, the
    same as [C] for everybody who uses neither of the two recipients' key-encryption keys, with which the session with [pk']
    has the same encryptor and makes the same files. *)
Theorem C82_recipients_hidden :
  forall C, crypto_ok C ->
  forall sender blksize l1 pk l2 g e g' seed seed' pk', (forall sk, sender = Some sk -> len (sk_Sk sk) = 64) ->
  session C sender blksize (l1 ++ pk :: l2) g e g' ->
  pubof C seed pk -> pubof C seed' pk' ->
  (forall q, In q (l1 ++ l2) -> len (pk_Pk q) = 32 /\ pk_Pk q <> pk_Pk pk /\ pk_Pk q <> pk_Pk pk') ->
  exists C' w, crypto_ok C' /\ In w (h_keys (e_hdr e)) /\
    same_but (fun k => k = kek_of C (e_hdr e) seed (w_nonce w) \/ k = kek_of C (e_hdr e) seed' (w_nonce w)) nothing nothing C C' /\
    session C' sender blksize (l1 ++ pk' :: l2) g e g' /\
    (forall rd wr, encrypt C' e rd wr g' = encrypt C e rd wr g') /\
    (forall wr bs wr' g2, streamed_to C' e g' wr bs wr' g2 <-> streamed_to C e g' wr bs wr' g2).
Proof.
  intros C HC sender blk l1 pk l2 g e g' seed seed' pk' Hg Hs Hpk Hpk' Hq.
  pose proof Hs as (e0 & g0 & Hn & Ha). rewrite add_recipients_app in Ha.
  destruct (add_recipients C e0 l1 g0) as [[e1 g1]|] eqn:E1; [|discriminate]. cbn [add_recipients] in Ha.
  destruct (add_recipient C e1 pk g1) as [[[e2 q] g2] r] eqn:E2. destruct r as [u| |]; try discriminate.
  assert (Hr1 : ready C sender blk l1 e1).
  { apply (session_ready C sender blk l1 g e1 g1 HC Hg). exists e0, g0. auto. }
  assert (Hk : forall seed pk, pubof C seed pk -> X25519 C (e_encSK e1) (curve_of (pk_Pk pk)) = Ok (x25519 C (scalar_of C seed) (h_pk (e_hdr e1))) /\
    exists p1, to_curve_pk pk = Ok (curve_of (pk_Pk pk), p1)).
  { clear -HC Hr1. intros seed pk [Hl Hp Hc]. split.
    - unfold X25519. rewrite (rd_esk _ _ _ _ _ Hr1). cbn [negb Z.eqb Pos.eqb]. rewrite Hp, (ok_birational C HC) by exact Hl.
      rewrite (ok_x25519_len C HC). cbn [negb Z.eqb Pos.eqb]. fold (scalar_of C seed).
      assert (H32 : len (scalar_of C seed) = 32). { unfold scalar_of. rewrite len_clamp, len_take by lia; rewrite (ok_sha512_len C HC); lia. }
      rewrite (ok_dh C HC) by (first [apply (rd_esk _ _ _ _ _ Hr1)|exact H32]). rewrite <- (rd_epk _ _ _ _ _ Hr1).
      destruct (beq _ (zeros 32)) eqn:E; [|reflexivity]. exfalso. apply beq_eq in E. rewrite (rd_epk _ _ _ _ _ Hr1) in E.
      revert E. apply (ok_dh_nonzero C HC); [exact H32|apply (rd_esk _ _ _ _ _ Hr1)].
    - unfold to_curve_pk. rewrite Hp, (ok_ed_public_len C HC). cbn [Z.ltb Z.compare Pos.compare Pos.compare_cont]. destruct Hc as [->| ->]; eauto. }
  destruct (Hk _ _ Hpk) as (Hx & p1 & Hc). destruct (Hk _ _ Hpk') as (Hx' & p1' & Hc').
  unfold add_recipient in E2. rewrite (rd_started _ _ _ _ _ Hr1) in E2.
  unfold wrap_key in E2. rewrite Hc, Hx in E2. destruct (rand_buf rx_nonce_size g1) as [rb gx] eqn:Er.
  unfold expand in E2. change (aes_key_size + rx_nonce_size) with 44 in E2. change (take aes_key_size) with (@take byte 32) in E2.
  change (drop aes_key_size) with (@drop byte 32) in E2. change wrap_receiver with (str "Receiver Key") in E2.
  set (kx := hkdf_sha512 C (x25519 C (scalar_of C seed) (h_pk (e_hdr e1))) (sha256 C (h_salt (e_hdr e1) ++ rb)) (str "Receiver Key") 44) in *.
  set (kx' := hkdf_sha512 C (x25519 C (scalar_of C seed') (h_pk (e_hdr e1))) (sha256 C (h_salt (e_hdr e1) ++ rb)) (str "Receiver Key") 44).
  assert (Hl : forall s t, len (take 32 (hkdf_sha512 C s t (str "Receiver Key") 44)) = 32).
  { intros. rewrite len_take by lia; rewrite (ok_hkdf_len C HC); lia. }
  rewrite (new_gcm_32 (take 32 kx)) in E2 by apply Hl. cbn [wrapf bind] in E2.
  set (w := mkWkey (gcm_seal C (take 32 kx) (drop 32 kx) (e_key e1) (pk_Pk pk)) rb []) in *.
  injection E2 as E2 _ Eg _. subst gx.
  set (C' := exchanged C (take 32 kx, drop 32 kx, pk_Pk pk) (take 32 kx', drop 32 kx', pk_Pk pk')).
  assert (Hpl : forall sd p, pubof C sd p -> len (pk_Pk p) = 32) by (intros sd p [_ Hp0 _]; rewrite Hp0; apply (ok_ed_public_len C HC)).
  assert (HC' : crypto_ok C') by (apply exchanged_ok; exact HC).
  assert (Hs32 : forall k n p a, len a <> 32 -> gcm_seal C' k n p a = gcm_seal C k n p a).
  { intros k n p a H. apply exchanged_seal; cbn [snd]; intros ->; apply H; eapply Hpl; eassumption. }
  assert (Hsq : forall q k n p, In q (l1 ++ l2) -> gcm_seal C' k n p (pk_Pk q) = gcm_seal C k n p (pk_Pk q)).
  { intros q0 k n p H. destruct (Hq _ H) as (_ & A & B). apply exchanged_seal; assumption. }
  assert (Hr2 : In w (h_keys (e_hdr e)) /\ h_salt (e_hdr e) = h_salt (e_hdr e1) /\ h_pk (e_hdr e) = h_pk (e_hdr e1)).
  { assert (forall l a b c d, add_recipients C a l b = Some (c, d) -> (forall x, In x (h_keys (e_hdr a)) -> In x (h_keys (e_hdr c))) /\
      h_salt (e_hdr c) = h_salt (e_hdr a) /\ h_pk (e_hdr c) = h_pk (e_hdr a)) as Hadd.
    { clear. induction l as [|p l IH]; intros a b c d H; cbn [add_recipients] in H; [injection H as <- <-; auto|].
      destruct (add_recipient C a p b) as [[[a1 q] b1] r] eqn:E. destruct r; try discriminate. destruct (IH _ _ _ _ H) as (A & B & D).
      unfold add_recipient in E. destruct (e_started a); [discriminate|]. destruct (wrap_key C a p b) as [[[w q1]| |] b2]; try discriminate.
      injection E as <- _ _ _. cbn [e_with_hdr e_hdr h_add_key h_keys h_salt h_pk] in A, B, D. split; [|auto].
      intros x Hx. apply A. apply in_or_app. left. exact Hx. }
    destruct (Hadd _ _ _ _ _ Ha) as (A & B & D). rewrite <- E2 in A, B, D. cbn [e_with_hdr e_hdr h_add_key h_keys h_salt h_pk] in A, B, D.
    split; [|auto]. apply A. apply in_or_app. right. left. reflexivity. }
  destruct Hr2 as (Hw & Hsalt & Hhpk).
  exists C', w. split; [exact HC'|]. split; [exact Hw|].
  split. { unfold kek_of, wrap_keys. cbn [fst]. rewrite Hsalt, Hhpk. change (w_nonce w) with rb.
    exact (exchanged_same C (take 32 kx, drop 32 kx, pk_Pk pk) (take 32 kx', drop 32 kx', pk_Pk pk')). }
  split.
  { exists e0, g0. rewrite (new_encryptor_same C C') by (try reflexivity; intros; apply Hs32; discriminate). split; [exact Hn|].
    rewrite add_recipients_app, (add_recipients_same C C') by (try reflexivity; intros; apply Hsq; apply in_or_app; auto).
    rewrite E1. cbn [add_recipients]. unfold add_recipient. rewrite (rd_started _ _ _ _ _ Hr1).
    unfold wrap_key. rewrite Hc'. change (X25519 C') with (X25519 C). rewrite Hx', Er.
    unfold expand. change (aes_key_size + rx_nonce_size) with 44. change (take aes_key_size) with (@take byte 32).
    change (drop aes_key_size) with (@drop byte 32). change wrap_receiver with (str "Receiver Key").
    change (hkdf_sha512 C' (x25519 C (scalar_of C seed') (h_pk (e_hdr e1))) (sha256 C' (h_salt (e_hdr e1) ++ rb)) (str "Receiver Key") 44) with kx'.
    rewrite (new_gcm_32 (take 32 kx')) by apply Hl. cbn [wrapf bind].
    replace (gcm_seal C' (take 32 kx') (drop 32 kx') (e_key e1) (pk_Pk pk')) with (gcm_seal C (take 32 kx) (drop 32 kx) (e_key e1) (pk_Pk pk)).
    2:{ unfold C'. cbn [exchanged gcm_seal]. rewrite tau_r. reflexivity. }
    fold w. rewrite E2, (add_recipients_same C C') by (try reflexivity; intros; apply Hsq; apply in_or_app; auto). exact Ha. }
  split.
  - intros. apply encrypt_same; try reflexivity. intros. apply Hs32. lia.
  - intros. apply streamed_same; try reflexivity. intros. apply Hs32. lia.
Qed.
Print Assumptions C82_recipients_hidden.
(** the file of "hello world", signed and for two recipients, could be one of "attack dawn" *)
Example C81_instance : exists C' rd wr wr2 e r g, crypto_ok C' /\ session C' (Some skS) 4 [pkA; pkB] g0 e1 g1 /\
  delivers rd (str "attack dawn") IoEOF /\ w_out wr = [] /\ encrypt C' e1 rd wr g1 = (e, r, wr2, g, Ok tt) /\ w_out wr2 = file1.
Proof.
  destruct file1_made as (e & r & w & g & He & Hw).
  assert (H32 : forall pk, In pk [pkA; pkB] -> len (pk_Pk pk) = 32).
  { intros pk [<-|[<-|[]]]; vm_compute; reflexivity. }
  destruct (C81_content_hidden toy toy_ok (Some skS) 4 [pkA; pkB] g0 e1 g1 ltac:(lia) ltac:(cbn; lia)
    ltac:(intros sk E; injection E as <-; vm_compute; reflexivity) H32 session1 src text IoEOF dst e r w g src_delivers He ltac:(vm_compute; reflexivity)
    (str "attack dawn") ltac:(vm_compute; reflexivity)) as (C' & HC & _ & Hs & Ht & Hf).
  destruct (Ht (whole (str "attack dawn")) dst (delivers_whole _) dst_accepts) as (e3 & rd3 & wr3 & g3 & H3).
  destruct (Hf _ _ _ _ _ _ _ (delivers_whole _) H3) as (file & F1 & F2).
  exists C', (whole (str "attack dawn")), dst, wr3, e3, rd3, g3. split; [exact HC|]. split; [exact Hs|]. split; [apply delivers_whole|]. split; [reflexivity|].
  split; [exact H3|]. unfold wrote in F1, F2. rewrite Hw in F1. rewrite F1, F2. reflexivity.
Qed.
(** and it could be for A and S instead of A and B *)
Example C82_instance : exists C' e r w g, crypto_ok C' /\ session C' (Some skS) 4 [pkA; pkS] g0 e1 g1 /\
  encrypt C' e1 src dst g1 = (e, r, w, g, Ok tt) /\ w_out w = file1.
Proof.
  destruct file1_made as (e & r & w & g & He & Hw).
  destruct (C82_recipients_hidden toy toy_ok (Some skS) 4 [pkA] pkB [] g0 e1 g1 seedB seedS pkS
    ltac:(intros sk E; injection E as <-; vm_compute; reflexivity) session1 pB pS) as (C' & k & HC & _ & _ & Hs & Hf & _).
  { intros q [<-|[]]. split; [vm_compute; reflexivity|]. split; intros E; apply (f_equal (fun l => beq l (pk_Pk pkA))) in E; vm_compute in E; discriminate. }
  exists C', e, r, w, g. split; [exact HC|]. split; [exact Hs|]. rewrite Hf. auto.
Qed.
