(** Theorems on the shape of produced files: C57 (size), C58 (randomness), C59 (Encrypt against the stream writer). *)
From Verif Require Import Bytes BytesLemmas GoErr GoIO SpecIO IOProofs Pb SpecPb PbProofs Crypto CryptoLaws Keys Sign
  Encrypt Decrypt Stream Spec SpecStream EncryptProofs DecryptProofs AcceptProofs OpenProofs RoundTrip StreamProofs
  Support Toy Scene Thm_Encrypt Thm_Stream.
Require Import ZifyBool.
Ltac Zify.zify_post_hook ::= Z.div_mod_to_equations.
Local Notation length := List.length.
Local Notation concat := List.concat.

(** ** C57: the exact size of an encrypted file *)
(** bytes the chunk size takes in the header: 7 bits each *)
Definition chunk_digits (c : Z) : Z :=
  if c <? 128 then 1 else if c <? 16384 then 2 else if c <? 2097152 then 3 else if c <? 268435456 then 4 else 5.
(** size of a file for [r] recipients with [k] frames and [n] bytes of plaintext: fixed header 12, protobuf header, checksum 32,
    for each frame a length word of 4 and a tag of 16 bytes, trailer 64 *)
Definition file_size (c r k n : Z) : Z := 12 + (151 + chunk_digits c + 66 * r) + 32 + 20 * k + n + 64.

Lemma size_varint_digits c : 0 <= c < 2^35 -> size_varint c = chunk_digits c.
Proof.
  intros H. unfold chunk_digits. destruct (Z.ltb_spec c 128); [rewrite size_varint_small by lia; reflexivity|].
  rewrite size_varint_big by lia. destruct (Z.ltb_spec c 16384); [rewrite size_varint_small by lia; reflexivity|].
  rewrite size_varint_big by lia. destruct (Z.ltb_spec c 2097152); [rewrite size_varint_small by lia; reflexivity|].
  rewrite size_varint_big by lia. destruct (Z.ltb_spec c 268435456); [rewrite size_varint_small by lia; reflexivity|].
  rewrite size_varint_big by lia. rewrite size_varint_small by lia. reflexivity.
Qed.
Lemma len_frame_word p l : len (frame_word p l) = 4.
Proof. reflexivity. Qed.
Lemma len_frames C dk base cs : crypto_ok C -> forall i, len (frames C dk base i cs) = 20 * len cs + len (concat cs).
Proof.
  intros HC. induction cs as [|c cs IH]; intros i; [reflexivity|].
  assert (Hf : forall last, len (frame C dk base i last c) = 20 + len c).
  { intros last. unfold frame. rewrite len_app, len_frame_word, (ok_seal_len C HC). unfold gcm_overhead. lia. }
  destruct cs as [|c' cs'].
  - cbn [frames List.concat]. rewrite Hf, app_nil_r. change (len [c]) with 1. lia.
  - rewrite frames_cons by discriminate. rewrite len_app, Hf, IH. change (concat (c :: c' :: cs')) with (c ++ concat (c' :: cs')).
    rewrite len_app, !len_cons. lia.
Qed.
Lemma len_sigtool_file C sender blk pks e cs tr : crypto_ok C -> 0 <= blk -> ready C sender blk pks e -> len tr = 64 ->
  len (sigtool_file C (e_hdr e) (e_key e) cs tr) = file_size (block_size blk) (len pks) (len cs) (len (concat cs)).
Proof.
  intros HC Hb Hr Ht. unfold sigtool_file, full_header, header_cksum, body. rewrite !len_app, len_frames by exact HC.
  rewrite (ok_sha256_len C HC), Ht, (ready_header_len _ _ _ _ _ HC Hb Hr). unfold chunk_field_len, file_size.
  pose proof (block_size_range blk Hb). rewrite size_varint_digits by lia.
  change (len (str "SigTool")) with 7. change (len [x03]) with 1.
  change (len (be32 (150 + (1 + chunk_digits (block_size blk)) + 66 * len pks))) with 4. lia.
Qed.
(** number of frames of either interface *)
Definition encrypt_frames (c n : Z) : Z := n / c + 1.
Definition stream_frames (c n : Z) : Z := if n =? 0 then 1 else (n + c - 1) / c.
Lemma encrypt_count c cs s : 1 <= c -> encrypt_chunks c cs s -> len cs = encrypt_frames c (len s).
Proof.
  intros Hc H. pose proof (chunk_count _ _ _ Hc H). unfold encrypt_frames.
  assert (E : len cs - 1 = len s / c) by (apply (Z.div_unique_pos _ c _ (len s - c * (len cs - 1))); nia). lia.
Qed.
Lemma stream_count_eq c cs s : 1 <= c -> stream_chunks c cs s -> len cs = stream_frames c (len s).
Proof.
  intros Hc [H|[-> ->]]; [|reflexivity]. unfold stream_frames.
  destruct (chunked_split _ _ _ _ H) as (init & last & -> & Hi & Hl).
  apply chunked_concat in H. subst s. rewrite concat_app, !len_app, (concat_full c) by exact Hi. cbn [List.concat].
  rewrite app_nil_r. change (len [last]) with 1. pose proof (len_nonneg init). destruct (Z.eqb_spec (c * len init + len last) 0); [nia|].
  apply (Z.div_unique_pos _ c (len init + 1) (len last - 1)); lia.
Qed.

Theorem C57_encrypt_size :
  forall C, crypto_ok C ->
  forall sender blksize pks g e g', 0 <= blksize -> len pks < 2^40 ->
  (forall sk, sender = Some sk -> len (sk_Sk sk) = 64) -> session C sender blksize pks g e g' ->
  forall rd s er wr e2 rd2 wr2 g2, delivers rd s er -> encrypt C e rd wr g' = (e2, rd2, wr2, g2, Ok tt) ->
  exists file, wrote wr wr2 file /\
    len file = file_size (chunk_of blksize) (len pks) (encrypt_frames (chunk_of blksize) (len s)) (len s).
Proof.
  intros C HC sender blk pks g e g' Hb Hp Hg Hs rd s er wr x2 rd2 wr2 h2 D1 E1.
  pose proof (session_ready _ _ _ _ _ _ _ HC Hg Hs) as Hr. pose proof (header_small _ _ _ _ _ HC Hb Hr Hp) as Hl.
  pose proof (encrypt_spec _ _ _ _ _ _ _ _ _ _ _ _ _ _ _ HC Hg Hb Hr Hl D1 E1) as (_ & _ & cs & Hcs & Ht).
  destruct (the_trailer C e _ (mac_input cs) g') as [tr gx]. destruct Ht as (_ & (Ht1 & _) & Ho & _).
  eexists. split; [exact Ho|]. rewrite (len_sigtool_file _ _ _ _ _ _ _ HC Hb Hr Ht1).
  pose proof (block_size_range blk Hb). rewrite (encrypt_count _ _ _ (proj1 H) Hcs), (chunked_concat _ _ _ _ Hcs), block_size_chunk by lia.
  reflexivity.
Qed.
Print Assumptions C57_encrypt_size.

Lemma stream_concat n cs s : stream_chunks n cs s -> concat cs = s.
Proof. intros [H|[-> ->]]; [eapply chunked_concat; exact H|reflexivity]. Qed.
Theorem C57_stream_size :
  forall C, crypto_ok C ->
  forall sender blksize pks g e g', 0 <= blksize -> len pks < 2^40 ->
  (forall sk, sender = Some sk -> len (sk_Sk sk) = 64) -> session C sender blksize pks g e g' ->
  forall wr e1 wr1 w1 bs e2 wr2 g2 w2 rs e3 wr3 g3 w3, new_stream_writer C e wr = (e1, wr1, Ok w1) ->
  write_all C e1 wr1 g' w1 bs = (e2, wr2, g2, w2, rs) -> ew_close C e2 wr2 g2 w2 = (e3, wr3, g3, w3, Ok tt) ->
  exists file, wrote wr wr3 file /\ let s := concat bs in
    len file = file_size (chunk_of blksize) (len pks) (stream_frames (chunk_of blksize) (len s)) (len s).
Proof.
  intros C HC sender blk pks g e g' Hb Hp Hg Hs wr e1 wr1 w1 bs e2 wr2 g2 w2 rs e3 wr3 g3 w3 H1 H2 H3.
  pose proof (session_ready _ _ _ _ _ _ _ HC Hg Hs) as Hr. pose proof (header_small _ _ _ _ _ HC Hb Hr Hp) as Hl.
  pose proof (stream_encrypt_spec _ _ _ _ _ _ _ _ _ _ _ _ _ _ _ _ _ _ _ _ _ HC Hg Hb Hr Hl H1 H2 H3) as (_ & _ & cs & tr & Hcs & (Ht & _) & Ho).
  eexists. split; [exact Ho|]. rewrite (len_sigtool_file _ _ _ _ _ _ _ HC Hb Hr Ht).
  pose proof (block_size_range blk Hb). rewrite (stream_count_eq _ _ _ (proj1 H) Hcs), (stream_concat _ _ _ Hcs), block_size_chunk by lia.
  reflexivity.
Qed.
Print Assumptions C57_stream_size.
Example C57_instance : exists e r w g, encrypt toy e1 src dst g1 = (e, r, w, g, Ok tt) /\
  len (w_out w) = file_size 4 2 3 11 /\ file_size 4 2 3 11 = 463.
Proof. destruct file1_made as (e & r & w & g & He & Hw). exists e, r, w, g. split; [exact He|]. rewrite Hw. split; vm_compute; reflexivity. Qed.

(** ** C59: Encrypt and the stream writer produce the same bytes, except for plaintexts of a positive multiple of the chunk size *)
(** the same session and random source used either way *)
Lemma stream_is_encrypt c cs s : 1 <= c -> stream_chunks c cs s -> (len s mod c = 0 -> s = []) -> encrypt_chunks c cs s.
Proof.
  intros Hc H Hm. destruct H as [H|[-> ->]].
  2: { apply ch_last. change (len (@nil byte)) with 0. lia. }
  assert (Hl : forall n P cs s, chunked n P cs s -> exists m, 0 <= m /\ len s = n * m + len (last cs [])).
  { clear. intros n P cs s. induction 1 as [c0 Hp|c0 cs s Hc0 H (m & Hm0 & Hm)]; [exists 0; cbn [last]; lia|].
    exists (m + 1). pose proof (chunked_nonnil _ _ _ _ H). destruct cs as [|c1 cs]; [contradiction|].
    change (last (c0 :: c1 :: cs) []) with (last (c1 :: cs) []). rewrite len_app. lia. }
  destruct (Hl _ _ _ _ H) as (m & Hm0 & Hlen).
  assert (Hlast : 0 <= len (last cs []) < c).
  { destruct (chunked_split _ _ _ _ H) as (init & l & -> & _ & Hlb). rewrite last_last in *. 
    destruct (Z.eq_dec (len l) c) as [E|E]; [|lia]. exfalso.
    assert (len s = 0); [|nia]. rewrite Hm; [reflexivity|]. rewrite Hlen, E. rewrite <- Z.mul_succ_r, Z.mul_comm. apply Z.mod_mul. lia. }
  clear - H Hlast. induction H as [c0 Hp|c0 cs s Hc0 H IH]; [apply ch_last; exact Hlast|].
  apply ch_more; [exact Hc0|]. apply IH. pose proof (chunked_nonnil _ _ _ _ H). destruct cs; [contradiction|]. exact Hlast.
Qed.

Theorem C59_encrypt_against_stream :
  forall C, crypto_ok C ->
  forall sender blksize pks g e g', 0 <= blksize -> len pks < 2^40 ->
  (forall sk, sender = Some sk -> len (sk_Sk sk) = 64) -> session C sender blksize pks g e g' ->
  forall s rd er wa ea ra wa2 ga, delivers rd s er -> encrypt C e rd wa g' = (ea, ra, wa2, ga, Ok tt) ->
  forall wr e1 wr1 w1 bs e2 wr2 g2 w2 rs e3 wr3 g3 w3, new_stream_writer C e wr = (e1, wr1, Ok w1) ->
  write_all C e1 wr1 g' w1 bs = (e2, wr2, g2, w2, rs) -> ew_close C e2 wr2 g2 w2 = (e3, wr3, g3, w3, Ok tt) -> concat bs = s ->
  exists file1 file2, wrote wa wa2 file1 /\ wrote wr wr3 file2 /\
    (file1 = file2 <-> (len s mod chunk_of blksize = 0 -> s = [])).
Proof.
  intros C HC sender blk pks g e g' Hb Hp Hg Hs s rd er wa ea ra wa2 ga Hd He wr e1 wr1 w1 bs e2 wr2 g2 w2 rs e3 wr3 g3 w3 H1 H2 H3 Hbs.
  destruct (C57_encrypt_size C HC sender blk pks g e g' Hb Hp Hg Hs _ _ _ _ _ _ _ _ Hd He) as (f1 & Hf1 & Hl1).
  destruct (C57_stream_size C HC sender blk pks g e g' Hb Hp Hg Hs _ _ _ _ _ _ _ _ _ _ _ _ _ _ H1 H2 H3) as (f2 & Hf2 & Hl2).
  cbv zeta in Hl2. rewrite Hbs in Hl2. exists f1, f2. split; [exact Hf1|]. split; [exact Hf2|].
  pose proof (session_ready _ _ _ _ _ _ _ HC Hg Hs) as Hr. pose proof (header_small _ _ _ _ _ HC Hb Hr Hp) as Hl.
  pose proof (block_size_range blk Hb) as Hc. pose proof (block_size_chunk blk ltac:(lia)) as Hbc. rewrite Hbc in Hc. split.
  - intros E Hm. rewrite <- E in Hl2. rewrite Hl1 in Hl2. unfold file_size, stream_frames, encrypt_frames in Hl2.
    destruct (Z.eqb_spec (len s) 0) as [E0|E0]; [apply len_0_nil; exact E0|]. exfalso.
    rewrite Z.mod_eq in Hm by lia. set (c := chunk_of blk) in *. set (q := len s / c) in *. 
    assert (Hq : (len s + c - 1) / c = q). { symmetry. apply (Z.div_unique_pos _ c q (c - 1)); lia. }
    lia.
  - intros Hm.
    pose proof (encrypt_spec _ _ _ _ _ _ _ _ _ _ _ _ _ _ _ HC Hg Hb Hr Hl Hd He) as (_ & _ & cs & Hcs & Ht).
    pose proof (new_stream_writer_spec _ _ _ _ _ _ _ _ _ HC Hg Hb Hr Hl H1) as (_ & e0 & Hok & Hch & Hsn & _).
    pose proof (write_all_spec C e0 _ _ _ _ HC _ _ _ _ _ _ _ _ _ _ _ Hok H2) as (_ & -> & Hx).
    destruct Hx as [(_ & Hok2)|(x & pre & b & post & _ & Hxe & _)].
    2: { rewrite (ew_close_err _ _ _ _ _ _ Hxe) in H3. discriminate H3. }
    pose proof (ew_close_spec _ _ _ _ _ _ _ _ _ _ _ _ _ _ _ _ HC Hok2 H3) as (_ & cs2 & Hcs2 & Hy).
    cbn [app] in Hcs2. rewrite Hbs, Hch, Hbc in Hcs2. rewrite Hbc in Hcs.
    pose proof (stream_is_encrypt _ _ _ (proj1 Hc) Hcs2 Hm) as Hcs3.
    rewrite (encrypt_chunks_det _ _ _ (proj1 Hc) Hcs _ Hcs3) in Hy.
    replace (the_trailer C e0 (fk_mac (keys_of C (e_hdr e) (e_key e))) (mac_input cs) g') with
      (the_trailer C e (fk_mac (keys_of C (e_hdr e) (e_key e))) (mac_input cs) g') in Hy
      by (unfold the_trailer; rewrite Hsn, (rd_snd _ _ _ _ _ Hr); reflexivity).
    destruct (the_trailer C e _ (mac_input cs) g') as [tr gx]. destruct Ht as (_ & _ & Ho & _). destruct Hy as (_ & _ & Ho2 & _).
    unfold wrote in Hf1, Hf2. rewrite Ho in Hf1. rewrite Ho2 in Hf2. apply app_inv_head in Hf1. rewrite <- app_assoc in Hf2.
    apply app_inv_head in Hf2. rewrite <- Hf1, <- Hf2. unfold sigtool_file, body. rewrite <- !app_assoc. reflexivity.
Qed.
Print Assumptions C59_encrypt_against_stream.
(** "hello world" gives the same file either way; "helloooo" (two chunks of 4) does not *)
Example C59_instance : stream_scene e1 [text] = Some file1 /\ 
  (exists e r w g f, encrypt toy e1 src8 dst g1 = (e, r, w, g, Ok tt) /\ stream_scene e1 [text8] = Some f /\ w_out w <> f).
Proof.
  split; [vm_compute; reflexivity|].
  assert (H : exists e r w g, encrypt toy e1 src8 dst g1 = (e, r, w, g, Ok tt) /\ w_out w = match encrypt toy e1 src8 dst g1 with (_, _, w, _, _) => w_out w end).
  { destruct (encrypt toy e1 src8 dst g1) as [[[[e r] w] g] [[]|x|x]] eqn:E; [exists e, r, w, g; auto| |];
      exfalso; apply (f_equal snd) in E; vm_compute in E; discriminate E. }
  destruct H as (e & r & w & g & He & Hw).
  exists e, r, w, g, (match stream_scene e1 [text8] with Some f => f | None => [] end).
  split; [exact He|]. split; [vm_compute; reflexivity|]. intros E. rewrite Hw in E. apply (f_equal len) in E. vm_compute in E. discriminate E.
Qed.

(** ** C58: every random quantity of a file comes from its own piece of the random source *)
(** the next [n] bytes of the source, [k] bytes further on *)
Definition ahead (g : rng) (k n : Z) : bytes := rng_bytes (tape g) (pos g + k) (Z.to_nat n).
Definition advanced (g g' : rng) (n : Z) : Prop := tape g' = tape g /\ pos g' = pos g + n.

Lemma rand_buf_ahead n g b g' : 0 <= n -> rand_buf n g = (b, g') -> b = ahead g 0 n /\ advanced g g' n.
Proof.
  intros Hn H. apply pair_equal_spec in H. destruct H as [<- <-]. unfold ahead, advanced. cbn [tape pos]. rewrite Z.add_0_r, Z.max_r by exact Hn. auto.
Qed.
Lemma advanced_trans g g1 g2 a b : advanced g g1 a -> advanced g1 g2 b -> advanced g g2 (a + b).
Proof. intros [H1 H2] [H3 H4]. split; [congruence|lia]. Qed.
Lemma ahead_advanced g g1 a k n : advanced g g1 a -> ahead g1 k n = ahead g (a + k) n.
Proof. intros [H1 H2]. unfold ahead. rewrite H1, H2, Z.add_assoc. reflexivity. Qed.
Lemma wrap_key_rng C e pk g w pk' g' : wrap_key C e pk g = (Ok (w, pk'), g') -> w_nonce w = ahead g 0 12 /\ advanced g g' 12.
Proof.
  unfold wrap_key. destruct (to_curve_pk pk) as [[c pk1]| |]; try discriminate. destruct (X25519 C (e_encSK e) c) as [k| |]; try discriminate.
  unfold rand_buf. cbv zeta. destruct (wrapf _ _) as [a| |]; cbn [bind]; try discriminate. intros H. injection H as <- <- <-.
  unfold ahead, advanced. cbn [tape pos w_nonce]. rewrite Z.add_0_r. auto.
Qed.
Fixpoint nonces (g : rng) (k : Z) (n : nat) : list bytes :=
  match n with O => [] | S n' => ahead g k 12 :: nonces g (k + 12) n' end.
Lemma add_recipients_rng C : forall pks e g e' g', e_started e = false -> add_recipients C e pks g = Some (e', g') ->
  forall g0 k, advanced g0 g k ->
  map w_nonce (h_keys (e_hdr e')) = map w_nonce (h_keys (e_hdr e)) ++ nonces g0 k (length pks) /\
  advanced g0 g' (k + 12 * len pks) /\ h_pk (e_hdr e') = h_pk (e_hdr e) /\ h_salt (e_hdr e') = h_salt (e_hdr e) /\
  e_key e' = e_key e /\ e_encSK e' = e_encSK e.
Proof.
  induction pks as [|pk pks IH]; intros e g e' g' Hs H g0 k [Ht Hp]; cbn [add_recipients] in H.
  - injection H as <- <-. cbn [nonces length]. rewrite app_nil_r. repeat split; auto. change (len (@nil pubkey)) with 0. lia.
  - unfold add_recipient in H. rewrite Hs in H. destruct (wrap_key C e pk g) as [[[w pk']| |] g1] eqn:Ew; try discriminate.
    destruct (wrap_key_rng _ _ _ _ _ _ _ Ew) as (Hn & Ht1 & Hp1).
    destruct (IH (e_with_hdr e (h_add_key (e_hdr e) w)) g1 e' g' Hs H g0 (k + 12)) as (H1 & (H2 & H3) & H4 & H5 & H6 & H7); [split; [congruence|lia]|].
    cbn [e_hdr e_with_hdr h_add_key h_keys h_pk h_salt e_key e_encSK] in H1, H4, H5, H6, H7. split.
    + rewrite H1, map_app, <- app_assoc. cbn [nonces length map app]. do 2 f_equal. rewrite Hn. unfold ahead. rewrite Ht, Hp. f_equal. lia.
    + split; [split; [exact H2|rewrite H3, len_cons; lia]|auto].
Qed.

(** the ephemeral key, root key, salt, one nonce for each recipient and (for a file without sender) the trailer are
    consecutive, disjoint pieces of the random source; nothing else is drawn, so what is made later uses later pieces *)
Theorem C58_session_randomness :
  forall C sender blksize pks g e g', session C sender blksize pks g e g' ->
  let esk := clamp (ahead g 0 32) in
  e_encSK e = esk /\ h_pk (e_hdr e) = x25519 C esk basepoint /\ e_key e = ahead g 32 32 /\ h_salt (e_hdr e) = ahead g 64 32 /\
  map w_nonce (h_keys (e_hdr e)) = nonces g 96 (length pks) /\ advanced g g' (96 + 12 * len pks).
Proof.
  intros C sender blk pks g e g' (e0 & g0 & He & Ha) esk. unfold new_encryptor, new_sender in He.
  destruct (rand_buf 32 g) as [r0 g1] eqn:E1. destruct (rand_buf aes_key_size g1) as [key g2] eqn:E2.
  destruct (rand_buf salt_size g2) as [salt g3] eqn:E3.
  apply rand_buf_ahead in E1; [|lia]. apply rand_buf_ahead in E2; [|unfold aes_key_size; lia]. apply rand_buf_ahead in E3; [|unfold salt_size; lia].
  destruct E1 as [H1 A1], E2 as [H2 A2], E3 as [H3 A3]. pose proof (advanced_trans _ _ _ _ _ A1 A2) as A12.
  pose proof (advanced_trans _ _ _ _ _ A12 A3) as A13. change (32 + aes_key_size) with 64 in A12. change (32 + aes_key_size + salt_size) with 96 in A13.
  rewrite (ahead_advanced _ _ _ _ _ A1) in H2. rewrite (ahead_advanced _ _ _ _ _ A12) in H3.
  change (32 + 0) with 32 in H2. change (64 + 0) with 64 in H3. change aes_key_size with 32 in H2. change salt_size with 32 in H3.
  destruct (add_sender_sig C sender _ _ _) as [[s a]| |] eqn:Es; [|discriminate He..]. injection He as <- <-.
  match type of Ha with add_recipients _ ?e1 _ ?g1 = _ =>
    destruct (add_recipients_rng C pks e1 g1 e g' eq_refl Ha g 96 A13) as (K1 & K2 & K3 & K4 & K5 & K6) end.
  cbn [e_hdr h_keys h_pk h_salt e_key e_encSK map app] in K1, K3, K4, K5, K6. unfold esk. rewrite <- H1, <- H2, <- H3.
  auto 10.
Qed.
Print Assumptions C58_session_randomness.

Theorem C58_file_randomness :
  forall C, crypto_ok C ->
  forall sender blksize pks g e g', 0 <= blksize -> len pks < 2^40 ->
  (forall sk, sender = Some sk -> len (sk_Sk sk) = 64) -> session C sender blksize pks g e g' ->
  forall rd s er wr e2 rd2 wr2 g2, delivers rd s er -> encrypt C e rd wr g' = (e2, rd2, wr2, g2, Ok tt) ->
  exists front trailer, wrote wr wr2 (front ++ trailer) /\ len trailer = 64 /\
    match sender with
    | Some _ => g2 = g'
    | None => trailer = ahead g (96 + 12 * len pks) 64 /\ advanced g g2 (96 + 12 * len pks + 64)
    end.
Proof.
  intros C HC sender blk pks g e g' Hb Hp Hg Hs rd s er wr x2 rd2 wr2 h2 D1 E1.
  pose proof (session_ready _ _ _ _ _ _ _ HC Hg Hs) as Hr. pose proof (header_small _ _ _ _ _ HC Hb Hr Hp) as Hl.
  pose proof (encrypt_spec _ _ _ _ _ _ _ _ _ _ _ _ _ _ _ HC Hg Hb Hr Hl D1 E1) as (_ & _ & cs & Hcs & Ht).
  destruct (C58_session_randomness _ _ _ _ _ _ _ Hs) as (_ & _ & _ & _ & _ & Ht1 & Hp1).
  destruct (the_trailer C e _ (mac_input cs) g') as [tr gx] eqn:Etr. destruct Ht as (-> & (Hl1 & _) & Ho & _).
  exists (full_header (e_hdr e) ++ header_cksum C (e_hdr e) ++ frames C (fk_data (keys_of C (e_hdr e) (e_key e))) (fk_base (keys_of C (e_hdr e) (e_key e))) 0 cs), tr.
  split. { unfold wrote. rewrite Ho. unfold sigtool_file, body. rewrite <- !app_assoc. reflexivity. }
  split; [exact Hl1|]. unfold the_trailer in Etr. rewrite (rd_snd _ _ _ _ _ Hr) in Etr. destruct sender as [sk|].
  - injection Etr as _ <-. reflexivity.
  - apply rand_buf_ahead in Etr; [|unfold sig_size; lia]. destruct Etr as [-> A]. change sig_size with 64 in *.
    pose proof (conj Ht1 Hp1 : advanced g g' _) as A0. rewrite (ahead_advanced _ _ _ _ _ A0), Z.add_0_r.
    split; [reflexivity|]. exact (advanced_trans _ _ _ _ _ A0 A).
Qed.
Print Assumptions C58_file_randomness.
(** two recipients: the pieces are 0..31, 32..63, 64..95, 96..107, 108..119 *)
Example C58_instance : session toy None 4 [pkA; pkB] g0 e2 g1 /\ nonces g0 96 2 = [ahead g0 96 12; ahead g0 108 12] /\ advanced g0 g1 120.
Proof. split; [apply session2|]. split; [reflexivity|]. split; reflexivity. Qed.
