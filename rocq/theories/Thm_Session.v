(** Theorems on encryption sessions: C07, C16, C17, C18, C21, C22, C23, C24. *)
From Verif Require Import Bytes BytesLemmas GoErr GoIO SpecIO IOProofs Pb SpecPb PbProofs Crypto CryptoLaws Keys Sign
  Encrypt Decrypt Stream Spec SpecStream EncryptProofs DecryptProofs AcceptProofs OpenProofs RoundTrip StreamProofs
  Support Toy Scene Thm_Encrypt.
Require Import ZifyBool.
Ltac Zify.zify_post_hook ::= Z.div_mod_to_equations.
Local Notation length := List.length.
Local Notation concat := List.concat.

(** ** C07: nonces *)
(** the numbers i, i+1, ..., i+n-1 *)
Fixpoint count (i : Z) (n : nat) : list Z := match n with O => [] | S n' => i :: count (i + 1) n' end.
(** the (key, nonce) pairs a sequence of frames is sealed under, in order (see [frame], [frames] in Spec.v) *)
Definition frame_nonces (base : bytes) (cs : list bytes) : list bytes := map (frame_nonce base) (count 0 (length cs)).

Lemma in_count n : forall i x, In x (count i n) -> i <= x < i + Z.of_nat n.
Proof. induction n as [|n IH]; intros i x; cbn [count In]; [tauto|]. intros [<-|H]; [lia|]. apply IH in H. lia. Qed.
Lemma nonce_inj base i j : 0 <= i < 2^32 -> 0 <= j < 2^32 -> frame_nonce base i = frame_nonce base j -> i = j.
Proof. intros Hi Hj H. unfold frame_nonce in H. apply app_inj_len in H; [|rewrite !len_be32; reflexivity]. apply be32_inj; tauto. Qed.
Lemma nodup_nonces base n : forall i, 0 <= i -> i + Z.of_nat n <= 2^32 -> NoDup (map (frame_nonce base) (count i n)).
Proof.
  induction n as [|n IH]; intros i Hi Hn; cbn [count map]; [constructor|]. constructor; [|apply IH; lia].
  intros H. apply in_map_iff in H. destruct H as (x & Hx & Hin). apply in_count in Hin.
  apply nonce_inj in Hx; lia.
Qed.
(** One Encrypt of less than 2^32 chunks of input: all the frames are sealed under pairwise different nonces. *)
Theorem C07_nonces_distinct_partial :
  forall C, crypto_ok C ->
  forall sender blksize pks g e g', 0 <= blksize -> len pks < 2^40 ->
  (forall sk, sender = Some sk -> len (sk_Sk sk) = 64) -> session C sender blksize pks g e g' ->
  forall rd s er wr e2 rd2 wr2 g2, delivers rd s er -> encrypt C e rd wr g' = (e2, rd2, wr2, g2, Ok tt) ->
  len s < 2^32 * chunk_of blksize ->
  exists head dk base cs trailer,
    wrote wr wr2 (head ++ frames C dk base 0 cs ++ trailer) /\ len trailer = 64 /\ concat cs = s /\
    NoDup (frame_nonces base cs).
Proof.
  intros C HC sender blk pks g e g' Hb Hp Hg Hs rd s er wr x2 rd2 wr2 h2 D1 E1 Hlen.
  rewrite <- (block_size_chunk blk Hb) in Hlen.
  pose proof (session_ready _ _ _ _ _ _ _ HC Hg Hs) as Hr. pose proof (header_small _ _ _ _ _ HC Hb Hr Hp) as Hl.
  pose proof (encrypt_spec _ _ _ _ _ _ _ _ _ _ _ _ _ _ _ HC Hg Hb Hr Hl D1 E1) as (_ & _ & cs & Hcs & Ht).
  destruct (the_trailer C e _ (mac_input cs) g') as [tr gx]. destruct Ht as (_ & (Ht1 & Ht2) & Ho & _).
  set (fk := keys_of C (e_hdr e) (e_key e)) in *. pose proof (block_size_range blk Hb) as Hbr.
  exists (full_header (e_hdr e) ++ header_cksum C (e_hdr e)), (fk_data fk), (fk_base fk), cs, tr.
  split; [|split; [exact Ht1|split; [eapply chunked_concat; exact Hcs|]]].
  - unfold wrote. rewrite Ho. unfold sigtool_file, body. fold fk. rewrite <- !app_assoc. reflexivity.
  - apply nodup_nonces; [lia|]. pose proof (chunk_count _ _ _ (proj1 Hbr) Hcs) as Hcc. change (Z.of_nat (length cs)) with (len cs). set (n := block_size blk) in *. clear -Hcc Hlen Hbr. nia.
Qed.
Print Assumptions C07_nonces_distinct_partial.
Example C07_instance : len text < 2^32 * chunk_of 4.
Proof. vm_compute. reflexivity. Qed.

(** The property fails in general.  First: a second Encrypt on the same Encryptor starts over at block 0 with
    the same data key and nonce base, so both outputs contain a frame sealed under the same key and nonce
    (and the second output has no header at all). *)
Theorem C07_refuted_second_encrypt :
  forall C, crypto_ok C ->
  forall sender blksize pks g e g', 0 <= blksize -> len pks < 2^40 ->
  (forall sk, sender = Some sk -> len (sk_Sk sk) = 64) -> session C sender blksize pks g e g' ->
  forall rd s er wr e2 rd2 wr2 g2, delivers rd s er -> encrypt C e rd wr g' = (e2, rd2, wr2, g2, Ok tt) ->
  forall rd' s' er' wr' e3 rd3 wr3 g3, delivers rd' s' er' -> encrypt C e2 rd' wr' g2 = (e3, rd3, wr3, g3, Ok tt) ->
  exists head dk base last1 last2 rest1 rest2, let n := chunk_of blksize in
    wrote wr wr2 (head ++ frame C dk base 0 last1 (take n s) ++ rest1) /\
    wrote wr' wr3 (frame C dk base 0 last2 (take n s') ++ rest2).
Proof.
  intros C HC sender blk pks g e g' Hb Hp Hg Hs rd s er wr x2 rd2 wr2 h2 D1 E1 rd' s' er' wr' x3 rd3 wr3 h3 D2 E2.
  rewrite <- (block_size_chunk blk Hb).
  pose proof (session_ready _ _ _ _ _ _ _ HC Hg Hs) as Hr. pose proof (header_small _ _ _ _ _ HC Hb Hr Hp) as Hl.
  pose proof (block_size_range blk Hb) as Hbr.
  pose proof (encrypt_spec _ _ _ _ _ _ _ _ _ _ _ _ _ _ _ HC Hg Hb Hr Hl D1 E1) as (_ & _ & cs & Hcs & Ht).
  destruct (the_trailer C e _ (mac_input cs) g') as [tr gx]. destruct Ht as (_ & (Ht1 & Ht2) & Ho & _).
  pose proof (encrypt_again _ _ _ _ _ _ _ _ _ _ _ _ _ _ _ _ _ _ _ _ _ _ _ _ HC Hg Hb Hr Hl D1 E1 D2 E2) as (cs2 & tr2 & Hcs2 & Ho2).
  set (fk := keys_of C (e_hdr e) (e_key e)) in *.
  assert (First : forall cs s tr, encrypt_chunks (block_size blk) cs s -> exists l rest,
    frames C (fk_data fk) (fk_base fk) 0 cs ++ tr = frame C (fk_data fk) (fk_base fk) 0 l (take (block_size blk) s) ++ rest).
  { clear - Hbr. intros cs s tr H. destruct H as [c Hc|c cs s Hc H].
    - exists true, tr. cbn [frames]. rewrite take_all by lia. reflexivity.
    - exists false. eexists. rewrite frames_cons by (eapply chunked_nonnil; exact H). rewrite <- app_assoc, take_app_eq by lia. reflexivity. }
  destruct (First cs s tr Hcs) as (l1 & rest1 & F1). destruct (First cs2 s' tr2 Hcs2) as (l2 & rest2 & F2).
  exists (full_header (e_hdr e) ++ header_cksum C (e_hdr e)), (fk_data fk), (fk_base fk), l1, l2, rest1, rest2. cbv zeta.
  split; unfold wrote.
  - rewrite Ho. unfold sigtool_file, body. fold fk. rewrite F1, <- !app_assoc. reflexivity.
  - rewrite Ho2, F2. reflexivity.
Qed.
Print Assumptions C07_refuted_second_encrypt.
(** two different plaintexts under one key and nonce *)
Definition twice : option (bytes * bytes) := Eval vm_compute in
  match encrypt toy e1 src sink g1 with
  | (e, _, w, g, Ok _) => match encrypt toy e (whole text8) sink g with (_, _, w', _, Ok _) => Some (w_out w, w_out w') | _ => None end
  | _ => None
  end.
Example C07_refuted_instance : exists a b, twice = Some (a, b) /\ take 4 text = take 4 text8 /\ text <> text8 /\ b <> [].
Proof. eexists _, _. split; [reflexivity|]. split; [reflexivity|]. split; [discriminate|]. vm_compute. discriminate. Qed.

(** Second: the block counter is 32 bits wide; with 2^32 chunks or more (4 GiB of input with block size 1)
    frame number 2^32 is sealed under the nonce of frame 0. *)
Theorem C07_refuted_counter_wraps :
  forall C, crypto_ok C ->
  forall sender blksize pks g e g', 0 <= blksize -> len pks < 2^40 ->
  (forall sk, sender = Some sk -> len (sk_Sk sk) = 64) -> session C sender blksize pks g e g' ->
  forall rd s er wr e2 rd2 wr2 g2, delivers rd s er -> encrypt C e rd wr g' = (e2, rd2, wr2, g2, Ok tt) ->
  2^32 * chunk_of blksize <= len s ->
  exists head dk base cs trailer,
    wrote wr wr2 (head ++ frames C dk base 0 cs ++ trailer) /\ len trailer = 64 /\ concat cs = s /\
    ~ NoDup (frame_nonces base cs).
Proof.
  intros C HC sender blk pks g e g' Hb Hp Hg Hs rd s er wr x2 rd2 wr2 h2 D1 E1 Hlen.
  rewrite <- (block_size_chunk blk Hb) in Hlen.
  pose proof (session_ready _ _ _ _ _ _ _ HC Hg Hs) as Hr. pose proof (header_small _ _ _ _ _ HC Hb Hr Hp) as Hl.
  pose proof (encrypt_spec _ _ _ _ _ _ _ _ _ _ _ _ _ _ _ HC Hg Hb Hr Hl D1 E1) as (_ & _ & cs & Hcs & Ht).
  destruct (the_trailer C e _ (mac_input cs) g') as [tr gx]. destruct Ht as (_ & (Ht1 & Ht2) & Ho & _).
  set (fk := keys_of C (e_hdr e) (e_key e)) in *. pose proof (block_size_range blk Hb) as Hbr.
  exists (full_header (e_hdr e) ++ header_cksum C (e_hdr e)), (fk_data fk), (fk_base fk), cs, tr.
  split; [|split; [exact Ht1|split; [eapply chunked_concat; exact Hcs|]]].
  - unfold wrote. rewrite Ho. unfold sigtool_file, body. fold fk. rewrite <- !app_assoc. reflexivity.
  - pose proof (chunk_count _ _ _ (proj1 Hbr) Hcs) as Hcc. assert (Hn : 2^32 < len cs) by nia. unfold len in Hn.
    intros Hd. unfold frame_nonces in Hd. remember (length cs) as n eqn:En. clear -Hd Hn.
    destruct n as [|n]; [lia|]. cbn [count map] in Hd. inversion Hd as [|? ? Hni _]; subst. apply Hni. apply in_map_iff.
    exists (2^32). split.
    + unfold frame_nonce. f_equal.
    + clear Hd Hni. assert (G : forall n i x, i <= x < i + Z.of_nat n -> In x (count i n)).
      { clear. induction n as [|n IH]; intros i x H; [lia|]. cbn [count In]. destruct (Z.eq_dec i x) as [->|Hne]; [left; reflexivity|]. right. apply IH. lia. }
      apply G. lia.
Qed.
Print Assumptions C07_refuted_counter_wraps.
(** such an encryption exists (and succeeds) *)
Example C07_wrap_instance : exists e g rd s e2 rd2 wr2 g2,
  session toy None 1 [pkA] g0 e g /\ delivers rd s IoEOF /\ encrypt toy e rd sink g = (e2, rd2, wr2, g2, Ok tt) /\
  2^32 * chunk_of 1 <= len s.
Proof.
  destruct (C01_encrypt_succeeds toy toy_ok None 1 [pkA] g0 ltac:(lia) ltac:(cbn; lia) ltac:(discriminate)
    ltac:(intros pk [<-|[]]; exists seedA; apply pA)) as (e & g & Hs & He).
  destruct (He (whole (zeros (2^32))) (zeros (2^32)) sink (delivers_whole _) ltac:(split; constructor)) as (a & b & c & d & H).
  exists e, g, (whole (zeros (2^32))), (zeros (2^32)), a, b, c, d. split; [exact Hs|]. split; [apply delivers_whole|]. split; [exact H|].
  rewrite len_zeros by lia. cbv; discriminate.
Qed.

(** ** C16: all recipients have the same root key *)
(** without any assumption on the AEAD: the wrapped key at each recipient's own position opens to the one root key *)
Theorem C16_own_entry_opens :
  forall C, crypto_ok C ->
  forall sender blksize pks g e g', (forall sk, sender = Some sk -> len (sk_Sk sk) = 64) -> session C sender blksize pks g e g' ->
  exists root, len root = 32 /\ forall i pk seed, nth_error pks i = Some pk -> pubof C seed pk ->
    exists w, nth_error (h_keys (e_hdr e)) i = Some w /\
              opens C (e_hdr e) (scalar_of C seed) (ed_public C seed) w = Some root.
Proof.
  intros C HC sender blk pks g e g' Hg Hs. pose proof (session_ready _ _ _ _ _ _ _ HC Hg Hs) as Hr.
  exists (e_key e). split; [apply (rd_key _ _ _ _ _ Hr)|]. intros i pk seed Hi Hp.
  pose proof (rd_keys _ _ _ _ _ Hr) as Hk.
  assert (H : exists w, nth_error (h_keys (e_hdr e)) i = Some w /\ wrapped_for C (e_encSK e) (h_salt (e_hdr e)) (e_key e) pk w).
  { clear -Hk Hi. revert i Hi. induction Hk as [|x y l l' Hxy Hk IH]; intros [|i] Hi; try discriminate.
    - injection Hi as ->. exists y. auto.
    - apply IH. exact Hi. }
  destruct H as (w & Hw & Hwf). exists w. split; [exact Hw|]. eapply ready_opens; eauto.
Qed.
Print Assumptions C16_own_entry_opens.
(** through the API: whoever of the recipients opens the file ends up with the same root key *)
Theorem C16_recipients_agree :
  forall C, crypto_ok C ->
  forall sender blksize pks g e g', 0 <= blksize < 2^30 -> len pks <= 15885 ->
  session C sender blksize pks g e g' ->
  forall rd s er wr e2 rd2 wr2 g2, delivers rd s er -> w_out wr = [] -> encrypt C e rd wr g' = (e2, rd2, wr2, g2, Ok tt) ->
  exists root, forall seed pk sk spk file ef, In pk pks -> pubof C seed pk -> keypair C seed sk -> sender_matches C sender spk ->
    no_accident C (e_hdr e) seed root -> delivers file (w_out wr2) ef ->
    exists d, opened_by C file sk spk d /\ d_key d = Some root.
Proof.
  intros C HC sender blk pks g e g' Hb Hp Hs rd s er wr e2 rd2 wr2 g2 Hd Hw He. exists (e_key e).
  intros seed pk sk spk file ef Hin Hpk Hsk Hm Hna Hf.
  pose proof (matches_good _ _ _ HC Hm) as Hg. pose proof (session_ready _ _ _ _ _ _ _ HC Hg Hs) as Hr.
  pose proof (few_recipients _ _ _ _ _ HC (proj1 Hb) Hr Hp) as Hl.
  pose proof (encrypt_spec _ _ _ _ _ _ _ _ _ _ _ _ _ _ _ HC Hg (proj1 Hb) Hr ltac:(lia) Hd He) as (_ & _ & cs & Hcs & Ht).
  destruct (the_trailer C e _ (mac_input cs) g') as [tr gx]. destruct Ht as (_ & Htr & Ho & _). rewrite Hw in Ho. cbn [app] in Ho.
  rewrite Ho in Hf. unfold sigtool_file in Hf.
  destruct (honest_open C HC sender blk pks e Hb Hr Hl seed pk sk spk Hpk Hin Hsk (or_introl Hna) Hm _ _ _ Hf) as (d & Hod & Hos & Hau).
  exists d. split; [exact Hod|]. apply (os_key _ _ _ _ _ _ _ _ _ _ Hos).
Qed.
Print Assumptions C16_recipients_agree.
Example C16_instance : exists root, opens toy (e_hdr e1) (scalar_of toy seedA) (ed_public toy seedA) (nth 0 (h_keys (e_hdr e1)) (mkWkey [] [] [])) = Some root /\
  opens toy (e_hdr e1) (scalar_of toy seedB) (ed_public toy seedB) (nth 1 (h_keys (e_hdr e1)) (mkWkey [] [] [])) = Some root /\ pk_Pk pkA <> pk_Pk pkB.
Proof. exists (e_key e1). split; [vm_compute; reflexivity|]. split; [vm_compute; reflexivity|apply keys_differ]. Qed.

(** ** C17: no recipients after the start *)
Lemma enc_block_flags C e pt w i eof g e' w' g' rs : enc_block C e pt w i eof g = (e', w', g', rs) ->
  e_started e' = e_started e /\ e_stream e' = e_stream e.
Proof.
  unfold enc_block. destruct (e_ae e) as [k|]; [|intros H; injection H as <- <- <- <-; auto].
  destruct (e_hmac e) as [[hk hd]|]; [|intros H; injection H as <- <- <- <-; auto].
  destruct (_ <? _); [intros H; injection H as <- <- <- <-; auto|].
  destruct (fullwrite _ w) as [[x|] w1]; [intros H; injection H as <- <- <- <-; auto|].
  destruct eof; [destruct (write_trailer _ _ _ _) as [[w2 g2] r2]|]; intros H; injection H as <- <- <- <-; auto.
Qed.
Lemma enc_loop_flags C fuel : forall e r w i g e' r' w' g' rs, enc_loop C fuel e r w i g = (e', r', w', g', rs) ->
  e_started e' = e_started e /\ e_stream e' = e_stream e.
Proof.
  induction fuel as [|fuel IH]; intros e r w i g e' r' w' g' rs H; [cbn in H; injection H as <- <- <- <- <-; auto|].
  rewrite enc_loop_S in H. destruct (read_full r (h_chunk (e_hdr e))) as [[b err] r1]. cbv zeta in H.
  destruct (match err with None => Ok false | Some IoEOF | Some ErrClosedPipe | Some ErrUnexpectedEOF => Ok true | Some x => Fail (EWrap "encrypt: I/O read error" x) end) as [eof|x|x];
    try (injection H as <- <- <- <- <-; auto).
  destruct (enc_block C e b w i eof g) as [[[e3 w1] g3] r3] eqn:Eb. pose proof (enc_block_flags _ _ _ _ _ _ _ _ _ _ _ Eb) as [F1 F2].
  destruct r3 as [u|x|x]; try (injection H as <- <- <- <- <-; auto).
  destruct eof; [injection H as <- <- <- <- <-; auto|]. apply IH in H. destruct H as [-> ->]. auto.
Qed.
Lemma enc_start_flags C e w e' w' : enc_start C e w = (e', w', Ok tt) -> e_started e' = true /\ e_stream e' = e_stream e.
Proof.
  unfold enc_start. destruct (marshal_to _ _) as [v|x|x]; try discriminate. cbv zeta.
  destruct (new_gcm _) as [k|x|x]; try discriminate.
  destruct (fullwrite _ w) as [[x|] w1] eqn:E; try discriminate. intros H. injection H as <- <-. auto.
Qed.
Lemma encrypt_flags C e r w g e' r' w' g' : encrypt C e r w g = (e', r', w', g', Ok tt) -> e_started e' = true /\ e_stream e' = false.
Proof.
  unfold encrypt. destruct (e_stream e) eqn:Est; try discriminate.
  destruct (if e_started e then (e, w, Ok tt) else enc_start C e w) as [[e3 w1] rs] eqn:Es.
  destruct rs as [[]|x|x]; try discriminate.
  destruct (enc_loop C (S (rd_size r)) e3 r w1 0 g) as [[[[e4 r2] w2] g2] rs] eqn:El. destruct rs as [[]|x|x]; try discriminate.
  destruct (w_close w2) as [[x|] w3] eqn:Ec; try discriminate. intros H. injection H as <- <- <- <-.
  apply enc_loop_flags in El. destruct El as [-> ->].
  destruct (e_started e) eqn:E0; [injection Es as <- <-; auto|]. apply enc_start_flags in Es. destruct Es as [-> ->]. auto.
Qed.
Lemma stream_writer_flags C e w e' w' s : new_stream_writer C e w = (e', w', Ok s) -> e_started e' = true /\ e_stream e' = true.
Proof.
  unfold new_stream_writer. destruct (if e_started e then (e, w, Ok tt) else enc_start C e w) as [[e3 w1] rs] eqn:Es.
  destruct rs as [[]|x|x]; try discriminate. intros H. injection H as <- <- <-. cbn.
  destruct (e_started e) eqn:E0; [injection Es as <- <-; auto|]. apply enc_start_flags in Es. tauto.
Qed.
Lemma ew_loop_flags C fuel : forall e w g s b e' w' g' s' rs, ew_loop C fuel e w g s b = (e', w', g', s', rs) ->
  e_started e' = e_started e /\ e_stream e' = e_stream e.
Proof.
  induction fuel as [|fuel IH]; intros e w g s b e' w' g' s' rs H; destruct b as [|c b]; cbn [ew_loop] in H;
    try (injection H as <- <- <- <- <-; auto; fail).
  destruct (_ && _); [|eapply IH; exact H].
  destruct (enc_block _ _ _ _ _ _ _) as [[[e3 w1] g3] r3] eqn:Eb. pose proof (enc_block_flags _ _ _ _ _ _ _ _ _ _ _ Eb) as [F1 F2].
  destruct r3 as [u|x|x]; try (injection H as <- <- <- <- <-; auto; fail). apply IH in H. destruct H as [-> ->]. auto.
Qed.
Lemma ew_write_flags C e w g s b e' w' g' s' rs : ew_write C e w g s b = (e', w', g', s', rs) ->
  e_started e' = e_started e /\ e_stream e' = e_stream e.
Proof.
  unfold ew_write. destruct (ew_err s); [intros H; injection H as <- <- <- <- <-; auto|].
  destruct (len b =? 0); [intros H; injection H as <- <- <- <- <-; auto|].
  destruct (ew_loop _ _ _ _ _ _ _) as [[[[e3 w3] g3] s3] r3] eqn:E. intros H. injection H as <- <- <- <- <-. eapply ew_loop_flags; exact E.
Qed.
Lemma write_all_flags C bs : forall e w g s e' w' g' s' rs, write_all C e w g s bs = (e', w', g', s', rs) ->
  e_started e' = e_started e /\ e_stream e' = e_stream e.
Proof.
  induction bs as [|b bs IH]; intros e w g s e' w' g' s' rs H; cbn [write_all] in H; [injection H as <- <- <- <- <-; auto|].
  destruct (ew_write C e w g s b) as [[[[e3 w3] g3] s3] r3] eqn:E. destruct (write_all C e3 w3 g3 s3 bs) as [[[[e4 w4] g4] s4] r4] eqn:E2.
  injection H as <- <- <- <- <-. apply IH in E2. apply ew_write_flags in E. destruct E2 as [-> ->]. exact E.
Qed.
Lemma ew_close_flags C e w g s e' w' g' s' rs : ew_close C e w g s = (e', w', g', s', rs) ->
  e_started e' = e_started e /\ e_stream e' = e_stream e.
Proof.
  unfold ew_close. destruct (ew_err s); [intros H; injection H as <- <- <- <- <-; auto|].
  destruct (enc_block _ _ _ _ _ _ _) as [[[e3 w1] g3] r3] eqn:Eb. pose proof (enc_block_flags _ _ _ _ _ _ _ _ _ _ _ Eb) as F.
  destruct r3 as [u|x|x]; [destruct (w_close w1) as [[x|] w2]|..]; intros H; injection H as <- <- <- <- <-; auto.
Qed.

Theorem C17_no_recipient_after_start :
  forall C e e',
  (exists rd wr g rd' wr' g', encrypt C e rd wr g = (e', rd', wr', g', Ok tt)) \/
  (exists wr e1 wr1 s g bs wr2 g2 s2 rs, new_stream_writer C e wr = (e1, wr1, Ok s) /\
     write_all C e1 wr1 g s bs = (e', wr2, g2, s2, rs)) ->
  forall pk g, add_recipient C e' pk g = (e', pk, g, Fail ErrEncStarted).
Proof.
  intros C e e' H pk g. assert (Hs : e_started e' = true).
  { destruct H as [(rd & wr & g3 & rd' & wr' & g' & H)|(wr & x1 & wr1 & s & g3 & bs & wr2 & g2 & s2 & rs & H & H2)].
    - apply encrypt_flags in H. tauto.
    - apply stream_writer_flags in H. apply write_all_flags in H2. destruct H2 as [-> _]. tauto. }
  unfold add_recipient. rewrite Hs. reflexivity.
Qed.
Print Assumptions C17_no_recipient_after_start.
Theorem C17_failed_add_changes_nothing :
  forall C e pk g e' pk' g' x, add_recipient C e pk g = (e', pk', g', Fail x) -> e' = e /\ pk_Pk pk' = pk_Pk pk.
Proof.
  intros C e pk g e' pk' g' x. unfold add_recipient. destruct (e_started e); [intros H; injection H as <- <- <- <-; auto|].
  destruct (wrap_key C e pk g) as [[[w p]|y|y] g3]; try discriminate. intros H. injection H as <- <- <- <-. split; [reflexivity|].
  unfold to_curve_pk. destruct (pk_ck pk); [reflexivity|]. destruct (_ <? _); reflexivity.
Qed.
Print Assumptions C17_failed_add_changes_nothing.
Example C17_instance : exists e r w g, encrypt toy e1 src dst g1 = (e, r, w, g, Ok tt) /\
  add_recipient toy e pkS g = (e, pkS, g, Fail ErrEncStarted) /\ exists e3 pk3 g3, add_recipient toy e1 pkS g1 = (e3, pk3, g3, Ok tt).
Proof.
  destruct file1_made as (e & r & w & g & He & Hw). exists e, r, w, g. split; [exact He|]. split.
  - apply (C17_no_recipient_after_start toy e1). left. exists src, dst, g1, r, w, g. exact He.
  - pose proof (session_ready _ _ _ _ _ _ _ toy_ok (matches_good _ _ _ toy_ok matches1) session1) as Hr.
    exact (add_recipient_total toy (Some skS) 4 [pkA; pkB] e1 pkS seedS g1 toy_ok Hr pS).
Qed.

(** ** C18: mode guards *)
Theorem C18_encrypt_after_stream_writer :
  forall C e wr e1 wr1 s g bs e2 wr2 g2 s2 rs, new_stream_writer C e wr = (e1, wr1, Ok s) ->
  write_all C e1 wr1 g s bs = (e2, wr2, g2, s2, rs) ->
  forall rd w h, encrypt C e2 rd w h = (e2, rd, w, h, Fail ErrEncIsStream).
Proof.
  intros C e wr x1 wr1 s g bs x2 wr2 g2 s2 rs H1 H2 rd w h. apply stream_writer_flags in H1. apply write_all_flags in H2.
  unfold encrypt. destruct H2 as [_ ->]. destruct H1 as [_ ->]. reflexivity.
Qed.
Print Assumptions C18_encrypt_after_stream_writer.
Lemma process_trailer_flags C d d' m rs : process_trailer C d m = (d', rs) -> d_stream d' = d_stream d /\ d_key d' = d_key d.
Proof.
  unfold process_trailer. destruct (read_full _ _) as [[b e] r].
  destruct e; [intros H; injection H as <- <-; auto|]. destruct (negb _); [intros H; injection H as <- <-; auto|].
  destruct (d_hmac d) as [[k hd]|]; [|intros H; injection H as <- <-; auto].
  destruct (d_sender d); [|intros H; injection H as <- <-; auto].
  destruct (verify_message _ _ _ _) as [[]|x|x]; intros H; injection H as <- <-; auto.
Qed.
Lemma dec_chunk_flags C d d' i rs : dec_chunk C d i = (d', rs) -> d_stream d' = d_stream d /\ d_key d' = d_key d.
Proof.
  unfold dec_chunk. destruct (d_ae d); [|intros H; injection H as <- <-; auto].
  destruct (read_full _ 4) as [[b e] r]. destruct (_ || _); [intros H; injection H as <- <-; auto|].
  destruct (_ <? _); [intros H; injection H as <- <-; auto|].
  destruct (_ =? 0); [destruct (negb _); intros H; injection H as <- <-; auto|].
  destruct (_ <? _); [intros H; injection H as <- <-; auto|].
  destruct (read_full r _) as [[c e2] r2]. destruct e2; [intros H; injection H as <- <-; auto|].
  destruct (gcm_open _ _ _ _ _); [|intros H; injection H as <- <-; auto].
  destruct (negb _); [intros H; injection H as <- <-; auto|].
  destruct (d_hmac d) as [[hk hd]|]; [|intros H; injection H as <- <-; auto].
  destruct (0 <? _); [|intros H; injection H as <- <-; auto]. intros H. apply process_trailer_flags in H. exact H.
Qed.
Lemma er_read_flags C d s n d' s' r : er_read C d s n = (d', s', r) -> d_stream d' = d_stream d /\ d_key d' = d_key d.
Proof.
  unfold er_read. destruct (er_err s); [intros H; injection H as <- <- <-; auto|].
  assert (L : forall d s n d' s' r, er_deliver d s n = (d', s', r) -> d_stream d' = d_stream d /\ d_key d' = d_key d).
  { clear. intros d s n d' s' r. unfold er_deliver. destruct (0 <? _); intros H; injection H as <- <- <-; auto. }
  destruct (_ =? 0); [|apply L]. destruct (d_eof d); [intros H; injection H as <- <- <-; auto|].
  destruct (dec_chunk C d (er_blk s)) as [d3 r3] eqn:E. apply dec_chunk_flags in E. destruct r3 as [[m eof]|x|x].
  - intros H. apply L in H. exact (conj (eq_trans (proj1 H) (proj1 E)) (eq_trans (proj2 H) (proj2 E))).
  - intros H; injection H as <- <- <-; auto.
  - intros H; injection H as <- <- <-; auto.
Qed.
Lemma read_all_flags C ns : forall d s d' s' rs, read_all C d s ns = (d', s', rs) -> d_stream d' = d_stream d /\ d_key d' = d_key d.
Proof.
  induction ns as [|n ns IH]; intros d s d' s' rs H; cbn [read_all] in H; [injection H as <- <- <-; auto|].
  destruct (er_read C d s n) as [[d3 s3] r3] eqn:E. destruct (read_all C d3 s3 ns) as [[d4 s4] r4] eqn:E2. injection H as <- <- <-.
  apply IH in E2. apply er_read_flags in E. destruct E2 as [-> ->]. exact E.
Qed.
Theorem C18_decrypt_after_stream_reader :
  forall C d d1 s ns d2 s2 rs, new_stream_reader d = (d1, Ok s) -> read_all C d1 s ns = (d2, s2, rs) ->
  forall w, decrypt C d2 w = (d2, w, Fail ErrDecStarted).
Proof.
  intros C d d1 s ns d2 s2 rs H1 H2 w. apply read_all_flags in H2. unfold new_stream_reader in H1.
  destruct (d_key d) eqn:Ek; try discriminate. destruct (d_eof d); try discriminate. injection H1 as <- <-.
  unfold decrypt. destruct H2 as [-> ->]. cbn. rewrite Ek. reflexivity.
Qed.
Print Assumptions C18_decrypt_after_stream_reader.
Lemma dec_loop_ok_flags C fuel : forall d w i d' w', dec_loop C fuel d w i = (d', w', Ok tt) ->
  d_eof d' = true /\ d_stream d' = d_stream d /\ d_key d' = d_key d.
Proof.
  induction fuel as [|fuel IH]; intros d w i d' w' H; [discriminate|]. rewrite dec_loop_S in H.
  destruct (dec_chunk C d i) as [d1 r1] eqn:E. destruct r1 as [[m eof]|x|]; try discriminate. cbv zeta in H.
  pose proof (dec_chunk_flags _ _ _ _ _ E) as F.
  destruct (if 0 <? m then fullwrite (take m (d_buf d1)) w else (None, w)) as [[x|] w1]; try discriminate.
  destruct eof; [injection H as <- <-; cbn; tauto|]. apply IH in H. destruct H as (H1 & -> & ->). tauto.
Qed.
Theorem C18_nothing_after_decrypt :
  forall C d w d' w', decrypt C d w = (d', w', Ok tt) ->
  (forall w2, decrypt C d' w2 = (d', w2, Fail IoEOF)) /\ new_stream_reader d' = (d', Fail IoEOF).
Proof.
  intros C d w d' w'. unfold decrypt at 1. destruct (d_key d) eqn:Ek; try discriminate. destruct (d_stream d) eqn:Es; try discriminate.
  destruct (d_eof d); try discriminate. intros H. apply dec_loop_ok_flags in H. destruct H as (H1 & H2 & H3).
  split; [intros w2; unfold decrypt|unfold new_stream_reader]; rewrite ?H3, ?Ek, ?H2, ?Es, ?H1; reflexivity.
Qed.
Print Assumptions C18_nothing_after_decrypt.
Example C18_instance : exists d d' out', opened_by toy (whole file1) skB (Some pkS) d /\ decrypt toy d dst = (d', out', Ok tt) /\
  decrypt toy d' dst = (d', dst, Fail IoEOF) /\ exists d1 s, new_stream_reader d = (d1, Ok s) /\ decrypt toy d1 dst = (d1, dst, Fail ErrDecStarted).
Proof.
  destruct C01_instance as (d & d' & out' & Ho & _ & Hd & _). exists d, d', out'. split; [exact Ho|]. split; [exact Hd|].
  split; [apply (C18_nothing_after_decrypt _ _ _ _ _ Hd)|].
  destruct (opened_by_inv _ _ _ _ _ _ _ _ toy_ok (delivers_whole file1) kB Ho) as (h & ck & rest & root & Hos).
  assert (Hn : exists d1 s, new_stream_reader d = (d1, Ok s)).
  { unfold new_stream_reader. rewrite (os_key _ _ _ _ _ _ _ _ _ _ Hos), (os_eof _ _ _ _ _ _ _ _ _ _ Hos). eauto. }
  destruct Hn as (d1 & s & Hn). exists d1, s. split; [exact Hn|].
  apply (C18_decrypt_after_stream_reader toy d d1 s [] d1 s [] Hn eq_refl).
Qed.
