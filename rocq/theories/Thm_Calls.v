(** Theorems over arbitrary sequences of calls on one object: C17, C18, C70. *)
From Verif Require Import Bytes BytesLemmas GoErr GoIO SpecIO IOProofs Pb SpecPb PbProofs Crypto CryptoLaws Keys Sign
  Encrypt Decrypt Stream Spec SpecStream EncryptProofs DecryptProofs AcceptProofs OpenProofs RoundTrip StreamProofs StreamRead
  Support Toy Scene SpecCalls Thm_Encrypt Thm_Session.
Require Import ZifyBool.
Ltac Zify.zify_post_hook ::= Z.div_mod_to_equations.
Local Notation length := List.length.
Local Notation concat := List.concat.

(** ** What a call leaves alone *)
Lemma enc_block_hdr C e pt w i eof g e' w' g' rs : enc_block C e pt w i eof g = (e', w', g', rs) -> e_hdr e' = e_hdr e.
Proof.
  unfold enc_block. destruct (e_ae e) as [k|]; [|intros H; injection H as <- <- <- <-; auto].
  destruct (e_hmac e) as [[hk hd]|]; [|intros H; injection H as <- <- <- <-; auto].
  destruct (_ <? _); [intros H; injection H as <- <- <- <-; auto|].
  destruct (fullwrite _ w) as [[x|] w1]; [intros H; injection H as <- <- <- <-; auto|].
  destruct eof; [destruct (write_trailer _ _ _ _) as [[w2 g2] r2]|]; intros H; injection H as <- <- <- <-; auto.
Qed.
Lemma enc_loop_hdr C fuel : forall e r w i g e' r' w' g' rs, enc_loop C fuel e r w i g = (e', r', w', g', rs) -> e_hdr e' = e_hdr e.
Proof.
  induction fuel as [|fuel IH]; intros e r w i g e' r' w' g' rs H; [cbn in H; injection H as <- <- <- <- <-; auto|].
  rewrite enc_loop_S in H. destruct (read_full r (h_chunk (e_hdr e))) as [[b err] r1]. cbv zeta in H.
  destruct (match err with None => Ok false | Some IoEOF | Some ErrClosedPipe | Some ErrUnexpectedEOF => Ok true | Some x => Fail (EWrap "encrypt: I/O read error" x) end) as [eof|x|x];
    try (injection H as <- <- <- <- <-; auto).
  destruct (enc_block C e b w i eof g) as [[[e3 w1] g3] r3] eqn:Eb. pose proof (enc_block_hdr _ _ _ _ _ _ _ _ _ _ _ Eb) as F1.
  destruct r3 as [u|x|x]; try (injection H as <- <- <- <- <-; auto).
  destruct eof; [injection H as <- <- <- <- <-; auto|]. apply IH in H. congruence.
Qed.
Lemma enc_start_hdr C e w e' w' rs : enc_start C e w = (e', w', rs) -> e_hdr e' = e_hdr e /\ e_stream e' = e_stream e /\ (e_started e = true -> e_started e' = true).
Proof.
  unfold enc_start. destruct (marshal_to _ _) as [v|x|x]; try (intros H; injection H as <- <- <-; auto; fail). cbv zeta.
  destruct (new_gcm _) as [k|x|x]; try (intros H; injection H as <- <- <-; auto; fail).
  destruct (fullwrite _ w) as [[x|] w1] eqn:E; intros H; injection H as <- <- <-; auto.
Qed.
Lemma ew_loop_hdr C fuel : forall e w g s b e' w' g' s' rs, ew_loop C fuel e w g s b = (e', w', g', s', rs) -> e_hdr e' = e_hdr e.
Proof.
  induction fuel as [|fuel IH]; intros e w g s b e' w' g' s' rs H; destruct b as [|c b]; cbn [ew_loop] in H;
    try (injection H as <- <- <- <- <-; auto; fail).
  destruct (_ && _); [|eapply IH; exact H].
  destruct (enc_block _ _ _ _ _ _ _) as [[[e3 w1] g3] r3] eqn:Eb. pose proof (enc_block_hdr _ _ _ _ _ _ _ _ _ _ _ Eb) as F1.
  destruct r3 as [u|x|x]; try (injection H as <- <- <- <- <-; auto; fail). apply IH in H. congruence.
Qed.
Lemma ew_write_hdr C e w g s b e' w' g' s' rs : ew_write C e w g s b = (e', w', g', s', rs) -> e_hdr e' = e_hdr e.
Proof.
  unfold ew_write. destruct (ew_err s); [intros H; injection H as <- <- <- <- <-; auto|].
  destruct (len b =? 0); [intros H; injection H as <- <- <- <- <-; auto|].
  destruct (ew_loop _ _ _ _ _ _ _) as [[[[e3 w3] g3] s3] r3] eqn:E. intros H. injection H as <- <- <- <- <-. eapply ew_loop_hdr; exact E.
Qed.
Lemma ew_close_hdr C e w g s e' w' g' s' rs : ew_close C e w g s = (e', w', g', s', rs) -> e_hdr e' = e_hdr e.
Proof.
  unfold ew_close. destruct (ew_err s); [intros H; injection H as <- <- <- <- <-; auto|].
  destruct (enc_block _ _ _ _ _ _ _) as [[[e3 w1] g3] r3] eqn:Eb. pose proof (enc_block_hdr _ _ _ _ _ _ _ _ _ _ _ Eb) as F.
  destruct r3 as [u|x|x]; [destruct (w_close w1) as [[x|] w2]|..]; intros H; injection H as <- <- <- <- <-; auto.
Qed.

(** one call on a started Encryptor *)
Lemma estep_started C st c st' r : estep C st c = (st', r) -> e_started (es_enc st) = true ->
  e_started (es_enc st') = true /\ e_hdr (es_enc st') = e_hdr (es_enc st) /\ (e_stream (es_enc st) = true -> e_stream (es_enc st') = true).
Proof.
  destruct st as [e g ss]. cbn [es_enc]. intros H Hs. destruct c as [pk|rd wr|wr|i b|i]; cbn [estep es_enc es_rng es_streams] in H.
  - unfold add_recipient in H. rewrite Hs in H. injection H as <- <-. auto.
  - destruct (encrypt C e rd wr g) as [[[[e1 r1] w1] g1] rs] eqn:E. injection H as <- <-. cbn.
    unfold encrypt in E. destruct (e_stream e) eqn:Est; [injection E as <- <- <- <- <-; auto|]. rewrite Hs in E.
    destruct (enc_loop C (S (rd_size rd)) e rd wr 0 g) as [[[[e4 r2] w2] g2] rs2] eqn:El.
    pose proof (enc_loop_flags _ _ _ _ _ _ _ _ _ _ _ _ El) as [F1 F2]. pose proof (enc_loop_hdr _ _ _ _ _ _ _ _ _ _ _ _ El) as F3.
    assert (e1 = e4) as ->; [|rewrite F1; auto; split; [auto|split; [auto|discriminate]]].
    destruct rs2 as [[]|x|x]; [destruct (w_close w2) as [[x|] w3]|..]; injection E as <- <- <- <- <-; reflexivity.
  - unfold new_stream_writer in H. rewrite Hs in H. injection H as <- <-. cbn. auto.
  - destruct (nth_error ss i) as [[s w]|]; [|injection H as <- <-; auto].
    destruct (ew_write C e w g s b) as [[[[e1 w1] g1] s1] [n rs]] eqn:E. injection H as <- <-. cbn.
    pose proof (ew_write_flags _ _ _ _ _ _ _ _ _ _ _ E) as [F1 F2]. pose proof (ew_write_hdr _ _ _ _ _ _ _ _ _ _ _ E) as F3. rewrite F1, F2. auto.
  - destruct (nth_error ss i) as [[s w]|]; [|injection H as <- <-; auto].
    destruct (ew_close C e w g s) as [[[[e1 w1] g1] s1] rs] eqn:E. injection H as <- <-. cbn.
    pose proof (ew_close_flags _ _ _ _ _ _ _ _ _ _ E) as [F1 F2]. pose proof (ew_close_hdr _ _ _ _ _ _ _ _ _ _ E) as F3. rewrite F1, F2. auto.
Qed.
Lemma estep_starts C st c st' d : estep C st c = (st', ERet (Ok tt) d) -> starts c -> e_started (es_enc st') = true.
Proof.
  destruct st as [e g ss]. intros H Hc. destruct c as [pk|rd wr|wr|i b|i]; try (now destruct Hc); cbn [estep es_enc es_rng es_streams] in H.
  - destruct (encrypt C e rd wr g) as [[[[e1 r1] w1] g1] rs] eqn:E. injection H as <- -> _. cbn. apply encrypt_flags in E. tauto.
  - destruct (new_stream_writer C e wr) as [[e1 w1] [s|x|x]] eqn:E; try discriminate. injection H as <- _. cbn. apply stream_writer_flags in E. tauto.
Qed.
Lemma estep_streams C st wr st' d : estep C st (EStream wr) = (st', ERet (Ok tt) d) -> e_stream (es_enc st') = true.
Proof.
  destruct st as [e g ss]. intros H. cbn [estep es_enc es_rng es_streams] in H.
  destruct (new_stream_writer C e wr) as [[e1 w1] [s|x|x]] eqn:E; try discriminate. injection H as <- _. cbn. apply stream_writer_flags in E. tauto.
Qed.
Lemma ecalls_started C cs : forall st st' rs, ecalls C st cs = (st', rs) -> e_started (es_enc st) = true ->
  e_started (es_enc st') = true /\ e_hdr (es_enc st') = e_hdr (es_enc st) /\ (e_stream (es_enc st) = true -> e_stream (es_enc st') = true).
Proof.
  induction cs as [|c cs IH]; intros st st' rs H Hs; cbn [ecalls] in H; [injection H as <- <-; auto|].
  destruct (estep C st c) as [st1 r] eqn:E. destruct (ecalls C st1 cs) as [st2 rs2] eqn:E2. injection H as <- <-.
  destruct (estep_started _ _ _ _ _ E Hs) as (A1 & A2 & A3). destruct (IH _ _ _ E2 A1) as (B1 & B2 & B3).
  split; [exact B1|split; [congruence|auto]].
Qed.

(** ** C17 *)
(** Once an Encrypt or NewStreamWriter has succeeded, then whatever is called on the Encryptor and its stream writers afterwards, in
    whatever order, whether those calls succeed or fail: AddRecipient returns ErrEncStarted, leaves the Encryptor, the random source and
    every stream as they were, and the header (recipients included) is the one in force when encryption started. *)
Theorem C17_every_history :
  forall C st c st1 d, estep C st c = (st1, ERet (Ok tt) d) -> starts c ->
  forall cs st2 rs, ecalls C st1 cs = (st2, rs) ->
  e_hdr (es_enc st2) = e_hdr (es_enc st1) /\
  forall pk, estep C st2 (EAdd pk) = (st2, ERet (Fail ErrEncStarted) None).
Proof.
  intros C st c st1 d E1 Hc cs st2 rs E2. pose proof (estep_starts _ _ _ _ _ E1 Hc) as Hs.
  destruct (ecalls_started _ _ _ _ _ E2 Hs) as (A1 & A2 & _). split; [exact A2|]. intros pk.
  destruct st2 as [e g ss]. cbn [estep es_enc es_rng es_streams] in *. unfold add_recipient. rewrite A1. reflexivity.
Qed.
Print Assumptions C17_every_history.

(** ** C18 *)
(** Once NewStreamWriter has succeeded, Encrypt returns ErrEncIsStream whatever was called in between, and touches neither source nor
    destination nor any other state. *)
Theorem C18_encrypt_every_history :
  forall C st wr st1 d, estep C st (EStream wr) = (st1, ERet (Ok tt) d) ->
  forall cs st2 rs, ecalls C st1 cs = (st2, rs) ->
  forall rd w, estep C st2 (EEncrypt rd w) = (st2, ERet (Fail ErrEncIsStream) (Some w)).
Proof.
  intros C st wr st1 d E1 cs st2 rs E2 rd w. pose proof (estep_starts _ _ _ _ _ E1 I) as Hs. pose proof (estep_streams _ _ _ _ _ E1) as Ht.
  destruct (ecalls_started _ _ _ _ _ E2 Hs) as (_ & _ & A3).
  destruct st2 as [e g ss]. cbn [estep es_enc es_rng es_streams] in *. unfold encrypt. rewrite (A3 Ht). reflexivity.
Qed.
Print Assumptions C18_encrypt_every_history.

Lemma set_private_key_flags C d sk spk d' sk' r : set_private_key C d sk spk = (d', sk', r) ->
  d_stream d' = d_stream d /\ d_eof d' = d_eof d /\ (d_key d <> None -> d_key d' <> None).
Proof.
  unfold set_private_key. destruct (find_key C (d_hdr d) (h_keys (d_hdr d)) sk) as [[key|x|x] sk2];
    try (intros H; injection H as <- <- <-; auto; fail).
  destruct (verify_sender C (d_hdr d) key spk) as [b|x|x]; try (intros H; injection H as <- <- <-; cbn; repeat split; discriminate).
  cbv zeta. destruct (new_gcm _) as [k|x|x]; intros H; injection H as <- <- <-; cbn; repeat split; discriminate.
Qed.
Lemma process_trailer_eof C d d' m rs : process_trailer C d m = (d', rs) -> d_eof d' = d_eof d.
Proof.
  unfold process_trailer. destruct (read_full _ _) as [[b e] r].
  destruct e; [intros H; injection H as <- <-; auto|]. destruct (negb _); [intros H; injection H as <- <-; auto|].
  destruct (d_hmac d) as [[k hd]|]; [|intros H; injection H as <- <-; auto].
  destruct (d_sender d); [|intros H; injection H as <- <-; auto].
  destruct (verify_message _ _ _ _) as [[]|x|x]; intros H; injection H as <- <-; auto.
Qed.
Lemma dec_loop_flags C fuel : forall d w i d' w' r, dec_loop C fuel d w i = (d', w', r) -> d_stream d' = d_stream d /\ d_key d' = d_key d.
Proof.
  induction fuel as [|fuel IH]; intros d w i d' w' r H; [cbn in H; injection H as <- <- <-; auto|]. rewrite dec_loop_S in H.
  destruct (dec_chunk C d i) as [d1 r1] eqn:E. pose proof (dec_chunk_flags _ _ _ _ _ E) as F.
  destruct r1 as [[m eof]|x|]; try (injection H as <- <- <-; auto; fail). cbv zeta in H.
  destruct (if 0 <? m then fullwrite (take m (d_buf d1)) w else (None, w)) as [[x|] w1]; try (injection H as <- <- <-; auto; fail).
  destruct eof; [injection H as <- <- <-; cbn; tauto|]. apply IH in H. destruct H as [-> ->]. exact F.
Qed.
Lemma dstep_stream C st c st' r : dstep C st c = (st', r) -> d_stream (ds_dec st) = true /\ d_key (ds_dec st) <> None ->
  d_stream (ds_dec st') = true /\ d_key (ds_dec st') <> None.
Proof.
  destruct st as [d ss]. cbn [ds_dec]. intros H [H1 H2]. destruct c as [sk spk|wr| |i n]; cbn [dstep ds_dec ds_streams] in H.
  - destruct (set_private_key C d sk spk) as [[d1 sk1] r1] eqn:E. injection H as <- <-. cbn.
    destruct (set_private_key_flags _ _ _ _ _ _ _ E) as (-> & _ & A). auto.
  - unfold decrypt in H. destruct (d_key d) eqn:Ek; [|congruence]. rewrite H1 in H. injection H as <- <-. cbn. split; congruence.
  - unfold new_stream_reader in H. destruct (d_key d) eqn:Ek; [|congruence]. destruct (d_eof d); injection H as <- <-; cbn; split; congruence.
  - destruct (nth_error ss i) as [s|]; [|injection H as <- <-; auto].
    destruct (er_read_kept C d s n) as [[d1 s1] [b r1]] eqn:E. injection H as <- <-. cbn. unfold er_read_kept in E. destruct s as [s [k|]].
    + destruct (er_err s); injection E as <- <- <- <-; auto.
    + destruct (er_read C d s n) as [[d2 s2] [b2 r2]] eqn:E2. injection E as <- <- <- <-. apply er_read_flags in E2. destruct E2 as [-> ->]. auto.
Qed.
(** after a successful NewStreamReader *)
Theorem C18_decrypt_every_history :
  forall C st st1 o b, dstep C st DStream = (st1, DRet (Ok tt) o b) ->
  forall cs st2 rs, dcalls C st1 cs = (st2, rs) ->
  forall w, dstep C st2 (DDecrypt w) = (st2, DRet (Fail ErrDecStarted) (Some w) []).
Proof.
  intros C st st1 o b E1 cs st2 rs E2 w.
  assert (d_stream (ds_dec st1) = true /\ d_key (ds_dec st1) <> None) as Hs.
  { destruct st as [d ss]. cbn [dstep ds_dec ds_streams] in E1. unfold new_stream_reader in E1. destruct (d_key d) eqn:Ek; try discriminate.
    destruct (d_eof d); try discriminate. injection E1 as <- _ _. cbn. split; congruence. }
  assert (d_stream (ds_dec st2) = true /\ d_key (ds_dec st2) <> None) as [A B].
  { clear E1. revert st1 Hs st2 rs E2. induction cs as [|c cs IH]; intros st1 Hs st2 rs E2; cbn [dcalls] in E2; [injection E2 as <- <-; exact Hs|].
    destruct (dstep C st1 c) as [st3 r] eqn:E. destruct (dcalls C st3 cs) as [st4 rs4] eqn:E4. injection E2 as <- <-.
    eapply IH; [|exact E4]. eapply dstep_stream; [exact E|exact Hs]. }
  destruct st2 as [d ss]. cbn [dstep ds_dec ds_streams] in *. unfold decrypt. destruct (d_key d); [|congruence]. rewrite A. reflexivity.
Qed.
Print Assumptions C18_decrypt_every_history.

(** after a successful Decrypt.  The readers the decryptor had before (if any) could not have existed: NewStreamReader before it would
    have made that Decrypt fail.  So we start from a decryptor without stream readers. *)
Theorem C18_nothing_after_decrypt_every_history :
  forall C st wr st1 o b, ds_streams st = [] -> dstep C st (DDecrypt wr) = (st1, DRet (Ok tt) o b) ->
  forall cs st2 rs, dcalls C st1 cs = (st2, rs) ->
  (forall w, dstep C st2 (DDecrypt w) = (st2, DRet (Fail IoEOF) (Some w) [])) /\
  dstep C st2 DStream = (st2, DRet (Fail IoEOF) None []).
Proof.
  intros C st wr st1 o b E0 E1 cs st2 rs E2.
  set (P := fun st => ds_streams st = [] /\ d_stream (ds_dec st) = false /\ d_eof (ds_dec st) = true /\ d_key (ds_dec st) <> None).
  assert (P st1) as Hs.
  { destruct st as [d ss]. cbn [ds_streams] in E0. subst ss. cbn [dstep ds_dec ds_streams] in E1. unfold decrypt in E1.
    destruct (d_key d) eqn:Ek; try discriminate. destruct (d_stream d) eqn:Est; try discriminate. destruct (d_eof d) eqn:Ee; try discriminate.
    destruct (dec_loop _ _ _ _ _) as [[d1 w1] r1] eqn:El. injection E1 as <- -> _ _. apply dec_loop_ok_flags in El.
    destruct El as (L1 & L2 & L3). red. cbn. repeat split; congruence. }
  assert (P st2) as (A1 & A2 & A3 & A4).
  { clear E1. revert st1 Hs st2 rs E2. induction cs as [|c cs IH]; intros st1 Hs st2 rs E2; cbn [dcalls] in E2; [injection E2 as <- <-; exact Hs|].
    destruct (dstep C st1 c) as [st3 r] eqn:E. destruct (dcalls C st3 cs) as [st4 rs4] eqn:E4. injection E2 as <- <-.
    eapply IH; [|exact E4]. destruct Hs as (B1 & B2 & B3 & B4). destruct st1 as [d ss]. cbn [ds_dec ds_streams] in *. subst ss. unfold P.
    destruct c as [sk spk|w| |i n]; cbn [dstep ds_dec ds_streams] in E.
    - destruct (set_private_key C d sk spk) as [[d1 sk1] r1] eqn:Ep. injection E as <- <-. cbn.
      destruct (set_private_key_flags _ _ _ _ _ _ _ Ep) as (-> & -> & A). destruct r1; cbn; auto.
    - unfold decrypt in E. destruct (d_key d) eqn:Ek; [|congruence]. rewrite B2, B3 in E. injection E as <- <-. cbn. repeat split; congruence.
    - unfold new_stream_reader in E. destruct (d_key d) eqn:Ek; [|congruence]. rewrite B3 in E. injection E as <- <-. cbn. repeat split; congruence.
    - destruct i; cbn in E; injection E as <- <-; cbn; auto. }
  destruct st2 as [d ss]. cbn [ds_dec ds_streams dstep] in *. unfold decrypt, new_stream_reader.
  split; [intros w|]; (destruct (d_key d); [|congruence]); rewrite ?A2, A3; reflexivity.
Qed.
Print Assumptions C18_nothing_after_decrypt_every_history.

(** ** C70: one Encryptor makes at most one file *)
(** not empty-handed with the magic *)
Definition headless (s : bytes) : Prop := match s with [] => True | b :: _ => b <> x53 end.
Lemma headless_refused C s : crypto_ok C -> headless s -> refused C s.
Proof.
  intros HC Hh rd er D d rd' E. pose proof (new_decryptor_spec _ _ _ _ _ _ HC D E) as (h & ck & rest & (var & Hv & _) & _).
  rewrite Hv in Hh. cbn in Hh. congruence.
Qed.
Lemma headless_app a b : headless a -> a <> [] -> headless (a ++ b).
Proof. destruct a; [congruence|]. auto. Qed.
Lemma headless_take k b a : headless a -> headless b -> headless (a ++ take k b).
Proof.
  intros Ha Hb. destruct a as [|x a]; [|exact Ha]. cbn [app]. destruct b as [|y b]; [exact I|].
  cbn [take]. destruct (k <=? 0); [exact I|exact Hb].
Qed.
Lemma frame_headless n (eof : bool) r : 0 <= n <= 2^30 -> headless (be32 (if eof then Z.lor (u32 n) eof_bit else u32 n) ++ r).
Proof.
  intros Hn. unfold be32. cbn [app headless]. unfold u32. rewrite Z.mod_small by lia. intros H. apply (f_equal b2z) in H. rewrite b2z_z2b in H.
  change (b2z x53) with 83 in H. destruct eof; [rewrite lor_eof in H by lia|]; lia.
Qed.
Lemma write_trailer_out C e w g w' g' r : write_trailer C e w g = (w', g', r) -> exists k, w_out w' = w_out w ++ k.
Proof.
  unfold write_trailer. destruct (if e_auth e then _ else _) as [tr g2].
  destruct tr as [t|x|x]; try (intros H; injection H as <- <- <-; exists []; now rewrite app_nil_r).
  destruct (fullwrite t w) as [[x|] w1] eqn:E; intros H; injection H as <- <- <-.
  - apply fullwrite_Some in E. destruct E as ((k & ->) & _). eauto.
  - apply fullwrite_None in E. destruct E as (-> & _). eauto.
Qed.
Lemma enc_block_headless C e pt w i eof g e' w' g' rs : len pt <= 2^30 -> enc_block C e pt w i eof g = (e', w', g', rs) ->
  headless (w_out w) -> headless (w_out w').
Proof.
  intros Hp. unfold enc_block. destruct (e_ae e) as [k|]; [|intros H; injection H as <- <- <- <-; auto].
  destruct (e_hmac e) as [[hk hd]|]; [|intros H; injection H as <- <- <- <-; auto]. cbv zeta.
  pose proof (frame_headless (len pt) eof (gcm_seal C k (chunk_nonce (e_nonce e) i) pt (be32 (if eof then Z.lor (u32 (len pt)) eof_bit else u32 (len pt))))
    (conj (len_nonneg pt) Hp)) as Hf.
  set (b := be32 (if eof then _ else _)) in *. assert (Hb : b <> []) by discriminate. clearbody b.
  destruct (_ <? _); [intros H; injection H as <- <- <- <-; auto|].
  destruct (fullwrite _ w) as [[x|] w1] eqn:E.
  - intros H Hw. injection H as <- <- <- <-. apply fullwrite_Some in E. destruct E as ((j & ->) & _). apply headless_take; assumption.
  - intros H Hw. apply fullwrite_None in E. destruct E as (Eo & _).
    assert (H1 : headless (w_out w1)). { rewrite Eo. rewrite <- (take_all (len (b ++ gcm_seal C k (chunk_nonce (e_nonce e) i) pt b)) (b ++ gcm_seal C k (chunk_nonce (e_nonce e) i) pt b)) by lia. apply headless_take; assumption. }
    destruct eof; [|injection H as <- <- <- <-; exact H1].
    destruct (write_trailer _ _ _ _) as [[w2 g2] r2] eqn:Et. injection H as <- <- <- <-. apply write_trailer_out in Et. destruct Et as (j & ->).
    apply headless_app; [exact H1|]. rewrite Eo. destruct b; [congruence|]. destruct (w_out w); discriminate.
Qed.
Lemma enc_loop_headless C fuel : forall e r w i g e' r' w' g' rs, 0 <= h_chunk (e_hdr e) <= 2^30 -> enc_loop C fuel e r w i g = (e', r', w', g', rs) ->
  headless (w_out w) -> headless (w_out w').
Proof.
  induction fuel as [|fuel IH]; intros e r w i g e' r' w' g' rs Hc H Hw; [cbn in H; injection H as <- <- <- <- <-; auto|].
  rewrite enc_loop_S in H. destruct (read_full r (h_chunk (e_hdr e))) as [[b err] r1] eqn:Er. cbv zeta in H.
  destruct (read_full_any _ _ _ _ _ Er (proj1 Hc)) as (_ & Hb & _).
  destruct (match err with None => Ok false | Some IoEOF | Some ErrClosedPipe | Some ErrUnexpectedEOF => Ok true | Some x => Fail (EWrap "encrypt: I/O read error" x) end) as [eof|x|x];
    try (injection H as <- <- <- <- <-; auto).
  destruct (enc_block C e b w i eof g) as [[[e3 w1] g3] r3] eqn:Eb. pose proof (enc_block_hdr _ _ _ _ _ _ _ _ _ _ _ Eb) as F1.
  apply enc_block_headless in Eb; [|lia|exact Hw].
  destruct r3 as [u|x|x]; try (injection H as <- <- <- <- <-; auto).
  destruct eof; [injection H as <- <- <- <- <-; auto|]. apply IH in H; [exact H|congruence|exact Eb].
Qed.
Lemma w_close_out w e w' : w_close w = (e, w') -> w_out w' = w_out w.
Proof. unfold w_close. destruct (w_closes w); intros H; injection H as <- <-; reflexivity. Qed.
Lemma ew_loop_headless C fuel : forall e w g s b e' w' g' s' rs, 0 <= h_chunk (e_hdr e) <= 2^30 -> len (ew_buf s) <= h_chunk (e_hdr e) ->
  ew_loop C fuel e w g s b = (e', w', g', s', rs) -> headless (w_out w) -> headless (w_out w') /\ len (ew_buf s') <= h_chunk (e_hdr e').
Proof.
  induction fuel as [|fuel IH]; intros e w g s b e' w' g' s' rs Hc Hs H Hw; destruct b as [|c b]; cbn [ew_loop] in H;
    try (injection H as <- <- <- <- <-; auto; fail).
  set (z := Z.min (h_chunk (e_hdr e) - len (ew_buf s)) (len (c :: b))) in *. set (b' := c :: b) in *. clearbody b'.
  assert (Hz : 0 <= z <= len b'). { pose proof (len_nonneg b'). pose proof (len_nonneg (ew_buf s)). lia. }
  assert (Hl : len (ew_buf s ++ take z b') <= h_chunk (e_hdr e)). { rewrite len_app, len_take by lia. lia. }
  destruct (_ && _).
  - destruct (enc_block _ _ _ _ _ _ _) as [[[e3 w1] g3] r3] eqn:Eb. pose proof (enc_block_hdr _ _ _ _ _ _ _ _ _ _ _ Eb) as F1.
    apply enc_block_headless in Eb; [|lia|exact Hw].
    destruct r3 as [u|x|x]; try (injection H as <- <- <- <- <-; cbn; split; [assumption|congruence]).
    apply IH in H; [exact H|congruence|cbn; rewrite F1; apply Hc|exact Eb].
  - apply IH in H; [exact H|exact Hc|exact Hl|exact Hw].
Qed.
(** the state of the stream writer number k *)
Definition headless_stream (k : nat) (st : eobj) : Prop :=
  exists s w, nth_error (es_streams st) k = Some (s, w) /\ headless (w_out w) /\ len (ew_buf s) <= h_chunk (e_hdr (es_enc st)).
Lemma nth_set {A} (l : list A) : forall i x k, (i < length l)%nat ->
  nth_error (set_nth l i x) k = if Nat.eqb i k then Some x else nth_error l k.
Proof.
  unfold set_nth. induction l as [|a l IH]; intros i x k Hi; [cbn in Hi; lia|]. destruct i as [|i]; destruct k as [|k]; cbn; try reflexivity.
  apply IH. cbn in Hi. lia.
Qed.
Lemma nth_lt {A} (l : list A) i x : nth_error l i = Some x -> (i < length l)%nat.
Proof. intros H. apply nth_error_Some. congruence. Qed.
Lemma estep_headless C st c st' r k : estep C st c = (st', r) -> e_started (es_enc st) = true -> 0 <= h_chunk (e_hdr (es_enc st)) <= 2^30 ->
  headless_stream k st -> headless_stream k st'.
Proof.
  intros H Hs Hc. pose proof (estep_started _ _ _ _ _ H Hs) as (_ & Hh & _). unfold headless_stream. rewrite Hh. clear Hh.
  destruct st as [e g ss]. cbn [es_enc es_streams] in *. intros (s0 & w0 & H1 & H2 & H3).
  destruct c as [pk|rd wr|wr|i b|i]; cbn [estep es_enc es_rng es_streams] in H.
  - unfold add_recipient in H. rewrite Hs in H. injection H as <- <-. cbn. eauto.
  - destruct (encrypt C e rd wr g) as [[[[e1 r1] w1] g1] rs] eqn:E. injection H as <- <-. cbn. eauto.
  - unfold new_stream_writer in H. rewrite Hs in H. injection H as <- <-. cbn. rewrite nth_error_app1 by (eapply nth_lt; exact H1). eauto.
  - destruct (nth_error ss i) as [[s w]|] eqn:En; [|injection H as <- <-; cbn; eauto].
    destruct (ew_write C e w g s b) as [[[[e1 w1] g1] s1] [n rs]] eqn:E. injection H as <- <-. cbn.
    rewrite nth_set by (eapply nth_lt; exact En). destruct (Nat.eqb_spec i k) as [->|]; [|eauto].
    rewrite En in H1. injection H1 as -> ->. exists s1, w1. split; [reflexivity|].
    pose proof (ew_write_hdr _ _ _ _ _ _ _ _ _ _ _ E) as Eh. unfold ew_write in E.
    destruct (ew_err s0); [injection E as <- <- <- <- <- <-; auto|]. destruct (len b =? 0); [injection E as <- <- <- <- <- <-; auto|].
    destruct (ew_loop _ _ _ _ _ _ _) as [[[[e3 w3] g3] s3] r3] eqn:El. injection E as <- <- <- <- _ _. rewrite <- Eh.
    eapply ew_loop_headless; [|exact H3|exact El|exact H2]. exact Hc.
  - destruct (nth_error ss i) as [[s w]|] eqn:En; [|injection H as <- <-; cbn; eauto].
    destruct (ew_close C e w g s) as [[[[e1 w1] g1] s1] rs] eqn:E. injection H as <- <-. cbn.
    rewrite nth_set by (eapply nth_lt; exact En). destruct (Nat.eqb_spec i k) as [->|]; [|eauto].
    rewrite En in H1. injection H1 as -> ->. exists s1, w1. split; [reflexivity|]. unfold ew_close in E.
    destruct (ew_err s0); [injection E as <- <- <- <- <-; auto|].
    destruct (enc_block _ _ _ _ _ _ _) as [[[e3 w3] g3] r3] eqn:Eb. apply enc_block_headless in Eb; [|lia|exact H2].
    destruct r3 as [u|x|x]; [destruct (w_close w3) as [[x|] w4] eqn:Ec|..]; injection E as <- <- <- <- <-; cbn; try (split; [exact Eb|exact H3]);
      (split; [rewrite (w_close_out _ _ _ Ec); exact Eb|apply Hc]).
Qed.
Lemma estep_chunk C st c st' r : estep C st c = (st', r) -> h_chunk (e_hdr (es_enc st')) = h_chunk (e_hdr (es_enc st)).
Proof.
  destruct st as [e g ss]. cbn [es_enc es_streams] in *. intros H.
  destruct c as [pk|rd wr|wr|i b|i]; cbn [estep es_enc es_rng es_streams] in H.
  - destruct (add_recipient C e pk g) as [[[e1 p1] g1] rs] eqn:E. injection H as <- <-. cbn. unfold add_recipient in E.
    destruct (e_started e); [injection E as <- <- <- <-; reflexivity|].
    destruct (wrap_key C e pk g) as [[[w p]|y|y] g3]; injection E as <- <- <- <-; reflexivity.
  - destruct (encrypt C e rd wr g) as [[[[e1 r1] w1] g1] rs] eqn:E. injection H as <- <-. cbn. unfold encrypt in E.
    destruct (e_stream e); [injection E as <- <- <- <- <-; auto|].
    destruct (if e_started e then (e, wr, Ok tt) else enc_start C e wr) as [[e3 w3] rs3] eqn:Es.
    assert (e_hdr e3 = e_hdr e) as Eh. { destruct (e_started e); [injection Es as <- <- <-; reflexivity|]. apply enc_start_hdr in Es. apply Es. }
    destruct rs3 as [[]|x|x]; try (injection E as <- <- <- <- <-; now rewrite Eh).
    destruct (enc_loop C (S (rd_size rd)) e3 rd w3 0 g) as [[[[e4 r2] w2] g2] rs2] eqn:El. apply enc_loop_hdr in El.
    assert (e1 = e4) as ->; [|congruence].
    destruct rs2 as [[]|x|x]; [destruct (w_close w2) as [[x|] w5]|..]; injection E as <- <- <- <- <-; reflexivity.
  - destruct (new_stream_writer C e wr) as [[e1 w1] rs] eqn:E.
    assert (e_hdr e1 = e_hdr e) as Eh.
    { unfold new_stream_writer in E. destruct (if e_started e then (e, wr, Ok tt) else enc_start C e wr) as [[e3 w3] rs3] eqn:Es.
      assert (e_hdr e3 = e_hdr e) as Eh. { destruct (e_started e); [injection Es as <- <- <-; reflexivity|]. apply enc_start_hdr in Es. apply Es. }
      destruct rs3; injection E as <- <- <-; exact Eh. }
    destruct rs; injection H as <- <-; cbn; now rewrite Eh.
  - destruct (nth_error ss i) as [[s w]|] eqn:En; [|injection H as <- <-; reflexivity].
    destruct (ew_write C e w g s b) as [[[[e1 w1] g1] s1] [n rs]] eqn:E. injection H as <- <-. cbn. apply ew_write_hdr in E. now rewrite E.
  - destruct (nth_error ss i) as [[s w]|] eqn:En; [|injection H as <- <-; reflexivity].
    destruct (ew_close C e w g s) as [[[[e1 w1] g1] s1] rs] eqn:E. injection H as <- <-. cbn. apply ew_close_hdr in E. now rewrite E.
Qed.
Lemma ecalls_chunk C cs : forall st st' rs, ecalls C st cs = (st', rs) -> h_chunk (e_hdr (es_enc st')) = h_chunk (e_hdr (es_enc st)).
Proof.
  induction cs as [|c cs IH]; intros st st' rs H; cbn [ecalls] in H; [injection H as <- <-; auto|].
  destruct (estep C st c) as [st1 r] eqn:E. destruct (ecalls C st1 cs) as [st2 rs2] eqn:E2. injection H as <- <-.
  apply IH in E2. apply estep_chunk in E. congruence.
Qed.
Lemma ecalls_headless C cs k : forall st st' rs, ecalls C st cs = (st', rs) -> e_started (es_enc st) = true -> 0 <= h_chunk (e_hdr (es_enc st)) <= 2^30 ->
  headless_stream k st -> headless_stream k st'.
Proof.
  induction cs as [|c cs IH]; intros st st' rs H Hs Hc Hk; cbn [ecalls] in H; [injection H as <- <-; auto|].
  destruct (estep C st c) as [st1 r] eqn:E. destruct (ecalls C st1 cs) as [st2 rs2] eqn:E2. injection H as <- <-.
  eapply IH; [exact E2|eapply estep_started; eauto|rewrite (estep_chunk _ _ _ _ _ E); exact Hc|]. eapply estep_headless; eauto.
Qed.

(** One Encryptor, any calls whatever: after the first Encrypt or NewStreamWriter that succeeded, no further Encrypt and no further
    stream writer of the same Encryptor ever leaves in a fresh destination something that NewDecryptor accepts, whether those calls
    report an error or not.  (The number of the new stream writer is the number of those made before.) *)
Theorem C70_one_file_per_encryptor :
  forall C, crypto_ok C ->
  forall sender blksize g e0 g0, 0 <= blksize -> new_encryptor C sender blksize g = (Ok e0, g0) ->
  forall cs1 st1 rs1, ecalls C (mkEobj e0 g0 []) cs1 = (st1, rs1) ->
  forall c st2 d, starts c -> estep C st1 c = (st2, ERet (Ok tt) d) ->
  forall cs2 st3 rs2, ecalls C st2 cs2 = (st3, rs2) ->
  forall wr, w_out wr = [] ->
  (forall rd st4 r wr4, estep C st3 (EEncrypt rd wr) = (st4, ERet r (Some wr4)) -> refused C (w_out wr4)) /\
  (exists st4 d4, estep C st3 (EStream wr) = (st4, ERet (Ok tt) d4) /\
   forall cs3 st5 rs3, ecalls C st4 cs3 = (st5, rs3) ->
   exists s wr5, nth_error (es_streams st5) (length (es_streams st3)) = Some (s, wr5) /\ refused C (w_out wr5)).
Proof.
  intros C HC sender blk g e0 g0 Hb E0 cs1 st1 rs1 E1 c st2 d Hc E2 cs2 st3 rs2 E3 wr Hw.
  assert (H0 : 0 <= h_chunk (e_hdr e0) <= 2^30).
  { pose proof (block_size_range blk Hb) as Hr. assert (h_chunk (e_hdr e0) = block_size blk) as ->; [|lia].
    unfold new_encryptor in E0. destruct (new_sender C g) as [[a b] ?]. destruct (rand_buf _ _) as [? ?]. destruct (rand_buf _ _) as [? ?].
    destruct (add_sender_sig _ _ _ _ _) as [[sn au]|x|x]; try discriminate. injection E0 as <- _. reflexivity. }
  pose proof (ecalls_chunk _ _ _ _ _ E1) as K1. pose proof (estep_chunk _ _ _ _ _ E2) as K2. pose proof (ecalls_chunk _ _ _ _ _ E3) as K3.
  cbn [es_enc] in K1. assert (H3 : 0 <= h_chunk (e_hdr (es_enc st3)) <= 2^30) by (rewrite K3, K2, K1; exact H0).
  pose proof (estep_starts _ _ _ _ _ E2 Hc) as S2. pose proof (ecalls_started _ _ _ _ _ E3 S2) as (S3 & _). clear -HC H3 S3 Hw.
  destruct st3 as [e g ss]. cbn [es_enc es_streams] in *. split.
  - intros rd st4 r wr4 H. apply headless_refused; [exact HC|]. cbn [estep es_enc es_rng es_streams] in H.
    destruct (encrypt C e rd wr g) as [[[[e1 r1] w1] g1] rs] eqn:E. injection H as _ _ <-. unfold encrypt in E. rewrite S3 in E.
    destruct (e_stream e); [injection E as <- <- <- <- <-; rewrite Hw; exact I|].
    destruct (enc_loop _ _ _ _ _ _ _) as [[[[e4 r2] w2] g2] rs2] eqn:El. apply enc_loop_headless in El; [|exact H3|rewrite Hw; exact I].
    destruct rs2 as [[]|x|x]; [destruct (w_close w2) as [[x|] w5] eqn:Ec; apply w_close_out in Ec|..]; injection E as <- <- <- <- <-; try rewrite Ec; exact El.
  - cbn [estep es_enc es_rng es_streams]. unfold new_stream_writer. rewrite S3. do 2 eexists. split; [reflexivity|].
    intros cs3 st5 rs3 E5. apply (ecalls_headless _ _ (length ss)) in E5; [|exact S3|exact H3|].
    + destruct E5 as (s & w & N1 & N2 & _). exists s, w. split; [exact N1|]. apply headless_refused; assumption.
    + red. cbn [es_streams es_enc]. exists (mkEw [] 0 None), wr. rewrite nth_error_app2 by lia. rewrite Nat.sub_diag. cbn. split; [reflexivity|].
      rewrite Hw. split; [exact I|apply H3].
Qed.
Print Assumptions C70_one_file_per_encryptor.

(** The hypotheses are met: a fresh Encryptor, a recipient, a successful Encrypt; then every kind of call.  The results, and the number
    of bytes in the destinations handed back. *)
Definition told (r : eret) : option (res unit * option Z) :=
  match r with ERet x (Some w) => Some (x, Some (len (w_out w))) | ERet x None => Some (x, None) | ENone => None end.
Definition history (cs : list ecall) : option (list (option (res unit * option Z))) :=
  match new_encryptor toy (Some skS) 4 g0 with
  | (Ok e0, h0) => Some (map told (snd (ecalls toy (mkEobj e0 h0 []) cs)))
  | _ => None
  end.
Example C17_C18_C70_history :
  history [EAdd pkB; EEncrypt src sink; EAdd pkA; EEncrypt src sink; EStream sink; EWrite 0 text; EClose 0; EEncrypt src sink; EAdd pkA; EWrite 7 text] =
  Some [Some (Ok tt, None); Some (Ok tt, Some 397); Some (Fail ErrEncStarted, None); Some (Ok tt, Some 135);
        Some (Ok tt, None); Some (Ok tt, None); Some (Ok tt, None); Some (Fail ErrEncIsStream, Some 0); Some (Fail ErrEncStarted, None); None].
Proof. vm_compute. reflexivity. Qed.
(** a Decryptor on the file of Scene.v: Decrypt, then everything; and a stream reader, then everything *)
Definition dtold (r : dret) : option (res unit * option bytes * bytes) :=
  match r with DRet x (Some w) b => Some (x, Some (w_out w), b) | DRet x None b => Some (x, None, b) | DNone => None end.
Definition dhistory (cs : list dcall) : option (list (option (res unit * option bytes * bytes))) :=
  match new_decryptor toy (whole file1) with
  | (Ok d, _) => Some (map dtold (snd (dcalls toy (mkDobj d []) cs)))
  | _ => None
  end.
Example C18_history_decrypt :
  dhistory [DSet skB (Some pkS); DDecrypt sink; DSet skA (Some pkS); DDecrypt sink; DStream; DRead 0 5] =
  Some [Some (Ok tt, None, []); Some (Ok tt, Some text, []); Some (Ok tt, None, []); Some (Fail IoEOF, Some [], []); Some (Fail IoEOF, None, []); None].
Proof. vm_compute. reflexivity. Qed.
Example C18_history_stream :
  dhistory [DSet skB (Some pkS); DStream; DRead 0 3; DDecrypt sink; DStream; DRead 0 9; DRead 1 9; DDecrypt sink] =
  Some [Some (Ok tt, None, []); Some (Ok tt, None, []); Some (Ok tt, None, str "hel"); Some (Fail ErrDecStarted, Some [], []); Some (Ok tt, None, []);
        Some (Ok tt, None, str "l"); Some (Fail (EWrap "decrypt: can't decrypt chunk" (EMsg "cipher: message authentication failed")), None, []); Some (Fail ErrDecStarted, Some [], [])].
Proof. vm_compute. reflexivity. Qed.
(** SetPrivateKey in the middle of a chunk: the rest of the chunk is still handed out (it lies in the old buffer) *)
Example C18_history_new_buffer :
  dhistory [DSet skB (Some pkS); DStream; DRead 0 3; DSet skA (Some pkS); DRead 0 0; DRead 0 9; DRead 0 9] =
  Some [Some (Ok tt, None, []); Some (Ok tt, None, []); Some (Ok tt, None, str "hel"); Some (Ok tt, None, []); Some (Ok tt, None, []);
        Some (Ok tt, None, str "l"); Some (Ok tt, None, str "o wo")].
Proof. vm_compute. reflexivity. Qed.
