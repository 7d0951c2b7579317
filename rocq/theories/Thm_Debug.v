(** C93: the debugging messages. *)
From Verif Require Import Bytes BytesLemmas GoErr GoIO SpecIO IOProofs Pb SpecPb PbProofs Crypto CryptoLaws Keys Sign
  Encrypt Decrypt Stream Spec SpecStream EncryptProofs DecryptProofs AcceptProofs OpenProofs RoundTrip StreamProofs
  Support SpecCalls Flags Cli Main SpecFlags FlagsProofs Thm_Encrypt Thm_Session Thm_Flags Thm_Calls Thm_StreamFormat Debug SpecDebug Toy Scene.
Require Import ZifyBool.
Ltac Zify.zify_post_hook ::= Z.div_mod_to_equations.
Local Notation length := List.length.
Local Notation concat := List.concat.

Lemma digit_hex d : 0 <= d < 16 -> digit (Z.to_nat d) = hex_digit d /\ undigit (hex_digit d) = d.
Proof.
  intros H. assert (d = 0 \/ d = 1 \/ d = 2 \/ d = 3 \/ d = 4 \/ d = 5 \/ d = 6 \/ d = 7 \/ d = 8 \/ d = 9 \/ d = 10 \/ d = 11 \/ d = 12 \/ d = 13 \/ d = 14 \/ d = 15) as K by lia.
  repeat (destruct K as [->|K]; [vm_compute; auto|]). subst. vm_compute; auto.
Qed.
Lemma hex_hexed s : hexed s (hex s).
Proof.
  induction s as [|b s IH]; [constructor|]. cbn [hex]. pose proof (b2z_range b) as R.
  rewrite <- (proj1 (digit_hex (b2z b / 16) ltac:(lia))), <- (proj1 (digit_hex (b2z b mod 16) ltac:(lia))).
  constructor; [lia|lia|lia|exact IH].
Qed.
Lemma len_hexed s t : hexed s t -> len t = 2 * len s.
Proof. induction 1; [reflexivity|]. rewrite !len_cons, IHhexed. lia. Qed.
Lemma unhex_hexed s t : hexed s t -> unhex t = s.
Proof.
  induction 1 as [|b s t hi lo Hh Hl Hb H IH]; [reflexivity|]. cbn [unhex]. rewrite IH. f_equal.
  pose proof (digit_hex (Z.of_nat hi) ltac:(lia)) as [A A']. pose proof (digit_hex (Z.of_nat lo) ltac:(lia)) as [B B'].
  rewrite Nat2Z.id in A, B. rewrite A, B, A', B', <- Hb. apply z2b_b2z.
Qed.
Lemma debug_message who ck fk level : 0 < level -> (who = "encrypt" \/ who = "decrypt")%string ->
  message who ck fk (debug level (debug_text who ck (fk_data fk) (fk_base fk) (fk_mac fk))).
Proof.
  intros Hl Hw. unfold debug. replace (level <=? 0) with false by lia.
  replace (last (debug_text who ck (fk_data fk) (fk_base fk) (fk_mac fk)) x00) with x0a.
  - cbn [Byte.eqb]. change (Byte.eqb x0a x0a) with true. cbv iota.
    exists (hex ck), (hex (fk_data fk)), (hex (fk_base fk)), (hex (fk_mac fk)). repeat (split; [apply hex_hexed|]). unfold debug_text.
    change [x0a; x09] with ([x0a] ++ [x09]). rewrite <- !app_assoc. reflexivity.
  - unfold debug_text. rewrite !app_assoc. rewrite last_last. reflexivity.
Qed.

Lemma overheard who ck fk t : (who = "encrypt" \/ who = "decrypt")%string -> len ck = 32 -> len (fk_data fk) = 32 -> len (fk_base fk) = 12 ->
  message who ck fk t -> overheard_key t = fk_data fk /\ overheard_nonce t = fk_base fk.
Proof.
  intros Hw Hc Hd Hb (a & b & c & d & A & B & Cc & D & ->).
  apply len_hexed in A as LA. apply len_hexed in B as LB. apply len_hexed in Cc as LC.
  assert (K : len (str who ++ str ":" ++ [x0a] ++ [x09] ++ str "hdr-cksum: ") = 21) by (destruct Hw as [-> | ->]; reflexivity).
  set (p := str who ++ str ":" ++ [x0a] ++ [x09] ++ str "hdr-cksum: ") in *.
  replace (str who ++ str ":" ++ [x0a] ++ [x09] ++ str "hdr-cksum: " ++ a ++ [x0a] ++ [x09] ++ str "aes-key: " ++ b ++ [x0a] ++ [x09] ++ str "nonce: " ++ c ++ [x0a] ++ [x09] ++ str "hmac-key: " ++ d ++ [x0a])
    with ((p ++ a ++ [x0a] ++ [x09] ++ str "aes-key: ") ++ b ++ [x0a] ++ [x09] ++ str "nonce: " ++ c ++ [x0a] ++ [x09] ++ str "hmac-key: " ++ d ++ [x0a])
    by (unfold p; rewrite <- !app_assoc; reflexivity).
  split.
  - unfold overheard_key. rewrite drop_app_eq by (rewrite !len_app, K, LA, Hc; reflexivity).
    rewrite take_app_eq by (rewrite LB, Hd; reflexivity). apply unhex_hexed. exact B.
  - unfold overheard_nonce.
    replace ((p ++ a ++ [x0a] ++ [x09] ++ str "aes-key: ") ++ b ++ [x0a] ++ [x09] ++ str "nonce: " ++ c ++ [x0a] ++ [x09] ++ str "hmac-key: " ++ d ++ [x0a])
      with ((p ++ a ++ [x0a] ++ [x09] ++ str "aes-key: " ++ b ++ [x0a] ++ [x09] ++ str "nonce: ") ++ c ++ [x0a] ++ [x09] ++ str "hmac-key: " ++ d ++ [x0a])
      by (rewrite <- !app_assoc; reflexivity).
    rewrite drop_app_eq by (rewrite !len_app, K, LA, LB, Hc, Hd; reflexivity).
    rewrite take_app_eq by (rewrite LC, Hb; reflexivity). apply unhex_hexed. exact Cc.
Qed.

Lemma frame_word_len pt last : len (frame_word pt last) = 4. Proof. reflexivity. Qed.
Lemma frame_len C dk base i last pt : crypto_ok C -> len (frame C dk base i last pt) = len pt + 20.
Proof. intros HC. unfold frame. rewrite len_app, frame_word_len, (ok_seal_len C HC); unfold gcm_overhead; lia. Qed.
Lemma unseal_frames C dk base cs : crypto_ok C -> len dk = 32 -> len base = 12 -> cs <> [] -> Forall (fun c => len c < 2^31) cs -> forall i fuel rest,
  (length cs <= fuel)%nat -> unseal C dk base i fuel (frames C dk base i cs ++ rest) = Some (concat cs).
Proof.
  intros HC Hk Hb Hne HF. induction cs as [|c cs IH]; intros i fuel rest Hf; [congruence|]. clear Hne.
  inversion_clear HF as [|? ? Hc HF']. destruct fuel as [|f]; [cbn in Hf; lia|]. pose proof (len_nonneg c) as Hcn.
  set (lst := match cs with [] => true | _ => false end).
  assert (exists tl, frames C dk base i (c :: cs) ++ rest = frame_word c lst ++ gcm_seal C dk (frame_nonce base i) c (frame_word c lst) ++ tl /\
    (cs = [] \/ (cs <> [] /\ tl = frames C dk base (i + 1) cs ++ rest))) as (tl & Ht & Hcs).
  { unfold lst. destruct cs as [|c2 cs2].
    - exists rest. split; [cbn [frames]; unfold frame; rewrite <- !app_assoc; reflexivity|auto].
    - exists (frames C dk base (i + 1) (c2 :: cs2) ++ rest). split; [|right; split; [discriminate|reflexivity]].
      rewrite frames_cons2. unfold frame. rewrite <- !app_assoc. reflexivity. }
  cbn [unseal]. rewrite Ht. rewrite take_app_eq by reflexivity. rewrite drop_app_eq by reflexivity.
  assert (Hv : unbe32 (frame_word c lst) = len c + (if lst then 2147483648 else 0)).
  { unfold frame_word. rewrite unbe32_be32'. destruct lst; lia. }
  rewrite Hv.
  replace (2 ^ 31 <=? len c + (if lst then 2147483648 else 0)) with lst by (destruct lst; lia).
  replace (if lst then len c + (if lst then 2147483648 else 0) - 2 ^ 31 else len c + (if lst then 2147483648 else 0)) with (len c) by (destruct lst; lia).
  rewrite take_app_eq by (rewrite (ok_seal_len C HC); unfold gcm_overhead; lia).
  rewrite (ok_open_seal C HC).
  destruct Hcs as [-> |[Hne ->]].
  - unfold lst. cbn [List.concat]. rewrite app_nil_r. reflexivity.
  - replace lst with false by (unfold lst; destruct cs; congruence).
    rewrite app_assoc. rewrite drop_app_eq by (rewrite len_app, frame_word_len, (ok_seal_len C HC); unfold gcm_overhead; lia).
    rewrite IH; [reflexivity|exact Hne|exact HF'|cbn in Hf; lia].
Qed.
Lemma frames_many C dk base cs : crypto_ok C -> forall i, Z.of_nat (length cs) <= len (frames C dk base i cs).
Proof.
  intros HC. induction cs as [|c cs IH]; intros i; [reflexivity|]. pose proof (len_nonneg c). destruct cs as [|c2 cs2].
  - cbn [frames length]. rewrite frame_len by exact HC. lia.
  - rewrite frames_cons2, len_app, frame_len by exact HC. specialize (IH (i + 1)). cbn [length] in *. lia.
Qed.

(** ** When there is a message, and what it says *)
Lemma enc_start_done C e w e' w' rs : enc_start C e w = (e', w', rs) -> e_started e' = (match rs with Ok _ => true | _ => e_started e end).
Proof.
  unfold enc_start. destruct (marshal_to _ _) as [v|x|x]; try (intros H; injection H as <- <- <-; auto; fail). cbv zeta.
  destruct (new_gcm _) as [k|x|x]; try (intros H; injection H as <- <- <-; auto; fail).
  destruct (fullwrite _ w) as [[x|] w1] eqn:E; intros H; injection H as <- <- <-; auto.
Qed.
Lemma start_message C level e w e' w' : crypto_ok C -> 0 < level -> pb_small (e_hdr e) -> enc_start C e w = (e', w', Ok tt) ->
  message "encrypt" (header_cksum C (e_hdr e)) (keys_of C (e_hdr e) (e_key e)) (start_debug C level e w).
Proof.
  intros HC Hl Hs E. unfold start_debug. rewrite E. destruct (enc_start_spec _ _ _ _ _ _ HC Hs E) as (_ & -> & _).
  cbn [e_ae e_hmac e_nonce e_started_state]. rewrite marshal_spec by exact Hs.
  replace (sha256 C (fixed_header (size_header (e_hdr e)) ++ pb_header (e_hdr e))) with (header_cksum C (e_hdr e)).
  - apply debug_message; auto.
  - unfold header_cksum. f_equal. unfold fixed_header. rewrite size_header_spec, full_header_code by exact Hs.
    unfold full_header. rewrite <- !app_assoc. reflexivity.
Qed.
Lemma start_silent C level e w : (level <= 0 \/ forall e' w', enc_start C e w <> (e', w', Ok tt)) -> start_debug C level e w = [].
Proof.
  intros H. unfold start_debug. destruct (enc_start C e w) as [[e' w'] [[]|x|x]]; auto.
  destruct H as [H|H]; [|now destruct (H e' w')]. destruct (e_ae e') as [k|]; auto. destruct (e_hmac e') as [[hk hd]|]; auto.
  destruct (marshal_to _ _); auto. unfold debug. replace (level <=? 0) with true by lia. reflexivity.
Qed.
Lemma started_silent C level st c : e_started (es_enc st) = true -> estep_debug C level st c = [].
Proof. intros H. destruct c; cbn [estep_debug]; rewrite ?H; auto. destruct (e_stream _); auto. Qed.
Lemma ecalls_silent C level cs : forall st, e_started (es_enc st) = true -> ecalls_debug C level st cs = repeat [] (length cs).
Proof.
  induction cs as [|c cs IH]; intros st H; [reflexivity|]. cbn [ecalls_debug length repeat]. rewrite started_silent by exact H. f_equal.
  destruct (estep C st c) as [st1 r] eqn:E. apply IH. cbn [fst]. eapply estep_started; eassumption.
Qed.
(** one call on an Encryptor that has not started *)
Lemma estep_message C level st c st' r : crypto_ok C -> 0 < level -> e_started (es_enc st) = false -> estep C st c = (st', r) ->
  if e_started (es_enc st')
  then starts c /\ e_hdr (es_enc st') = e_hdr (es_enc st) /\
       (pb_small (e_hdr (es_enc st)) ->
        message "encrypt" (header_cksum C (e_hdr (es_enc st))) (keys_of C (e_hdr (es_enc st)) (e_key (es_enc st))) (estep_debug C level st c))
  else estep_debug C level st c = [].
Proof.
  intros HC Hl. destruct st as [e g ss]. cbn [es_enc]. intros Hs H. destruct c as [pk|rd wr|wr|i b|i]; cbn [estep es_enc es_rng es_streams] in H.
  - unfold add_recipient in H. rewrite Hs in H. destruct (wrap_key C e pk g) as [[[w pk']|x|x] g2]; injection H as <- <-; cbn; rewrite Hs; reflexivity.
  - destruct (encrypt C e rd wr g) as [[[[e1 r1] w1] g1] rs] eqn:E. injection H as <- <-. cbn [es_enc estep_debug].
    unfold encrypt in E. destruct (e_stream e) eqn:Est; [injection E as <- <- <- <- <-; rewrite Hs; reflexivity|]. rewrite Hs in *.
    destruct (enc_start C e wr) as [[e3 w3] rs3] eqn:Es. pose proof (enc_start_done _ _ _ _ _ _ Es) as Hd. pose proof (enc_start_hdr _ _ _ _ _ _ Es) as (Hh & _).
    destruct rs3 as [[]|x|x].
    + destruct (enc_loop C (S (rd_size rd)) e3 rd w3 0 g) as [[[[e4 r2] w2] g2] rs2] eqn:El.
      pose proof (enc_loop_flags _ _ _ _ _ _ _ _ _ _ _ _ El) as [F1 F2]. pose proof (enc_loop_hdr _ _ _ _ _ _ _ _ _ _ _ _ El) as F3.
      assert (e1 = e4) as -> by (destruct rs2 as [[]|x|x]; [destruct (w_close w2) as [[x|] w5]|..]; injection E as <- <- <- <- <-; reflexivity).
      rewrite F1, Hd. split; [exact I|]. split; [congruence|]. intros Hp. eapply start_message; eassumption.
    + injection E as <- <- <- <- <-. rewrite Hd, Hs. apply start_silent. right. intros e' w'. rewrite Es. discriminate.
    + injection E as <- <- <- <- <-. rewrite Hd, Hs. apply start_silent. right. intros e' w'. rewrite Es. discriminate.
  - unfold new_stream_writer in H. rewrite Hs in H. cbn [estep_debug es_enc]. rewrite Hs.
    destruct (enc_start C e wr) as [[e3 w3] rs3] eqn:Es. pose proof (enc_start_done _ _ _ _ _ _ Es) as Hd. pose proof (enc_start_hdr _ _ _ _ _ _ Es) as (Hh & _).
    destruct rs3 as [[]|x|x]; injection H as <- <-; cbn [es_enc e_started e_hdr]; rewrite Hd.
    + split; [exact I|]. split; [exact Hh|]. intros Hp. eapply start_message; eassumption.
    + rewrite Hs. apply start_silent. right. intros e' w'. rewrite Es. discriminate.
    + rewrite Hs. apply start_silent. right. intros e' w'. rewrite Es. discriminate.
  - destruct (nth_error ss i) as [[s w]|]; [|injection H as <- <-; cbn; rewrite Hs; reflexivity].
    destruct (ew_write C e w g s b) as [[[[e1 w1] g1] s1] [n rs]] eqn:E. injection H as <- <-. cbn [es_enc estep_debug].
    pose proof (ew_write_flags _ _ _ _ _ _ _ _ _ _ _ E) as [F1 F2]. rewrite F1, Hs. reflexivity.
  - destruct (nth_error ss i) as [[s w]|]; [|injection H as <- <-; cbn; rewrite Hs; reflexivity].
    destruct (ew_close C e w g s) as [[[[e1 w1] g1] s1] rs] eqn:E. injection H as <- <-. cbn [es_enc estep_debug].
    pose proof (ew_close_flags _ _ _ _ _ _ _ _ _ _ E) as [F1 F2]. rewrite F1, Hs. reflexivity.
Qed.

(** ** C93 *)
(** Unless debugging is enabled no call on an Encryptor or a Decryptor, and none on its streams, writes to standard error. *)
Theorem C93_silent : forall C level, level <= 0 ->
  (forall st cs, ecalls_debug C level st cs = repeat [] (length cs)) /\ (forall st cs, dcalls_debug C level st cs = repeat [] (length cs)).
Proof.
  intros C level Hl. split.
  - intros st cs. revert st. induction cs as [|c cs IH]; intros st; [reflexivity|]. cbn [ecalls_debug length repeat]. rewrite IH. f_equal.
    destruct c; cbn [estep_debug]; auto; [destruct (e_stream _)|]; auto; destruct (e_started _); auto; apply start_silent; auto.
  - intros st cs. revert st. induction cs as [|c cs IH]; intros st; [reflexivity|]. cbn [dcalls_debug length repeat]. rewrite IH. f_equal.
    destruct c; cbn [dstep_debug]; auto. destruct (set_private_key _ _ _ _) as [[d sk'] [[]|x|x]]; auto.
    destruct (d_ae d) as [k|]; auto. destruct (d_hmac d) as [[hk hd]|]; auto. unfold debug. replace (level <=? 0) with true by lia. reflexivity.
Qed.
Print Assumptions C93_silent.

(** With debugging, whatever is called on an Encryptor and its stream writers in whatever order: there is one message, from the Encrypt or
    NewStreamWriter that wrote the header, and none if no header was written.  It shows the header checksum, the data key, the nonce and the
    HMAC key of the file. *)
Theorem C93_encryptor_messages : forall C, crypto_ok C -> forall level, 0 < level ->
  forall st cs st' rs, e_started (es_enc st) = false -> ecalls C st cs = (st', rs) ->
  (e_started (es_enc st') = false -> ecalls_debug C level st cs = repeat [] (length cs)) /\
  (e_started (es_enc st') = true -> 0 <= h_chunk (e_hdr (es_enc st')) < 2^32 -> len (full_header (e_hdr (es_enc st'))) < 2^62 ->
    exists before c after text, cs = before ++ c :: after /\ starts c /\
      ecalls_debug C level st cs = repeat [] (length before) ++ text :: repeat [] (length after) /\
      let e := es_enc (fst (ecalls C st before)) in e_hdr e = e_hdr (es_enc st') /\
      message "encrypt" (header_cksum C (e_hdr e)) (keys_of C (e_hdr e) (e_key e)) text).
Proof.
  intros C HC level Hl st cs. revert st. induction cs as [|c cs IH]; intros st st' rs Hs H.
  - cbn in H. injection H as <- <-. split; [reflexivity|]. congruence.
  - cbn [ecalls] in H. destruct (estep C st c) as [st1 r] eqn:E1. destruct (ecalls C st1 cs) as [st2 rs2] eqn:E2. injection H as <- <-.
    pose proof (estep_message _ _ _ _ _ _ HC Hl Hs E1) as Hm. cbn [ecalls_debug length repeat]. rewrite E1. cbn [fst].
    destruct (e_started (es_enc st1)) eqn:S1.
    + destruct Hm as (Hst & Hh & Hm). destruct (ecalls_started _ _ _ _ _ E2 S1) as (S2 & Hh2 & _). split; [congruence|]. intros _ Hc Hlen.
      rewrite ecalls_silent by exact S1. exists [], c, cs, (estep_debug C level st c). split; [reflexivity|]. split; [exact Hst|]. split; [reflexivity|].
      cbv zeta. cbn [ecalls fst]. split; [congruence|]. apply Hm. rewrite Hh2, Hh in *. split; [exact Hc|].
      unfold full_header in Hlen. rewrite !len_app in Hlen. pose proof (len_nonneg (str "SigTool")). pose proof (len_nonneg [x03]). pose proof (len_nonneg (be32 (len (pb_header (e_hdr (es_enc st)))))). lia.
    + rewrite Hm. destruct (IH st1 st2 rs2 S1 E2) as (A & B). split.
      * intros S2. rewrite A by exact S2. reflexivity.
      * intros S2 Hc Hlen. destruct (B S2 Hc Hlen) as (bf & c' & af & t & -> & Hst & Hd & Hx). exists (c :: bf), c', af, t. split; [reflexivity|]. split; [exact Hst|].
        split; [rewrite Hd; reflexivity|]. cbv zeta in *. cbn [ecalls]. rewrite E1. destruct (ecalls C st1 bf) as [sx rx] eqn:Ex. cbn [fst] in *. exact Hx.
Qed.
Print Assumptions C93_encryptor_messages.

(** A Decryptor: one message for each SetPrivateKey that succeeds, no others. *)
Theorem C93_decryptor_messages : forall C, crypto_ok C -> forall level, 0 < level ->
  forall st cs st' rs, dcalls C st cs = (st', rs) ->
  forall i c r, nth_error cs i = Some c -> nth_error rs i = Some r -> exists text, nth_error (dcalls_debug C level st cs) i = Some text /\
    (text <> [] <-> exists sk spk, c = DSet sk spk /\ r = DRet (Ok tt) None []).
Proof.
  intros C HC level Hl st cs. revert st. induction cs as [|c0 cs IH]; intros st st' rs H i c r Hi Hr; [destruct i; discriminate|].
  cbn [dcalls] in H. destruct (dstep C st c0) as [st1 r0] eqn:E1. destruct (dcalls C st1 cs) as [st2 rs2] eqn:E2. injection H as <- <-.
  cbn [dcalls_debug]. rewrite E1. cbn [fst]. destruct i as [|i]; [|cbn in *; eapply IH; eassumption].
  cbn in Hi, Hr |- *. injection Hi as ->. injection Hr as ->. eexists. split; [reflexivity|].
  destruct c as [sk spk|w| |j n]; cbn [dstep_debug]; try (split; [congruence|intros (sk & spk & K & _); discriminate]).
  cbn [dstep] in E1. destruct (set_private_key C (ds_dec st) sk spk) as [[d sk'] rs'] eqn:Es. injection E1 as <- <-.
  destruct rs' as [[]|x|x].
  - assert (exists k hk hd, d_ae d = Some k /\ d_hmac d = Some (hk, hd)) as (k & hk & hd & -> & ->).
    { unfold set_private_key in Es. destruct (find_key _ _ _ _) as [[key|x|x] sk2]; try discriminate. cbv zeta in Es.
      destruct (verify_sender _ _ _ _) as [b|x|x]; try discriminate. destruct (new_gcm _) as [ae|x|x]; try discriminate. injection Es as <- <-. cbn. eauto. }
    split; [intros _; eauto|]. intros _. unfold debug. replace (level <=? 0) with false by lia.
    destruct (Byte.eqb _ _); [discriminate|]. intros K. apply app_eq_nil in K. destruct K; discriminate.
  - split; [congruence|]. intros (a & b & _ & K). discriminate.
  - split; [congruence|]. intros (a & b & _ & K). discriminate.
Qed.
Print Assumptions C93_decryptor_messages.

Lemma cksum_len C h : crypto_ok C -> len (header_cksum C h) = 32.
Proof. intros HC. apply (ok_sha256_len C HC). Qed.
Lemma header_place C h root cs tr : crypto_ok C -> len (pb_header h) < 2^32 ->
  drop (12 + unbe32 (take 4 (drop 8 (sigtool_file C h root cs tr))) + 32) (sigtool_file C h root cs tr) = frames C (fk_data (keys_of C h root)) (fk_base (keys_of C h root)) 0 cs ++ tr.
Proof.
  intros HC Hl. unfold sigtool_file, body. set (fr := frames C _ _ 0 cs ++ tr). set (s := full_header h ++ header_cksum C h ++ fr).
  assert (drop 8 s = be32 (len (pb_header h)) ++ pb_header h ++ header_cksum C h ++ fr) as ->.
  { unfold s, full_header. rewrite <- !app_assoc. rewrite (app_assoc (str "SigTool") [x03]). apply drop_app_eq. reflexivity. }
  rewrite take_app_eq by reflexivity. rewrite unbe32_be32'. pose proof (len_nonneg (pb_header h)). rewrite Z.mod_small by lia.
  unfold s. rewrite app_assoc. apply drop_app_eq. rewrite len_app, (cksum_len C h HC). unfold full_header. rewrite !len_app.
  change (len (str "SigTool")) with 7. change (len [x03]) with 1. rewrite len_be32. lia.
Qed.
Lemma eavesdropped C h root cs tr t who : crypto_ok C -> (who = "encrypt" \/ who = "decrypt")%string -> len (pb_header h) < 2^32 ->
  cs <> [] -> Forall (fun c => len c < 2^31) cs -> message who (header_cksum C h) (keys_of C h root) t ->
  eavesdrop C t (sigtool_file C h root cs tr) = Some (concat cs).
Proof.
  intros HC Hw Hl Hne HF Hm. destruct (derive_lens C root (header_cksum C h) HC) as (L1 & L2 & L3). fold (keys_of C h root) in L1, L2, L3.
  destruct (overheard _ _ _ _ Hw (cksum_len C h HC) L2 L1 Hm) as (K1 & K2). unfold eavesdrop. rewrite K1, K2, (header_place C h root cs tr HC Hl).
  apply unseal_frames; auto. pose proof (frames_many C (fk_data (keys_of C h root)) (fk_base (keys_of C h root)) cs HC 0) as M.
  unfold sigtool_file, body. rewrite !app_length. unfold len in M. lia.
Qed.
Lemma chunked_small n P cs s : chunked n P cs s -> (forall k, P k -> k < 2^31) -> n < 2^31 -> cs <> [] /\ Forall (fun c => len c < 2^31) cs.
Proof. induction 1 as [c Hc|c cs s Hc H IH]; intros HP Hn; (split; [discriminate|]); constructor; auto; [lia|]. apply IH; auto. Qed.

(** Debugging is dangerous: the message that Encrypt or NewStreamWriter prints and the file are enough to read the whole content, without
    any private key, whoever the file is for. *)
Theorem C93_discloses :
  forall C, crypto_ok C -> forall level, 0 < level ->
  forall sender blksize pks g e g', 0 <= blksize -> len pks <= 15885 ->
  (forall sk, sender = Some sk -> len (sk_Sk sk) = 64) -> session C sender blksize pks g e g' ->
  (forall rd s er wr e2 rd2 wr2 g2, delivers rd s er -> encrypt C e rd wr g' = (e2, rd2, wr2, g2, Ok tt) ->
     exists file, wrote wr wr2 file /\ eavesdrop C (estep_debug C level (mkEobj e g' []) (EEncrypt rd wr)) file = Some s) /\
  (forall wr bs wr2 g2, streamed_to C e g' wr bs wr2 g2 ->
     exists file, wrote wr wr2 file /\ eavesdrop C (estep_debug C level (mkEobj e g' []) (EStream wr)) file = Some (concat bs)).
Proof.
  intros C HC level Hlv sender blk pks g e g' Hb Hp Hg Hs.
  pose proof (session_ready _ _ _ _ _ _ _ HC Hg Hs) as Hr. pose proof (header_small _ _ _ _ _ HC Hb Hr ltac:(lia)) as Hl.
  pose proof (few_recipients _ _ _ _ _ HC Hb Hr Hp) as Hf. pose proof (block_size_range blk Hb) as Hbr.
  assert (Hps : pb_small (e_hdr e)). { split; [rewrite (rd_chunk _ _ _ _ _ Hr); lia|lia]. }
  split.
  - intros rd s er wr e2 rd2 wr2 g2 Hd He.
    pose proof (encrypt_spec _ _ _ _ _ _ _ _ _ _ _ _ _ _ _ HC Hg Hb Hr Hl Hd He) as (_ & _ & cs & Hcs & Ht).
    destruct (the_trailer C e _ (mac_input cs) g') as [tr gx]. destruct Ht as (_ & _ & Ho & _).
    eexists. split; [exact Ho|]. rewrite <- (chunked_concat _ _ _ _ Hcs).
    assert (cs <> [] /\ Forall (fun c => len c < 2^31) cs) as (Hne & HF) by (apply (chunked_small _ _ _ _ Hcs); [intros; lia|lia]).
    apply (eavesdropped _ _ _ _ _ _ "encrypt"%string); auto; [lia|].
    cbn [estep_debug es_enc]. rewrite (rd_stream _ _ _ _ _ Hr), (rd_started _ _ _ _ _ Hr).
    unfold encrypt in He. rewrite (rd_stream _ _ _ _ _ Hr), (rd_started _ _ _ _ _ Hr) in He.
    destruct (enc_start C e wr) as [[e3 w3] [[]|x|x]] eqn:Es; try discriminate. eapply start_message; eassumption.
  - intros wr bs wr2 g2 Hst. destruct (streamed_exact _ _ _ _ _ _ _ _ _ _ HC Hg Hb Hr Hl Hst) as (cs & Hcs & Ht). cbv zeta in Ht.
    destruct (trailer_from C sender _ (mac_input cs) g') as [tr gx]. destruct Ht as (_ & _ & Ho & _).
    eexists. split; [exact Ho|].
    assert (concat cs = concat bs /\ cs <> [] /\ Forall (fun c => len c < 2^31) cs) as (<- & Hne & HF).
    { destruct Hcs as [Hcs|[-> ->]]; [|split; [reflexivity|]; split; [discriminate|]; repeat constructor].
      split; [exact (chunked_concat _ _ _ _ Hcs)|]. apply (chunked_small _ _ _ _ Hcs); [intros; lia|lia]. }
    apply (eavesdropped _ _ _ _ _ _ "encrypt"%string); auto; [lia|].
    cbn [estep_debug es_enc]. rewrite (rd_started _ _ _ _ _ Hr).
    destruct Hst as (e1 & w1 & s1 & e3 & w3 & g3 & s3 & rs & e4 & s4 & Hn & _). unfold new_stream_writer in Hn. rewrite (rd_started _ _ _ _ _ Hr) in Hn.
    destruct (enc_start C e wr) as [[e5 w5] [[]|x|x]] eqn:Es; try discriminate. eapply start_message; eassumption.
Qed.
Print Assumptions C93_discloses.

(** The two ends show the same values: the message of a recipient's SetPrivateKey is that of the sender's Encrypt but for its first word. *)
Theorem C93_both_ends :
  forall C, crypto_ok C -> forall level, 0 < level ->
  forall sender blksize pks g e g', 0 <= blksize < 2^30 -> len pks <= 15885 -> session C sender blksize pks g e g' ->
  forall rd s wr e2 rd2 wr2 g2, delivers rd s IoEOF -> w_out wr = [] -> encrypt C e rd wr g' = (e2, rd2, wr2, g2, Ok tt) ->
  forall seed pk sk spk, In pk pks -> pubof C seed pk -> keypair C seed sk -> sender_matches C sender spk ->
  no_accident C (e_hdr e) seed (e_key e) ->
  forall file d0 rd', delivers file (w_out wr2) IoEOF -> new_decryptor C file = (Ok d0, rd') ->
  exists text, estep_debug C level (mkEobj e g' []) (EEncrypt rd wr) = str "encrypt:" ++ text /\
    dstep_debug C level (mkDobj d0 []) (DSet sk spk) = str "decrypt:" ++ text.
Proof.
  intros C HC level Hlv sender blk pks g e g' Hb Hp Hs rd s wr e2 rd2 wr2 g2 Hd Hw He seed pk sk spk Hin Hpk Hsk Hm Hna file d0 rd' Hf Hn.
  pose proof (matches_good _ _ _ HC Hm) as Hg. pose proof (session_ready _ _ _ _ _ _ _ HC Hg Hs) as Hr.
  pose proof (few_recipients _ _ _ _ _ HC (proj1 Hb) Hr Hp) as Hl. pose proof (block_size_range blk (proj1 Hb)) as Hbr.
  pose proof (encrypt_spec _ _ _ _ _ _ _ _ _ _ _ _ _ _ _ HC Hg (proj1 Hb) Hr ltac:(lia) Hd He) as (_ & _ & cs & Hcs & Ht).
  destruct (the_trailer C e _ (mac_input cs) g') as [tr gx]. destruct Ht as (_ & Htr & Ho & _). rewrite Hw in Ho. cbn [app] in Ho.
  rewrite Ho in Hf. unfold sigtool_file in Hf.
  destruct (honest_open C HC sender blk pks e Hb Hr Hl seed pk sk spk Hpk Hin Hsk (or_introl Hna) Hm _ _ _ Hf) as (d & (d1 & rd1 & sk1 & Hn1 & Hset) & Hos & Hau).
  rewrite Hn in Hn1. injection Hn1 as <- <-.
  assert (Hck : d_hdrsum d = header_cksum C (e_hdr e)).
  { pose proof (new_decryptor_spec C _ _ _ _ _ HC Hf Hn) as (h & ck & rest & Hv & -> & _).
    destruct (valid_header_det _ _ _ _ _ _ _ _ Hv (os_header _ _ _ _ _ _ _ _ _ _ Hos)) as (-> & -> & _).
    unfold set_private_key in Hset. destruct (find_key _ _ _ _) as [[key|x|x] sk2]; try discriminate. cbv zeta in Hset.
    destruct (verify_sender _ _ _ _) as [b|x|x]; try discriminate. destruct (new_gcm _) as [ae|x|x]; try discriminate. injection Hset as <- <-. reflexivity. }
  pose proof (os_live _ _ _ _ _ _ _ _ _ _ Hos) as Hlive. cbv zeta in Hlive. fold (keys_of C (e_hdr e) (e_key e)) in Hlive.
  set (fk := keys_of C (e_hdr e) (e_key e)) in *.
  assert (Hps : pb_small (e_hdr e)). { split; [rewrite (rd_chunk _ _ _ _ _ Hr); lia|lia]. }
  assert (forall who z, debug level (debug_text who z (fk_data fk) (fk_base fk) (fk_mac fk)) = debug_text who z (fk_data fk) (fk_base fk) (fk_mac fk)) as Hdb.
  { intros who z. unfold debug. replace (level <=? 0) with false by lia. replace (last (debug_text who z (fk_data fk) (fk_base fk) (fk_mac fk)) x00) with x0a; [reflexivity|].
    unfold debug_text. rewrite !app_assoc. rewrite last_last. reflexivity. }
  eexists. split.
  - cbn [estep_debug es_enc]. rewrite (rd_stream _ _ _ _ _ Hr), (rd_started _ _ _ _ _ Hr).
    unfold encrypt in He. rewrite (rd_stream _ _ _ _ _ Hr), (rd_started _ _ _ _ _ Hr) in He.
    destruct (enc_start C e wr) as [[e3 w3] [[]|x|x]] eqn:Es; try discriminate.
    unfold start_debug. rewrite Es. destruct (enc_start_spec _ _ _ _ _ _ HC Hps Es) as (_ & -> & _).
    cbn [e_ae e_hmac e_nonce e_started_state]. rewrite marshal_spec by exact Hps.
    replace (sha256 C (fixed_header (size_header (e_hdr e)) ++ pb_header (e_hdr e))) with (header_cksum C (e_hdr e)).
    + fold fk. rewrite Hdb. unfold debug_text. rewrite (app_assoc (str "encrypt") (str ":")). reflexivity.
    + unfold header_cksum. f_equal. unfold fixed_header. rewrite size_header_spec, full_header_code by exact Hps.
      unfold full_header. rewrite <- !app_assoc. reflexivity.
  - cbn [dstep_debug ds_dec]. rewrite Hset. rewrite (dl_ae _ _ _ _ _ Hlive), (dl_hmac _ _ _ _ _ Hlive), (dl_nonce _ _ _ _ _ Hlive), Hck, Hdb.
    unfold debug_text. rewrite (app_assoc (str "decrypt") (str ":")). reflexivity.
Qed.
Print Assumptions C93_both_ends.

(** The --debug option of sigtool switches them on, and changes nothing else: exit status, files and standard output are the same. *)
Theorem C93_option : forall argv,
  (forall items b, command_line main_options false argv items -> switch items "debug" b -> debug_level argv = Some (if b then 1 else 0)) /\
  (forall C E W v1 v2, main C E W declared v1 v2 (str "--debug" :: argv) = main C E W declared v1 v2 argv).
Proof.
  intros argv. split.
  - intros items b CL Hd. rewrite main_same in CL. unfold debug_level. rewrite (command_line_parse _ _ _ _ main_table CL).
    ty main_table CL "debug"%string. apply (switch_iff _ _ _ Y) in Hd. rewrite Hd. reflexivity.
  - intros C E W v1 v2. unfold main, declared. cbn [fl_main].
    assert (forall p, ended 2 (p_set (str "debug") (VBool true) p) (fun s a => Options (mkMain (get_bool s (str "version") false) (get_bool s (str "help") false) a)) =
                      ended 2 p (fun s a => Options (mkMain (get_bool s (str "version") false) (get_bool s (str "help") false) a))) as K.
    { intros [| |s a]; reflexivity. }
    match goal with |- context [parse_args main_flags false (str "--debug" :: argv)] =>
      replace (parse_args main_flags false (str "--debug" :: argv)) with (p_set (str "debug") (VBool true) (parse_args main_flags false argv)) by reflexivity end.
    rewrite K. reflexivity.
Qed.
Print Assumptions C93_option.

(** the session of Scene.v: the message of Encrypt opens its file; a second Encrypt and a late AddRecipient print nothing; nothing is printed
    when the header cannot be written *)
Example C93_instance :
  eavesdrop toy (estep_debug toy 1 (mkEobj e1 g1 []) (EEncrypt src dst)) file1 = Some Scene.text /\
  map (fun t => 0 <? len t) (ecalls_debug toy 1 (mkEobj e1 g1 []) [EAdd pkA; EEncrypt src dst; EAdd pkB; EEncrypt src dst; EStream dst]) = [false; true; false; false; false] /\
  map (fun t => 0 <? len t) (ecalls_debug toy 1 (mkEobj e1 g1 []) [EStream (mkWriter [] [(0, Some ErrClosedPipe)] [] 0); EStream dst; EWrite 0 Scene.text]) = [false; true; false] /\
  debug_level [str "--debug"; str "encrypt"] = Some 1 /\ debug_level [str "encrypt"; str "--debug"] = Some 0.
Proof. repeat (split; [vm_compute; reflexivity|]). vm_compute. reflexivity. Qed.
Example C93_both_instance : exists d0 rd', new_decryptor toy (whole file1) = (Ok d0, rd') /\
  exists text, estep_debug toy 1 (mkEobj e1 g1 []) (EEncrypt src dst) = str "encrypt:" ++ text /\ dstep_debug toy 1 (mkDobj d0 []) (DSet skB (Some pkS)) = str "decrypt:" ++ text.
Proof.
  destruct file1_made as (e & r & w & g & He & Hw).
  destruct (new_decryptor toy (whole file1)) as [[d0|x|x] rd'] eqn:E; [|exfalso|exfalso]; try (apply (f_equal fst) in E; vm_compute in E; discriminate E).
  exists d0, rd'. split; [reflexivity|].
  eapply (C93_both_ends toy toy_ok 1 ltac:(lia) (Some skS) 4 [pkA; pkB] g0 e1 g1 ltac:(lia) ltac:(cbn; lia) session1
    src Scene.text dst e r w g src_delivers eq_refl He seedB pkB skB (Some pkS) ltac:(right; left; reflexivity) pB kB matches1 na1B (whole file1) d0 rd'); [rewrite Hw; apply delivers_whole|exact E].
Qed.
