(** C56: the commands crash only on malformed key files. *)
From Verif Require Import Bytes BytesLemmas GoErr GoIO SpecIO IOProofs Pb SpecPb Crypto CryptoLaws Keys Sign SpecSign Encrypt Decrypt Spec Support EncryptProofs DecryptProofs OpenProofs Hostile
  KeyFiles ExtLaws Base64 GoText Ssh SpecSsh SshProofs SpecBase64 Base64Proofs FreeProofs Fs SpecFs FsProofs Store Cli SpecCli CliProofs Thm_Encrypt Thm_Decrypt Thm_Sign Thm_Ssh Toy Scene ToyExt Thm_KeyFiles CliScene Thm_Cli Thm_Commands
  SpecCrash CrashProofs Thm_KeyCrash.
Require Import ZifyBool.
Ltac Zify.zify_post_hook ::= Z.div_mod_to_equations.
Local Notation length := List.length.

(** ** Specification *)
(** the files are smaller than 4 GiB, and pem.Decode returns no more than what is in the file *)
Definition files_fit (E : ext) (W : world) : Prop :=
  forall p b, file_holds W p b -> len b < 2^32 /\
    forall blk, pem_decode E b = Some blk -> 0 <= pem_spare blk /\ len (pem_bytes blk) < 2^32.
(** the named file makes the key parser crash *)
Definition bad_private (E : ext) (W : world) (nopw : bool) (envpw p : bytes) : Prop :=
  exists b pw, file_holds W p b /\ passphrase W nopw envpw pw /\ crashing_private E b (Some pw).
Definition bad_public (W : world) (p : bytes) : Prop := exists b, file_holds W p b /\ crashing_public b.
(** a status: done, an error message, or a crash for this reason *)
Definition ends (code : Z) (reason : Prop) : Prop := code = 0 \/ code = 1 \/ code = 2 /\ reason.

(** ** Reading keys *)
Lemma pass_nopanic W nopw envpw w : get_pass W nopw envpw <> Panic w.
Proof. unfold get_pass. destruct nopw; [discriminate|]. destruct (0 <? len envpw); [discriminate|]. destruct (wo_ask W); discriminate. Qed.

Lemma private_crash C E W nopw envpw p w : crypto_ok C -> files_fit E W ->
  read_private_key C E (slurp W p) (Some (get_pass W nopw envpw)) = Panic w -> bad_private E W nopw envpw p.
Proof.
  intros HC HF. destruct (slurp W p) as [b|e|x] eqn:S; cbn [read_private_key bind]; intros H; [|discriminate H|exfalso; exact (slurp_nopanic _ _ _ S)].
  apply slurp_ok in S. exists b, (get_pass W nopw envpw). split; [exact S|]. split; [apply get_pass_ok|].
  destruct (HF p b S) as (_ & Hp). apply (C36_private_panics_exactly C E zero_priv b (Some (get_pass W nopw envpw)) HC).
  - intros x Hx. injection Hx as Hx. exact (pass_nopanic _ _ _ _ Hx).
  - exact Hp.
  - unfold make_private_key in H. destruct (unmarshal_private C E zero_priv b _) as [sk [|e|x]]; try discriminate H. eauto.
Qed.
Lemma public_crash C E W p w : files_fit E W -> read_public_key C E (slurp W p) = Panic w -> bad_public W p.
Proof.
  intros HF. destruct (slurp W p) as [b|e|x] eqn:S; cbn [read_public_key bind]; intros H; [|discriminate H|exfalso; exact (slurp_nopanic _ _ _ S)].
  apply slurp_ok in S. exists b. split; [exact S|]. destruct (HF p b S) as (Hl & _). apply (C36_public_panics_exactly C E zero_pub b Hl).
  unfold make_public_key in H. destruct (unmarshal_public C E zero_pub b) as [pk [|e|x]]; try discriminate H. eauto.
Qed.

(** ** Decryption with any key *)
Lemma unwrap_any C h w sk r sk' : crypto_ok C -> unwrap_key C h w sk = (r, sk') -> forall p, r <> Panic p.
Proof.
  intros HC H p ->. unfold unwrap_key in H. destruct (to_curve_sk C sk) as [our sk1]. injection H as H _. unfold X25519 in H.
  destruct (negb (len our =? 32)); [discriminate H|]. destruct (negb (len (h_pk h) =? 32)); [discriminate H|].
  destruct (beq _ (zeros 32)); [discriminate H|]. unfold expand in H. change (aes_key_size + rx_nonce_size) with 44 in H. change aes_key_size with 32 in H.
  rewrite new_gcm_32 in H by (rewrite len_take_le; [reflexivity|]; rewrite len_hkdf by (assumption || lia); lia).
  cbn [wrapf bind] in H. destruct (negb _) in H; discriminate H.
Qed.
Lemma find_any C h : crypto_ok C -> forall ks sk r sk', find_key C h ks sk = (r, sk') -> forall p, r <> Panic p.
Proof.
  intros HC. induction ks as [|w ks IH]; intros sk r sk' H p; cbn [find_key] in H; [injection H as <- _; discriminate|].
  destruct (unwrap_key C h w sk) as [[[key|]|x|q] sk1] eqn:U.
  - injection H as <- _. discriminate.
  - exact (IH _ _ _ H p).
  - injection H as <- _. discriminate.
  - exfalso. exact (unwrap_any _ _ _ _ _ _ HC U q eq_refl).
Qed.
Lemma set_any C d sk spk d' sk' rs : crypto_ok C -> unkeyed d -> (forall pk, spk = Some pk -> len (pk_Pk pk) = 32) ->
  set_private_key C d sk spk = (d', sk', rs) ->
  (forall p, rs <> Panic p) /\ (rs = Ok tt -> exists dk base hk, dlive d' dk base hk []).
Proof.
  intros HC Hu Hpk H. unfold set_private_key in H. destruct (find_key C (d_hdr d) (h_keys (d_hdr d)) sk) as [[root|x|q] sk1] eqn:Ef.
  - cbv zeta in H. pose proof (verify_sender_spec C (d_hdr d) root spk HC) as Hv. destruct (verify_sender C (d_hdr d) root spk) as [signed|x|q] eqn:Ev.
    + unfold expand in H. change (sha256_size + aes_key_size + aead_nonce_size) with 76 in H. change aead_nonce_size with 12 in H. change aes_key_size with 32 in H.
      assert (L : len (take 32 (drop 12 (hkdf_sha512 C root (d_hdrsum d) data_key_expansion 76))) = 32).
      { rewrite len_take_le; [reflexivity|]. rewrite len_drop by (rewrite len_hkdf by (assumption || lia); lia). rewrite len_hkdf by (assumption || lia). lia. }
      rewrite (new_gcm_32 _ L) in H. injection H as <- <- <-. split; [discriminate|]. intros _. do 3 eexists.
      destruct Hu as (Ha & Hc). constructor; cbn; try reflexivity; auto.
      * rewrite len_take_le; [reflexivity|]. rewrite len_hkdf by (assumption || lia). lia.
      * discriminate.
      * intros Hs. rewrite Ha in Hs. cbn in Hs. subst signed. destruct Hv as (pk & sig & H1 & H2 & _). eauto.
    + injection H as <- <- <-. split; [discriminate|discriminate].
    + exfalso. destruct Hv as (pk & -> & Hl). apply Hl, Hpk. reflexivity.
  - injection H as <- <- <-. split; discriminate.
  - exfalso. exact (find_any _ _ HC _ _ _ _ Ef q eq_refl).
Qed.

Lemma dec_body_ends C sk pk rd w : crypto_ok C -> (forall k, pk = Some k -> len (pk_Pk k) = 32) ->
  fst (dec_body C sk pk rd w) = 0 \/ fst (dec_body C sk pk rd w) = 1.
Proof.
  intros HC Hk. unfold dec_body. destruct (new_decryptor C rd) as [r rd'] eqn:Hn. pose proof (new_decryptor_any _ _ _ _ Hn) as (_ & Hr).
  destruct r as [d|x|p]; [|right; reflexivity|contradiction]. destruct Hr as (h & ck & -> & Hch & _).
  assert (Hu : unkeyed (fresh_dec h rd' ck)) by (split; [reflexivity|exact Hch]).
  destruct (set_private_key C (fresh_dec h rd' ck) sk pk) as [[d sk'] [[]|x|p]] eqn:Hs; destruct (set_any _ _ _ _ _ _ _ HC Hu Hk Hs) as (Np & Hl).
  - destruct (Hl eq_refl) as (dk & base & hk & Hd). destruct (decrypt C d w) as [[d' w'] [[]|x|p]] eqn:D; [left; reflexivity|right; reflexivity|].
    exfalso. eapply decrypt_any; [exact Hd|exact D|eauto].
  - right. reflexivity.
  - exfalso. exact (Np p eq_refl).
Qed.

(** ** Encryption of anything *)
Lemma enc_loop_any C : crypto_ok C -> forall fuel e r w i g dk base hk hd e' r' w' g' rs,
  live e dk base hk hd -> (rd_size r < fuel)%nat -> enc_loop C fuel e r w i g = (e', r', w', g', rs) -> forall p, rs <> Panic p.
Proof.
  intros HC. induction fuel as [|fuel IH]; intros e r w i g dk base hk hd e' r' w' g' rs Hl Hf H p; [lia|]. cbn [enc_loop] in H.
  pose proof Hl as []. destruct (read_full r (h_chunk (e_hdr e))) as [[b err] r1] eqn:Er. destruct (read_full_any _ _ _ _ _ Er ltac:(lia)) as (H1 & H2 & H3).
  set (eof := match err with None => Ok false | Some IoEOF | Some ErrClosedPipe | Some ErrUnexpectedEOF => Ok true | Some x => Fail (EWrap "encrypt: I/O read error" x) end) in H.
  assert (He : (exists last, eof = Ok last /\ (last = false -> err = None)) \/ exists x, eof = Fail x).
  { unfold eof. destruct err as [[]|]; eauto; left; eexists; split; try reflexivity; discriminate || reflexivity. }
  clearbody eof. destruct He as [(last & -> & Hlast)|(x & ->)]; [|injection H as <- <- <- <- <-; discriminate].
  destruct (enc_block C e b w i last g) as [[[e2 w2] g2] r2] eqn:Eb. pose proof (enc_block_spec _ _ _ _ _ _ _ _ _ _ _ _ _ _ _ HC Hl H2 Eb) as (_ & Hb).
  destruct r2 as [u|x|q]; [|injection H as <- <- <- <- <-; discriminate|contradiction].
  destruct last; [injection H as <- <- <- <- <-; discriminate|].
  destruct Hb as (-> & _). eapply (IH _ _ _ _ _ _ _ _ _ _ _ _ _ _ (live_with _ _ _ _ _ _ Hl)); [|exact H].
  specialize (H1 (Hlast eq_refl)). lia.
Qed.
Lemma encrypt_any C sender blk pks g e g' rd w x : crypto_ok C -> good_sender sender -> 0 <= blk -> len pks < 2^40 ->
  session C sender blk pks g e g' -> encrypt C e rd w g' = x -> forall p, snd x <> Panic p.
Proof.
  intros HC Hg Hb Hp Hs <- p. pose proof (session_ready _ _ _ _ _ _ _ HC Hg Hs) as Hr. pose proof (header_small _ _ _ _ _ HC Hb Hr Hp) as Hl.
  unfold encrypt. rewrite (rd_stream _ _ _ _ _ Hr), (rd_started _ _ _ _ _ Hr).
  destruct (enc_start C e w) as [[e3 w3] r3] eqn:Es. pose proof (enc_start_spec C e w e3 w3 r3 HC (ready_small _ _ _ _ _ HC Hb Hr Hl) Es) as (_ & He1).
  destruct r3 as [[]|x|x]; [|cbn; discriminate|contradiction]. destruct He1 as (He1 & _).
  pose proof (ready_live C sender blk pks e HC Hg Hb Hr) as Hlive. cbv zeta in Hlive. rewrite <- He1 in Hlive.
  destruct (enc_loop C (S (rd_size rd)) e3 rd w3 0 g') as [[[[e4 r4] w4] g4] r4'] eqn:El.
  pose proof (enc_loop_any C HC _ _ _ _ _ _ _ _ _ _ _ _ _ _ _ Hlive (Nat.lt_succ_diag_r _) El p) as N.
  destruct r4' as [[]|x|x]; [|cbn; discriminate|exact N]. destruct (w_close w4) as [[y|] w5]; cbn; discriminate.
Qed.
Lemma sender_sig_any C sk epk salt key p : crypto_ok C -> good_sender sk -> add_sender_sig C sk epk salt key <> Panic p.
Proof. intros HC Hg. rewrite add_sender_sig_spec by assumption. discriminate. Qed.
Lemma add_any C e pk g p e' pk' g' : crypto_ok C -> len (pk_Pk pk) = 32 -> pk_ck pk = None -> add_recipient C e pk g = (e', pk', g', Panic p) -> False.
Proof.
  intros HC Hl Hc H. unfold add_recipient in H. destruct (e_started e); [discriminate H|].
  destruct (wrap_key C e pk g) as [[[w pk1]|x|q] g1] eqn:Ew; try discriminate H.
  unfold wrap_key, to_curve_pk in Ew. rewrite Hc, Hl in Ew. change (32 <? 32) with false in Ew. cbv iota zeta in Ew.
  unfold X25519 in Ew. destruct (negb (len (e_encSK e) =? 32)); [discriminate Ew|]. destruct (negb (len (curve_of (pk_Pk pk)) =? 32)); [discriminate Ew|].
  destruct (beq _ (zeros 32)); [discriminate Ew|]. destruct (rand_buf rx_nonce_size g) as [rb g2]. unfold expand in Ew.
  change (aes_key_size + rx_nonce_size) with 44 in Ew. change aes_key_size with 32 in Ew.
  rewrite new_gcm_32 in Ew by (rewrite len_take_le; [reflexivity|]; rewrite len_hkdf by (assumption || lia); lia). cbn [wrapf bind] in Ew. discriminate Ew.
Qed.

(** the keys of authorized_keys are fresh objects *)
Lemma auth_key_32 C s ks pk : parse_authorized_keys C s = Ok ks -> In pk ks -> len (pk_Pk pk) = 32 /\ pk_ck pk = None.
Proof. intros H Hi. pose proof (parse_auth_sound C s ks pk H Hi) as (t & key & comm & _ & _ & L & -> & _). auto. Qed.
Lemma keymap_in pka fn : forall found pk, keymap_get pka fn found = Some pk -> found = Some pk \/ In pk pka.
Proof.
  induction pka as [|k pka IH]; intros found pk H; cbn [keymap_get] in H; [left; exact H|].
  apply IH in H. destruct H as [H|H]; [|right; right; exact H]. destruct (beq (pk_comment k) fn); [injection H as ->; right; left; reflexivity|left; exact H].
Qed.
Lemma recipients_crash C E W pka : crypto_ok C -> files_fit E W -> (forall pk, In pk pka -> len (pk_Pk pk) = 32 /\ pk_ck pk = None) ->
  forall fns e g errs p, enc_recipients C E W pka fns e g errs = Panic p -> exists fn, In fn fns /\ ~ user_name fn /\ bad_public W fn.
Proof.
  intros HC HF Hk. induction fns as [|fn fns IH]; intros e g errs p H; cbn [enc_recipients] in H; [discriminate H|].
  assert (More : (exists fn', In fn' fns /\ ~ user_name fn' /\ bad_public W fn') -> exists fn', In fn' (fn :: fns) /\ ~ user_name fn' /\ bad_public W fn').
  { intros (fn' & Hi & Hx). exists fn'. split; [right; exact Hi|exact Hx]. }
  destruct (is_user fn) eqn:U.
  - destruct (keymap_get pka fn None) as [pk|] eqn:K; [|apply More, (IH _ _ _ _ H)].
    apply keymap_in in K. destruct K as [K|K]; [discriminate K|]. destruct (Hk pk K) as (L & N).
    destruct (add_recipient C e pk g) as [[[e1 pk1] g1] [[]|x|q]] eqn:A; [apply More, (IH _ _ _ _ H)|discriminate H|exfalso; exact (add_any _ _ _ _ _ _ _ _ HC L N A)].
  - destruct (read_public_key C E (slurp W fn)) as [pk|x|q] eqn:R.
    + destruct (read_public_loaded _ _ _ _ R) as (key & c & L & ->).
      destruct (add_recipient C e _ g) as [[[e1 pk1] g1] [[]|x|q]] eqn:A; [apply More, (IH _ _ _ _ H)|discriminate H|exfalso; eapply add_any; [exact HC| | |exact A]; [exact L|reflexivity]].
    + apply More, (IH _ _ _ _ H).
    + exists fn. split; [left; reflexivity|]. split; [rewrite <- is_user_iff; congruence|]. exact (public_crash _ _ _ _ _ HF R).
Qed.

Lemma enc_body_ends C E W pka sk blk fns rd w : crypto_ok C -> files_fit E W -> (forall pk, In pk pka -> len (pk_Pk pk) = 32 /\ pk_ck pk = None) ->
  good_sender sk -> 0 <= blk -> len fns < 2^40 ->
  ends (fst (enc_body C E W pka sk blk fns rd w)) (exists fn, In fn fns /\ ~ user_name fn /\ bad_public W fn).
Proof.
  intros HC HF Hk Hg Hb Hl. unfold enc_body. destruct (new_encryptor C sk blk (wo_rng W)) as [[e0|x|p] g0] eqn:En.
  - destruct (enc_recipients C E W pka fns e0 g0 0) as [[[e g] errs]|x|p] eqn:Er.
    + pose proof Er as Er'. apply enc_recipients_spec in Er'. destruct Er' as (H0 & Hr). destruct (Z.ltb_spec 0 errs) as [Hp|Hz]; [right; left; reflexivity|].
      destruct (Hr ltac:(lia)) as (pks & F & A).
      assert (Lp : len pks < 2^40). { assert (Ln : length fns = length pks) by (clear -F; induction F; cbn; congruence). unfold len in *. lia. }
      destruct (encrypt C e rd w g) as [[[[e2 rd2] w1] g2] rs] eqn:Ec.
      pose proof (fun p => encrypt_any C sk blk pks (wo_rng W) e g rd w _ HC Hg Hb Lp (ex_intro _ e0 (ex_intro _ g0 (conj En A))) Ec p) as N. cbn [snd] in N.
      destruct rs as [[]|x|q]; [left; reflexivity|right; left; reflexivity|exfalso; exact (N q eq_refl)].
    + right. left. reflexivity.
    + right. right. split; [reflexivity|]. exact (recipients_crash _ _ _ _ HC HF Hk _ _ _ _ _ Er).
  - right. left. reflexivity.
  - exfalso. unfold new_encryptor in En. destruct (new_sender C (wo_rng W)) as [[esk epk] g1]. destruct (rand_buf aes_key_size g1) as [key g2].
    destruct (rand_buf salt_size g2) as [salt g3]. destruct (add_sender_sig C sk epk salt key) as [[s a]|x|q] eqn:A; try discriminate En.
    exact (sender_sig_any _ _ _ _ _ _ HC Hg A).
Qed.

Lemma with_output_ends W v m outfile tofile force body R : (forall w, ends (fst (body w)) R) -> ends (x_code (with_output W v m outfile tofile force body)) R.
Proof.
  intros H. unfold with_output. destruct tofile.
  - destruct (safe_open v (wo_fs W) (wo_place W outfile) force) as [u|x|p] eqn:S.
    + specialize (H (sf_sink v)). destruct (body (sf_sink v)) as [c w]. exact H.
    + right. left. reflexivity.
    + exfalso. unfold safe_open in S. destruct (content _ _); [destruct force|]; try destruct (se_open v); discriminate S.
  - specialize (H (wo_stdout W)). destruct (body (wo_stdout W)) as [c w]. exact H.
Qed.
Lemma ends_mono c (P Q : Prop) : (P -> Q) -> ends c P -> ends c Q.
Proof. unfold ends. tauto. Qed.
Lemma ends_1 (P : Prop) : ends 1 P. Proof. right. left. reflexivity. Qed.

(** C56.  Whatever is encrypted, decrypted or signed, and whatever happens to the files: the commands end with status 0 or 1,
    unless one of the key files named on the command line is of a kind that makes its parser crash. *)
Theorem C56_encrypt_ends : forall C E W v o, crypto_ok C -> files_fit E W ->
  (forall s, match wo_size W s with Ok n => 0 <= n | Fail _ => True | Panic _ => False end) -> len (eo_args o) < 2^40 ->
  ends (x_code (cli_encrypt C E W v o))
    ((eo_keyfile o <> [] /\ bad_private E W (eo_nopw o) (eo_envpw o) (eo_keyfile o)) \/
     exists fn, In fn (removelast (eo_args o)) /\ ~ user_name fn /\ bad_public W fn).
Proof.
  intros C E W v o HC HF Hs Hl. unfold cli_encrypt. cbv zeta. specialize (Hs (eo_size o)). destruct (wo_size W (eo_size o)) as [blk|x|p]; [|apply ends_1|contradiction].
  assert (K : exists r, (if 0 <? len (eo_keyfile o) then sk <- read_private_key C E (slurp W (eo_keyfile o)) (Some (get_pass W (eo_nopw o) (eo_envpw o))) ;; Ok (Some sk) else Ok None) = r /\
    match r with Ok sk => good_sender sk | Fail _ => True | Panic _ => eo_keyfile o <> [] /\ bad_private E W (eo_nopw o) (eo_envpw o) (eo_keyfile o) end).
  { eexists. split; [reflexivity|]. destruct (0 <? len (eo_keyfile o)) eqn:B.
    - destruct (read_private_key C E _ _) as [sk|x|p] eqn:R; cbn [bind]; [|exact I|].
      + intros sk1 H1. injection H1 as <-. destruct (read_private_loaded _ _ _ _ _ R) as (skb & L & ->). exact L.
      + split; [apply len_pos; exact B|]. exact (private_crash _ _ _ _ _ _ _ HC HF R).
    - intros sk1 H1. discriminate H1. }
  destruct K as (r & Er & K). rewrite Er. clear Er. destruct r as [sk|x|p]; [|apply ends_1|right; right; split; [reflexivity|left; exact K]].
  destruct (len (eo_args o) <? 2); [apply ends_1|].
  assert (I : forall q, (if beq (last (eo_args o) []) (str "-") then Ok (wo_stdin W) else open_in W (last (eo_args o) [])) <> Panic q).
  { intros q. destruct (beq _ _); [discriminate|apply open_in_nopanic]. }
  destruct (if beq _ _ then _ else _) as [rd|x|q]; [|apply ends_1|exfalso; exact (I q eq_refl)].
  destruct (wo_home W) as [home|]; [|apply ends_1].
  assert (Go : forall authdata, ends (x_code match parse_authorized_keys C authdata with
     | Panic _ => mkOut 2 [] (wo_stdout W)
     | r => with_output W v (oct 6 0 0) (eo_outfile o) (names_file (eo_outfile o)) (eo_force o) (enc_body C E W (match r with Ok pka => pka | _ => [] end) sk blk (removelast (eo_args o)) rd)
     end) ((eo_keyfile o <> [] /\ bad_private E W (eo_nopw o) (eo_envpw o) (eo_keyfile o)) \/ exists fn, In fn (removelast (eo_args o)) /\ ~ user_name fn /\ bad_public W fn)).
  { intros a. destruct (parse_auth_total C a) as (ks & Ep). rewrite Ep. apply with_output_ends. intros w. apply (ends_mono _ (exists fn, In fn (removelast (eo_args o)) /\ ~ user_name fn /\ bad_public W fn)); [tauto|].
    apply enc_body_ends; try assumption.
    - intros pk Hi. exact (auth_key_32 _ _ _ _ Ep Hi).
    - clear -Hl. destruct (eo_args o) as [|a0 l]; [exact Hl|]. assert (len (removelast (a0 :: l)) <= len (a0 :: l)); [|lia].
      rewrite (app_removelast_last [] (l := a0 :: l)) at 2 by discriminate. unfold len. rewrite app_length. lia. }
  destruct (slurp W _) as [a|x|q] eqn:S; [apply Go| |exfalso; exact (slurp_nopanic _ _ _ S)]. destruct (not_exist x); [apply Go|apply ends_1].
Qed.
Print Assumptions C56_encrypt_ends.

Theorem C56_decrypt_ends : forall C E W v o, crypto_ok C -> files_fit E W ->
  ends (x_code (cli_decrypt C E W v o))
    ((exists keyfile more, do_args o = keyfile :: more /\ bad_private E W (do_nopw o) (do_envpw o) keyfile) \/
     (do_pubkey o <> [] /\ bad_public W (do_pubkey o))).
Proof.
  intros C E W v o HC HF. unfold cli_decrypt. cbv zeta. destruct (do_args o) as [|kf more]; [apply ends_1|].
  destruct (read_private_key C E _ _) as [sk|x|p] eqn:R; [|apply ends_1|].
  2: { right. right. split; [reflexivity|]. left. exists kf, more. split; [reflexivity|]. exact (private_crash _ _ _ _ _ _ _ HC HF R). }
  assert (K : exists r, (if 0 <? len (do_pubkey o) then pk <- read_public_key C E (slurp W (do_pubkey o)) ;; Ok (Some pk) else Ok None) = r /\
    match r with Ok pk => forall k, pk = Some k -> len (pk_Pk k) = 32 | Fail _ => True | Panic _ => do_pubkey o <> [] /\ bad_public W (do_pubkey o) end).
  { eexists. split; [reflexivity|]. destruct (0 <? len (do_pubkey o)) eqn:B.
    - destruct (read_public_key C E _) as [pk|x|p] eqn:R2; cbn [bind]; [|exact I|].
      + intros k Hk. injection Hk as <-. destruct (read_public_loaded _ _ _ _ R2) as (key & c & L & ->). exact L.
      + split; [apply len_pos; exact B|]. exact (public_crash _ _ _ _ _ HF R2).
    - intros k Hk. discriminate Hk. }
  destruct K as (r & Er & K). rewrite Er. clear Er. destruct r as [pk|x|p]; [|apply ends_1|right; right; split; [reflexivity|right; exact K]].
  assert (I : forall q, (match more with infile :: _ => if beq infile (str "-") then Ok (wo_stdin W) else open_in W infile | [] => Ok (wo_stdin W) end) <> Panic q).
  { intros q. destruct more as [|f ?]; [discriminate|]. destruct (beq _ _); [discriminate|apply open_in_nopanic]. }
  destruct (match more with infile :: _ => _ | [] => _ end) as [rd|x|q]; [|apply ends_1|exfalso; exact (I q eq_refl)].
  destruct (do_test o).
  - cbn [x_code]. destruct (dec_body_ends C sk pk rd (mkWriter [] [] [] 0) HC K) as [-> | ->]; [left; reflexivity|apply ends_1].
  - apply with_output_ends. intros w. destruct (dec_body_ends C sk pk rd w HC K) as [-> | ->]; [left; reflexivity|apply ends_1].
Qed.
Print Assumptions C56_decrypt_ends.

Theorem C56_sign_ends : forall C E W v o, crypto_ok C -> files_fit E W ->
  ends (x_code (cli_sign C E W v o)) (exists keyfile fn more, so_args o = keyfile :: fn :: more /\ bad_private E W (so_nopw o) (so_envpw o) keyfile).
Proof.
  intros C E W v o HC HF. unfold cli_sign. destruct (so_args o) as [|kn [|fn more]]; [apply ends_1|apply ends_1|]. cbv zeta.
  apply with_output_ends. intros w. unfold sign_body. destruct (read_private_key C E _ _) as [sk|x|p] eqn:R; [|apply ends_1|].
  - destruct (read_private_loaded _ _ _ _ _ R) as (skb & L & ->). unfold sign_file. destruct (file_cksum C (map_in W fn)) as [ck|x|p] eqn:K; cbn [bind]; [|apply ends_1|].
    + unfold sign_message, Ed_Sign. cbn [sk_Sk private_key_of]. rewrite L. cbn [negb Z.eqb Pos.eqb bind]. destruct (fullwrite _ w) as [? w1]. left. reflexivity.
    + exfalso. unfold file_cksum in K. destruct (map_in W fn) as [|win [e|]]; discriminate K.
  - right. right. split; [reflexivity|]. exists kn, fn, more. split; [reflexivity|]. exact (private_crash _ _ _ _ _ _ _ HC HF R).
Qed.
Print Assumptions C56_sign_ends.

Lemma write_file_ends v m f dst b ow : forall p, snd (write_file v m f dst b ow) <> Panic p.
Proof.
  intros p. unfold write_file. destruct (safe_open v f dst ow) as [u|x|q] eqn:S.
  - destruct (fullwrite b (sf_sink v)) as [[e|] w]; [cbn; discriminate|]. destruct (w_close w) as [[e|] w1]; cbn; discriminate.
  - cbn. discriminate.
  - exfalso. unfold safe_open in S. destruct (content _ _); [destruct ow|]; try destruct (se_open v); discriminate S.
Qed.
Theorem C56_generate_ends : forall C E W v1 v2 o, crypto_ok C -> ends (x_code (cli_generate C E W v1 v2 o)) False.
Proof.
  intros C E W v1 v2 o HC. unfold cli_generate. cbv zeta. destruct (ge_args o) as [|bn ?]; [apply ends_1|].
  destruct (negb (ge_force o) && _); [apply ends_1|]. destruct (get_pass W (ge_nopw o) (ge_envpw o)) as [pw|x|p] eqn:P; [|apply ends_1|exfalso; exact (pass_nopanic _ _ _ _ P)].
  destruct (rand_buf 32 (wo_rng W)) as [seed g]. unfold serialize_private, marshal_private. destruct (rand_buf 32 g) as [salt g1].
  pose proof (scrypt_cases C (sha512 C pw) salt scrypt_N scrypt_r scrypt_p) as S.
  destruct (scrypt_key C _ _ _ _ _) as [key|e|p]; [|apply ends_1|].
  - destruct S as (_ & ->). rewrite new_gcm_32 by apply (ok_scrypt_len C HC).
    match goal with |- context [write_file v1 ?m ?f ?d ?b ?ow] => pose proof (write_file_ends v1 m f d b ow) as N1; destruct (write_file v1 m f d b ow) as [ops1 [u|x|q]] end; cbn [snd] in N1; [|apply ends_1|exfalso; exact (N1 q eq_refl)].
    unfold serialize_public. match goal with |- context [write_file v2 ?m ?f ?d ?b ?ow] => pose proof (write_file_ends v2 m f d b ow) as N2; destruct (write_file v2 m f d b ow) as [ops2 [u2|x|q]] end; cbn [snd] in N2; [left; reflexivity|apply ends_1|exfalso; exact (N2 q eq_refl)].
  - exfalso. destruct S as (_ & [S|[(S & _)|(_ & _ & _ & S & _)]]); vm_compute in S; discriminate S.
Qed.
Print Assumptions C56_generate_ends.

(** Instances: a world with sound and with crashing key files *)
Definition bad_files : list (bytes * slot * bytes) := files ++ [(str "bad.key", 19, pem_of (str "abc")); (str "rsa.pub", 20, entryR)].
Definition bad_town : world := mk_world bad_files.
Lemma find_slot_in l s b : find_slot l s = Some b -> In b (map snd l).
Proof.
  induction l as [|[[n s'] b'] l IH]; cbn [find_slot map snd]; [discriminate|]. destruct (s =? s'); [intros H; injection H as <-; left; reflexivity|].
  intros H. right. exact (IH H).
Qed.
Lemma world_fits l : Forall (fun b => len b < 2^32) (map snd l) -> files_fit toyE (mk_world l).
Proof.
  intros HF p b (Hc & _). cbn [mk_world wo_fs wo_place] in Hc.
  assert (Hb : len b < 2^32).
  { unfold content, dir in Hc. cbn [follow f_node f_data] in Hc. destruct (find_slot l (place_in l p)) as [b'|] eqn:F; [|discriminate Hc].
    injection Hc as Hc. replace (place_in l p + 100 - 100) with (place_in l p) in Hc by lia. rewrite F in Hc. subst b'.
    rewrite Forall_forall in HF. apply HF. exact (find_slot_in _ _ _ F). }
  split; [exact Hb|]. intros blk Hp. cbn [toyE pem_decode] in Hp. unfold toy_pem in Hp. destruct (is_prefix pem_begin b); [|discriminate Hp].
  destruct (index_sub (str "-----END") (drop (len pem_begin) b)) as [i|]; [|discriminate Hp].
  destruct (decode_cases (take i (drop (len pem_begin) b))) as [(d & D & T)|((e & D) & _)]; rewrite D in Hp; [|discriminate Hp]. injection Hp as <-. cbn [pem_bytes pem_spare].
  split; [lia|]. apply text_len in T. pose proof (unbroken_len (take i (drop (len pem_begin) b))). pose proof (len_take_ub2 i (drop (len pem_begin) b)).
  change (len pem_begin) with 35 in *. rewrite len_drop_gen in * by lia. lia.
Qed.
Lemma bad_town_fits : files_fit toyE bad_town.
Proof.
  apply world_fits. apply Forall_forall. intros b Hb.
  assert (X : forallb (fun b => len b <? 2^32) (map snd bad_files) = true) by (vm_compute; reflexivity).
  apply (proj1 (forallb_forall _ _) X) in Hb. lia.
Qed.
Example C56_instance :
  (* a crash because of the key file; of the -v key; a garbled input is no crash; a recipient's key *)
  x_code (cli_decrypt toy toyE bad_town sf1 (mkDo (str "out") [] [] true false true [str "bad.key"; str "anon"])) = 2 /\
  bad_private toyE bad_town true [] (str "bad.key") /\
  x_code (cli_decrypt toy toyE bad_town sf1 (mkDo (str "out") (str "rsa.pub") [] true false true [str "a.key"; str "anon"])) = 2 /\
  x_code (cli_decrypt toy toyE bad_town sf1 (mkDo (str "out") [] [] true false true [str "a.key"; str "a.pub"])) = 1 /\
  x_code (cli_encrypt toy toyE bad_town sf1 (mkEo (str "out") [] (str "4") [] true true [str "rsa.pub"; str "plain"])) = 2 /\
  x_code (cli_sign toy toyE bad_town sf1 (mkSo (str "out") [] true true [str "bad.key"; str "plain"])) = 2 /\
  x_code (cli_sign toy toyE bad_town sf1 (mkSo (str "out") [] true true [str "a.key"; str "plain"])) = 0.
Proof.
  split; [vm_compute; reflexivity|]. split.
  { exists (pem_of (str "abc")), (Ok []). split; [split; vm_compute; reflexivity|]. split; [reflexivity|]. left. split.
    - apply looks_text. vm_compute. reflexivity.
    - exists (mkPem (str "OPENSSH PRIVATE KEY") false (str "abc") 0). split; [vm_compute; reflexivity|]. split; [reflexivity|]. split; [reflexivity|]. left. reflexivity. }
  split; [vm_compute; reflexivity|]. split; [vm_compute; reflexivity|]. split; [vm_compute; reflexivity|]. split; [vm_compute; reflexivity|]. vm_compute; reflexivity.
Qed.
