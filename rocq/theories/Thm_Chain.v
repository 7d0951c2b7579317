(** Two commands one after the other (C51, C52), and key strings (C53, C54). *)
From Verif Require Import Bytes BytesLemmas GoErr GoIO SpecIO IOProofs Pb SpecPb Crypto CryptoLaws Keys Sign SpecSign Encrypt Decrypt Spec Support EncryptProofs DecryptProofs OpenProofs Hostile
  KeyFiles ExtLaws Base64 GoText Ssh SpecSsh SshProofs SpecBase64 Base64Proofs FreeProofs Fs SpecFs FsProofs Store Cli SpecCli CliProofs Thm_Encrypt Thm_Decrypt Thm_Sign Thm_Ssh Toy Scene ToyExt Thm_KeyFiles CliScene Thm_Cli Thm_Commands.
Require Import ZifyBool.
Ltac Zify.zify_post_hook ::= Z.div_mod_to_equations.
Local Notation length := List.length.

(** ** C52: what sign signs, verify verifies *)
Lemma loaded_named C key c pk : loaded C key c pk -> named C pk.
Proof. intros ->. reflexivity. Qed.
Lemma key_named C E W p pk : key_arg C E W p pk -> named C pk.
Proof.
  intros [H|(_ & b & _ & H)].
  - unfold make_public_from_string in H. destruct (parse_enc_pubkey C p (str "command-line-pk")) as [r|e|w] eqn:P; [| |discriminate H].
    + injection H as ->. apply parse_enc_inv in P. destruct P as (key & _ & _ & ->). reflexivity.
    + destruct (b64_decode p) as [k| |]; try discriminate H. cbn [bind] in H. destruct (make_public_from_bytes C zero_pub k) as [q| |] eqn:M; cbn [bind] in H; try discriminate H. injection H as <-.
      exact (proj2 (proj2 (C30_key_objects_named C)) _ _ _ M).
  - apply make_public_loaded in H. destruct H as (key & c & _ & H). eapply loaded_named. exact H.
Qed.
Lemma private_named C E W nopw envpw p sk : private_in C E W nopw envpw p sk -> named C (sk_pk sk).
Proof. intros H. apply private_ok in H. apply read_private_loaded in H. destruct H as (skb & _ & ->). reflexivity. Qed.
(** After sign (exit 0, no I/O errors on the signature file), verify with the matching public key - as a file or as a
    string - the signature file and the same input exits 0.  The signature file must not be the input itself. *)
Theorem C52_sign_then_verify :
  forall C E, crypto_ok C -> forall W v o kn fn more seed K pk, so_args o = kn :: fn :: more -> sig_file o fn <> str "-" ->
  let f := wo_fs W in let S := wo_place W (sig_file o fn) in fresh v f S ->
  Forall (fun p => snd p = None) (se_writes v) -> close_err v = None -> wo_refused W (sig_file o fn) = None -> yaml_keeps E (str "input=" ++ fn) ->
  wo_place W fn <> se_tmp v -> ~ leads f S (wo_place W fn) ->
  (forall sk, private_in C E W (so_nopw o) (so_envpw o) kn sk -> keypair C seed sk) ->
  let x := cli_sign C E W v o in let W' := after W (x_ops x) in
  x_code x = 0 -> key_arg C E W' K pk -> pubof C seed pk ->
  cli_verify C E W' [K; sig_file o fn; fn] = 0.
Proof.
  intros C E HC W v o kn fn more seed K pk Ha Hout f S Hf Hw Hcl Href HY Hnt Hnl Hkp x W' Hx HK Hpk.
  destruct (C49_sign_partial C E W v o kn fn more Ha Hout Hf) as (_ & _ & H). destruct (H Hx) as (sk & s & c & Hk & (b & (Hb & Hr) & Hh) & (Hs1 & Hs2) & _ & R). specialize (R Hw Hcl). fold x in R. destruct R as (R1 & R2).
  apply C47_verify_exact. exists K, (sig_file o fn), fn, [], pk, s, c. split; [reflexivity|]. split; [exact HK|]. split; [|split].
  - exists (marshal_signature E s (str "input=" ++ fn)), zero_sig. split; [split; [exact R1|exact Href]|]. apply C32_signature_round_trip. exact HY.
  - exists b. split; [split; [|exact Hr]|exact Hh]. cbn [W' after wo_fs wo_place]. rewrite <- Hb. apply R2; assumption.
  - pose proof (key_named _ _ _ _ _ HK) as N1. pose proof (private_named _ _ _ _ _ _ _ Hk) as N2. specialize (Hkp _ Hk). destruct Hkp as [Ks Ksk Kpk _]. destruct Hpk as [_ Ppk _].
    split; [rewrite Hs2, N1, N2, Kpk, Ppk; reflexivity|]. split; [rewrite Hs1; apply (ok_sign_len C HC)|]. rewrite Hs1, Ppk, Ksk. apply (ok_verify_sign C HC). exact Ks.
Qed.
Print Assumptions C52_sign_then_verify.

(** the instance: sign -E PW s.key plain, then verify with s.pub and with the key as a string *)
Lemma town_skeyS sk : private_in toy toyE town false (str "PW") (str "s.key") sk -> keypair toy seedS sk.
Proof.
  intros H. apply private_ok in H. revert H. vm_compute (read_private_key _ _ _ _). intros H. assert (sk = private_key_of toy (sk_Sk skS)) as -> by (injection H as <-; vm_compute; reflexivity).
  constructor; try (vm_compute; reflexivity). left. reflexivity.
Qed.
Definition keyS : pubkey := mkPub (pk_Pk pkS) [] None (pk_hash pkS).
Lemma keyS_of : pubof toy seedS keyS.
Proof. constructor; try (vm_compute; reflexivity). left. reflexivity. Qed.
Lemma keyS_file : key_arg toy toyE signed_town (str "s.pub") keyS.
Proof. right. split; [eexists; vm_compute; reflexivity|]. apply public_ok. vm_compute. reflexivity. Qed.
Lemma keyS_string : key_arg toy toyE signed_town (b64_encode (pk_Pk pkS)) keyS.
Proof. left. vm_compute. reflexivity. Qed.
Lemma sign1_code : x_code (cli_sign toy toyE town sf1 sign1) = 0.
Proof. vm_compute. reflexivity. Qed.
Example C52_instance :
  forall K, K = str "s.pub" \/ K = b64_encode (pk_Pk pkS) -> cli_verify toy toyE signed_town [K; sig_file sign1 (str "plain"); str "plain"] = 0.
Proof.
  intros K HK. apply (C52_sign_then_verify toy toyE toy_ok town sf1 sign1 (str "s.key") (str "plain") [] seedS K keyS); [reflexivity|discriminate| | |reflexivity|reflexivity|apply toyE_keeps| | | | | |exact keyS_of].
  - apply town_fresh; vm_compute; congruence.
  - repeat constructor.
  - vm_compute. discriminate.
  - intros L. apply dir_leads in L. revert L. vm_compute. discriminate.
  - exact town_skeyS.
  - exact sign1_code.
  - destruct HK as [->| ->]; [exact keyS_file|exact keyS_string].
Qed.

(** ** C51: what encrypt encrypts, decrypt decrypts *)
(** encrypt -o F (exit 0, in world W); afterwards a recipient, with the sender's public key if it was signed, decrypts F:
    exit 0, and the output file holds the original input. *)
Theorem C51_encrypt_then_decrypt :
  forall C E, crypto_ok C -> forall W v o to infile s, read_whole W -> eo_args o = to ++ [infile] -> infile <> str "-" -> file_holds W infile s ->
  a_file (eo_outfile o) -> let f := wo_fs W in let F := wo_place W (eo_outfile o) in fresh v f F -> wo_refused W (eo_outfile o) = None ->
  len to <= 15885 -> (forall blk, wo_size W (eo_size o) = Ok blk -> 0 <= blk < 2^30) ->
  let x := cli_encrypt C E W v o in let W' := after W (x_ops x) in
  x_code x = 0 ->
  forall v' o' keyfile more fn seed sk spk,
  do_args o' = keyfile :: eo_outfile o :: more -> do_test o' = false -> a_file (do_outfile o') ->
  let f' := wo_fs W' in let G := wo_place W' (do_outfile o') in fresh v' f' G ->
  do_force o' = true \/ content f' G = None -> se_open v' = None -> Forall (fun p => snd p = None) (se_writes v') -> close_err v' = None ->
  private_in C E W' (do_nopw o') (do_envpw o') keyfile sk -> keypair C seed sk ->
  opt_arg (public_in C E W') (do_pubkey o') spk ->
  (forall ssk, opt_arg (private_in C E W (eo_nopw o) (eo_envpw o)) (eo_keyfile o) ssk -> sender_matches C ssk spk) ->
  In fn to -> (forall pk, recipient C E W fn pk -> pubof C seed pk) ->
  (forall ssk blk pks e g, opt_arg (private_in C E W (eo_nopw o) (eo_envpw o)) (eo_keyfile o) ssk -> wo_size W (eo_size o) = Ok blk ->
     Forall2 (recipient C E W) to pks -> session C ssk blk pks (wo_rng W) e g -> no_accident C (e_hdr e) seed (e_key e)) ->
  let y := cli_decrypt C E W' v' o' in x_code y = 0 /\ replaced v' G s f' (run_ops f' (x_ops y)).
Proof.
  intros C E HC W v o to infile s HW Ha Hin Hs Ho f F Hf Href Hto Hblk x W' Hx v' o' keyfile more fn seed sk spk Ha' Ht' Ho' f' G Hf' Hov Hop Hwr Hcl Hk Hkp Hspk Hsm Hfn Hrc Hna y.
  destruct (C48_encrypt_exact C E W v o Ho Hf) as (_ & H). destruct (H Hx) as (to2 & in2 & blk & ssk & pks & rd & e & g' & e2 & rd2 & out & g2 & Ea & Eb & Hsk & Hr & Hne & Hi & Hss & Henc & _ & (R1 & _)).
  rewrite Ha in Ea. apply app_inj_tail in Ea. destruct Ea as (<- & <-). fold x in R1.
  assert (Hd : delivers rd s IoEOF). { destruct Hi as [(Hi & _)|(_ & b & (Hb & _) & ->)]; [contradiction|]. destruct Hs as (Hs & _). rewrite Hs in Hb. injection Hb as <-. apply HW. }
  assert (Hp : exists pk, In pk pks /\ recipient C E W fn pk). { clear -Hr Hfn. induction Hr as [|a pk to pks R Hr IH]; [contradiction|]. destruct Hfn as [->|Hfn]; [exists pk; split; [left; reflexivity|exact R]|]. destruct (IH Hfn) as (q & A & B). exists q. split; [right; exact A|exact B]. }
  destruct Hp as (pk & Hpin & Hprc).
  assert (Hlen : len pks <= 15885). { replace (len pks) with (len to); [exact Hto|]. clear -Hr. induction Hr; [reflexivity|]. rewrite !len_cons, IHHr. reflexivity. }
  set (rd' := wo_pieces W (eo_outfile o) (w_out out)). assert (Hd' : delivers rd' (w_out out) IoEOF) by apply HW.
  destruct (C01_encrypt_decrypt_round_trip C HC ssk blk pks (wo_rng W) e g' (Hblk _ Eb) Hlen Hss rd s sink e2 rd2 out g2 Hd eq_refl Henc seed pk sk spk Hpin (Hrc _ Hprc) Hkp (Hsm _ Hsk) (Hna _ _ _ _ _ Hsk Eb Hr Hss) rd' sink Hd')
    as (d & Hod & _ & d' & out' & Hdec & Hout'); [split; constructor|].
  assert (Hi' : input_is W' (hd (str "-") (eo_outfile o :: more)) rd').
  { right. cbn [hd]. split; [apply Ho|]. exists (w_out out). split; [split; [exact R1|exact Href]|reflexivity]. }
  assert (Hy : x_code y = 0). { eapply (C45_decrypt_succeeds C E W' v' o' keyfile (eo_outfile o :: more) sk spk rd' d); eauto. }
  split; [exact Hy|]. destruct (C45_decrypt_to_file_partial C E W' v' o' Ho' Ht' Hf') as (_ & HH).
  destruct (HH Hy) as (kf & mo & sk2 & pk2 & rd3 & d3 & d4 & out3 & Ea3 & Hk3 & Hp3 & Hi3 & Hod3 & Hdec3 & R3 & _). destruct (R3 Hcl) as (_ & R4). fold y in R4.
  rewrite Ha' in Ea3. injection Ea3 as <- <-.
  assert (sk2 = sk) as -> by (apply private_ok in Hk; apply private_ok in Hk3; congruence).
  assert (pk2 = spk) as ->. { destruct spk as [a|], pk2 as [b|]; cbn in Hspk, Hp3; [|destruct Hspk; contradiction|destruct Hp3; contradiction|reflexivity]. destruct Hspk as (_ & A). destruct Hp3 as (_ & B). apply public_ok in A. apply public_ok in B. congruence. }
  assert (rd3 = rd') as -> by (apply input_ok in Hi'; apply input_ok in Hi3; congruence).
  assert (d3 = d) as ->. { destruct Hod as (a & b & c & A1 & A2). destruct Hod3 as (a' & b' & c' & B1 & B2). congruence. }
  assert (w_out out3 = s) as E3 by (cbn [app w_out sink] in Hout'; congruence).
  rewrite E3 in R4. exact R4.
Qed.
Print Assumptions C51_encrypt_then_decrypt.
(** the instance: encrypt -s s.key -B 4 -o out a.pub bob@host plain, then decrypt --no-password -v s.pub -o out2 a.key out *)
Definition town1 : world := after town (x_ops (cli_encrypt toy toyE town sf1 enc1)).
Definition dec2 : dec_opts := dec_from (str "out") (str "out2") (str "s.pub") false.
Lemma town_rcp fn pk : recipient toy toyE town fn pk -> lookup toy toyE town [mkPub (pk_Pk pkB) (str "bob@host") None (pk_hash pkB)] fn = Ok pk.
Proof. apply lookup_ok. exact town_auth. Qed.
Lemma town_skey ssk : opt_arg (private_in toy toyE town (eo_nopw enc1) (eo_envpw enc1)) (eo_keyfile enc1) ssk -> ssk = Some (private_key_of toy (sk_Sk skS)).
Proof.
  destruct ssk as [k|]; intros H; [|discriminate H]. destruct H as (_ & H). apply private_ok in H. revert H. vm_compute (read_private_key _ _ _ _). intros H. injection H as <-. vm_compute. reflexivity.
Qed.
Definition keyA : pubkey := mkPub (pk_Pk pkA) [] None (pk_hash pkA).
Definition keyB : pubkey := mkPub (pk_Pk pkB) (str "bob@host") None (pk_hash pkB).
Lemma town_pks pks : Forall2 (recipient toy toyE town) [str "a.pub"; str "bob@host"] pks -> pks = [keyA; keyB].
Proof.
  intros H. inversion H as [|a k1 b l1 R1 H1 E1 E2]; subst. inversion H1 as [|a k2 b l2 R2 H2 E1 E2]; subst. inversion H2; subst. clear H H1 H2.
  apply town_rcp in R1, R2. revert R1 R2. vm_compute (lookup _ _ _ _ _). intros R1 R2. injection R1 as <-. injection R2 as <-. vm_compute. reflexivity.
Qed.
Lemma town_na ssk blk pks e g : opt_arg (private_in toy toyE town (eo_nopw enc1) (eo_envpw enc1)) (eo_keyfile enc1) ssk -> wo_size town (eo_size enc1) = Ok blk ->
  Forall2 (recipient toy toyE town) [str "a.pub"; str "bob@host"] pks -> session toy ssk blk pks (wo_rng town) e g -> no_accident toy (e_hdr e) seedA (e_key e).
Proof.
  intros H1 H2 H3 (e0 & g2 & Hn & Ha). apply town_skey in H1. subst ssk. assert (blk = 4) as -> by (revert H2; vm_compute; congruence). apply town_pks in H3. subst pks.
  assert (M : mk_session (Some (private_key_of toy (sk_Sk skS))) 4 [keyA; keyB] = Some (e, g)) by (unfold mk_session; change (wo_rng town) with g0 in Hn; rewrite Hn; exact Ha).
  assert (X : option_map (fun p => (e_hdr (fst p), e_key (fst p))) (mk_session (Some (private_key_of toy (sk_Sk skS))) 4 [keyA; keyB]) = Some (e_hdr e1, e_key e1)) by (vm_compute; reflexivity).
  rewrite M in X. cbn [option_map fst] in X. injection X as -> ->. exact na1A.
Qed.
Lemma town1_akey : private_in toy toyE town1 true [] (str "a.key") (private_key_of toy (sk_Sk skA)).
Proof. apply private_ok. vm_compute. reflexivity. Qed.

Lemma c51_spub : opt_arg (public_in toy toyE town1) (do_pubkey dec2) (Some (mkPub (pk_Pk pkS) [] None (pk_hash pkS))).
Proof. split; [discriminate|]. apply public_ok. vm_compute. reflexivity. Qed.
Lemma c51_sender ssk : opt_arg (private_in toy toyE town (eo_nopw enc1) (eo_envpw enc1)) (eo_keyfile enc1) ssk -> sender_matches toy ssk (Some (mkPub (pk_Pk pkS) [] None (pk_hash pkS))).
Proof. 
 intros H. apply town_skey in H. subst ssk. exists seedS, (mkPub (pk_Pk pkS) [] None (pk_hash pkS)). split; [|split; [reflexivity|]].
    + constructor; try (vm_compute; reflexivity). left. reflexivity.
    + constructor; try (vm_compute; reflexivity). left. reflexivity.
Qed.
Lemma c51_rcp pk : recipient toy toyE town (str "a.pub") pk -> pubof toy seedA pk.
Proof. intros H. apply town_rcp in H. revert H. vm_compute (lookup _ _ _ _ _). intros H. injection H as <-. constructor; try (vm_compute; reflexivity). left. reflexivity. Qed.
Lemma c51_free : content (wo_fs town1) (wo_place town1 (do_outfile dec2)) = None.
Proof. vm_compute. reflexivity. Qed.
Lemma c51_code : x_code (cli_encrypt toy toyE town sf1 enc1) = 0. Proof. vm_compute; reflexivity. Qed.
Lemma c51_fresh : fresh sf1 (wo_fs town) (wo_place town (str "out")). Proof. apply town_fresh; vm_compute; congruence. Qed.
Lemma c51_ops : exists b, x_ops (cli_encrypt toy toyE town sf1 enc1) = commit_ops sf1 (oct 6 0 0) (wo_place town (str "out")) b. Proof. eexists; vm_compute; reflexivity. Qed.
Lemma c51_fresh2 : fresh sf2 (wo_fs town1) (wo_place town1 (str "out2")).
Proof.  destruct c51_ops as (b & Hb). unfold town1. rewrite Hb. apply F2'; [exact c51_fresh|apply town_fresh; vm_compute; congruence|vm_compute; discriminate..]. Qed.
Lemma c51_input : file_holds town (str "plain") text.
Proof. split; vm_compute; reflexivity. Qed.
Lemma c51_may : wo_refused town (eo_outfile enc1) = None. Proof. vm_compute; reflexivity. Qed.
 Lemma c51_blk : forall blk, wo_size town (eo_size enc1) = Ok blk -> 0 <= blk < 2^30.
 Proof. intros blk H. assert (blk = 4) as -> by (revert H; vm_compute; congruence). split; [discriminate|reflexivity]. Qed.
Lemma c51_two : len [str "a.pub"; str "bob@host"] <= 15885. Proof. vm_compute. discriminate. Qed.
Lemma c51_nostdin : str "plain" <> str "-". Proof. vm_compute. discriminate. Qed.
Lemma c51_file : a_file (eo_outfile enc1). Proof. split; vm_compute; discriminate. Qed.
Lemma c51_args : eo_args enc1 = [str "a.pub"; str "bob@host"] ++ [str "plain"]. Proof. reflexivity. Qed.
Definition c51_a := C51_encrypt_then_decrypt toy toyE toy_ok town sf1 enc1 [str "a.pub"; str "bob@host"] (str "plain") text town_whole c51_args c51_nostdin c51_input c51_file.
Definition c51_b := c51_a c51_fresh c51_may c51_two c51_blk c51_code.
 Example C51_instance :
  let x := cli_encrypt toy toyE town sf1 enc1 in let y := cli_decrypt toy toyE (after town (x_ops x)) sf2 dec2 in
  x_code y = 0 /\
  replaced sf2 (wo_place (after town (x_ops x)) (str "out2")) text (wo_fs (after town (x_ops x))) (run_ops (wo_fs (after town (x_ops x))) (x_ops y)).
Proof.
  pose proof c51_b as H. cbv zeta in *. 
 specialize (H sf2 dec2 (str "a.key") [] (str "a.pub") seedA  (private_key_of toy (sk_Sk skA)) (Some (mkPub (pk_Pk pkS) [] None (pk_hash pkS)))).
 apply H; clear H.
 - reflexivity.
 - reflexivity.
 - split; discriminate.
 - exact c51_fresh2.
 - right. exact c51_free.
 - reflexivity.
 - constructor.
 - reflexivity.
 - exact town1_akey.
 - exact akey_pair.
 - exact c51_spub.
 - exact c51_sender.
 - left; reflexivity.
 - exact c51_rcp.
 - exact town_na.
Qed.

(** ** C54: public keys given as strings *)
(** MakePublicKeyFromString gives a key exactly if the string is base64 either of an OpenSSH Ed25519 blob or of 32 bytes
    that do not look like the blob of another key type; and then it is that key. *)
Theorem C54_string_exact :
  forall C s pk, len s < 2^32 -> (make_public_from_string C s = Ok (Some pk) <->
  exists blob, b64_text (unbroken s) blob /\
    ((exists key, len key = 32 /\ blob = wire_key key /\ loaded C key (str "command-line-pk") pk) \/
     (len blob = 32 /\ ~ foreign_blob blob /\ loaded C blob [] pk))).
Proof.
  intros C s pk Hs. destruct (C36_public_panics_exactly C toyE zero_pub s Hs) as (_ & _ & Hnone). split.
  - intros H. assert (Hn : ~ exists blob, b64_text (unbroken s) blob /\ foreign_blob blob) by (intros X; apply Hnone in X; congruence).
    unfold make_public_from_string in H. destruct (parse_enc_pubkey C s (str "command-line-pk")) as [r|e|w] eqn:P; [| |discriminate H].
    + injection H as ->. apply blob_exact in P. destruct P as (key & H1 & H2 & H3). exists (wire_key key). split; [exact H2|]. left. exists key. auto.
    + destruct (b64_decode s) as [k| |] eqn:D; try discriminate H. cbn [bind] in H. apply C40_decode_exact in D. unfold make_public_from_bytes in H.
      destruct (Z.eqb_spec (len k) 32) as [L|]; cbn [negb bind] in H; [|discriminate H]. injection H as <-. exists k. split; [exact D|]. right. split; [exact L|]. split; [|reflexivity]. intros F. apply Hn. eauto.
  - intros (blob & T & [(key & Hk & -> & Hl)|(Hb & Hf & Hl)]).
    + unfold make_public_from_string. assert (P : parse_enc_pubkey C s (str "command-line-pk") = Ok (Some pk)) by (apply blob_exact; exists key; auto). rewrite P. reflexivity.
    + unfold make_public_from_string. destruct (parse_enc_pubkey C s (str "command-line-pk")) as [[r|]|e|w] eqn:P.
      * apply blob_exact in P. destruct P as (key & H1 & H2 & _). assert (E : blob = wire_key key) by (eapply b64_text_fun; eassumption). apply (f_equal len) in E. unfold wire_key in E. rewrite len_app, !len_S4, Hb, H1 in E. discriminate E.
      * apply parse_enc_none in P. destruct P as (b' & T' & F). assert (b' = blob) as -> by (eapply b64_text_fun; eassumption). contradiction.
      * apply C40_decode_exact in T. rewrite T. cbn [bind]. unfold make_public_from_bytes. rewrite Hb. cbn [Z.eqb Pos.eqb negb bind]. rewrite Hl. reflexivity.
      * exfalso. exact (parse_enc_no_panic _ _ _ _ P).
Qed.
Print Assumptions C54_string_exact.
(** The string of a public key - the base64 that a public key file shows in its "pk" field - means that key, unless the key's first four
    bytes, as a big-endian number, are at most 28 (and then it is not "ssh-ed25519"). *)
Theorem C54_round_trip_partial :
  forall C key, len key = 32 -> 28 < unbe32 key -> exists pk, make_public_from_string C (b64_encode key) = Ok (Some pk) /\ loaded C key [] pk.
Proof.
  intros C key Hk Hb. eexists. split; [|reflexivity]. apply C54_string_exact.
  - rewrite len_b64_encode, Hk. reflexivity.
  - exists key. split; [rewrite (b64_text_unbroken _ _ (b64_encode_text _)); apply b64_encode_text|]. right. split; [exact Hk|]. split; [|reflexivity].
    intros (algo & rest & -> & _ & Ha). rewrite len_app, len_S4 in Hk. pose proof (len_nonneg rest). unfold S4 in Hb. rewrite <- app_assoc, unbe32_be32 in Hb. pose proof (len_nonneg algo). rewrite Z.mod_small in Hb by lia. lia.
Qed.
Print Assumptions C54_round_trip_partial.
(** Refuted in general: for a key that starts with four zero bytes, there is neither a key nor an error. *)
Theorem C54_refuted : forall C rest, len rest = 28 -> make_public_from_string C (b64_encode (zeros 4 ++ rest)) = Ok None.
Proof.
  intros C rest Hr. apply (C36_public_panics_exactly C toyE zero_pub).
  - rewrite len_b64_encode, len_app, Hr. reflexivity.
  - exists (zeros 4 ++ rest). split; [rewrite (b64_text_unbroken _ _ (b64_encode_text _)); apply b64_encode_text|]. exists [], rest. split; [reflexivity|]. split; [discriminate|reflexivity].
Qed.
Print Assumptions C54_refuted.
Example C54_instance :
  (len (pk_Pk pkS) = 32 /\ (28 <? unbe32 (pk_Pk pkS)) = true /\ make_public_from_string toy (b64_encode (pk_Pk pkS)) = Ok (Some keyS)) /\
  (exists pk, make_public_from_string toy (b64_encode (wire_key (pk_Pk pkS))) = Ok (Some pk) /\ pk_Pk pk = pk_Pk pkS) /\
  (exists e, make_public_from_string toy (str "s.pub") = Fail e).
Proof.
  split; [split; [vm_compute; reflexivity|split; vm_compute; reflexivity]|]. split; [eexists; split; vm_compute; reflexivity|eexists; vm_compute; reflexivity].
Qed.

(** ** C53: verify ends with a verdict *)
(** verify exits with 0, 1 or (a crash) 2; and 2 exactly if the key argument is base64 of a key blob of another type and
    the signature file can be read, or else is not a key string but a file with an OpenSSH key line of another type. *)
Theorem C53_crash_exactly_partial :
  forall C E W args, (forall K b, hd_error args = Some K -> len K < 2^32 /\ (file_holds W K b -> len b < 2^32)) ->
  (cli_verify C E W args = 0 \/ cli_verify C E W args = 1 \/ cli_verify C E W args = 2) /\
  (cli_verify C E W args = 2 <-> exists K S F more, args = K :: S :: F :: more /\
    ((exists blob s, b64_text (unbroken K) blob /\ foreign_blob blob /\ signature_in E W S s) \/
     ((exists e, make_public_from_string C K = Fail e) /\
      exists b k t c blob, file_holds W K b /\ three_fields b k t c /\ b64_text (unbroken t) blob /\ foreign_blob blob))).
Proof.
  intros C E W args Hsz. unfold cli_verify, verify_with. destruct args as [|K [|S [|F more]]]; try (split; [auto|]; split; [discriminate|]; intros (K' & S' & F' & m & X & _); discriminate X).
  destruct (Hsz K [] eq_refl) as (HK & _). assert (Hb : forall b, file_holds W K b -> len b < 2^32) by (intros b; apply (Hsz K b eq_refl)). clear Hsz.
  destruct (C36_public_panics_exactly C E zero_pub K HK) as (_ & _ & Hnone0).
  assert (Hnone : forall r, make_public_from_string C K = r -> (r = Ok None <-> exists blob, b64_text (unbroken K) blob /\ foreign_blob blob)) by (intros r <-; exact Hnone0). clear Hnone0.
  assert (RS : forall r w, read_signature E (slurp W S) = r -> r <> Panic w).
  { intros r w <-. unfold read_signature, slurp, read_file. destruct (content _ _) as [b|]; [destruct (wo_refused W S)|]; cbn [bind]; try discriminate. unfold unmarshal_signature.
    destruct (y_sig E b) as [ss|]; [|discriminate]. destruct (b64_decode (ss_sig ss)) as [a|e|x] eqn:D; [|discriminate|revert D; unfold b64_decode; destruct (b64_dec _ _); discriminate].
    destruct (b64_decode (ss_pkhash ss)) as [a'|e|x] eqn:D'; [discriminate|discriminate|revert D'; unfold b64_decode; destruct (b64_dec _ _); discriminate]. }
  assert (RP : forall r w, read_public_key C E (slurp W K) = r -> (r = Panic w <-> exists b pk, file_holds W K b /\ unmarshal_public C E zero_pub b = (pk, Panic w))).
  { intros r w <-. unfold read_public_key, slurp, read_file, file_holds. destruct (content _ _) as [b|]; [destruct (wo_refused W K)|]; cbn [bind].
    - split; [discriminate|intros (b' & pk & (_ & X) & _); discriminate X].
    - unfold make_public_key. destruct (unmarshal_public C E zero_pub b) as [pk [[]|e|x]] eqn:U; (split; [intros X; try discriminate X|intros (b' & pk' & (X & _) & U'); injection X as <-; congruence]).
      injection X as ->. exists b, pk. auto.
    - split; [discriminate|intros (b' & pk & (X & _) & _); discriminate X]. }
  destruct (make_public_from_string C K) as [[pk|]|e|w] eqn:M.
  - assert (L : len (pk_Pk pk) = 32) by (eapply string_loaded; exact M).
    assert (NP : forall r, r = (match read_signature E (slurp W S) with Ok sig => if negb (is_pk_match sig pk) then 1 else match verify_file C pk (map_in W F) sig with Ok true => 0 | Ok false => 1 | r => code_of r end | r => code_of r end) -> r = 0 \/ r = 1).
    { intros r ->. destruct (read_signature E (slurp W S)) as [sg|e|w] eqn:R; [|right; reflexivity|exfalso; exact (RS _ w eq_refl eq_refl)]. destruct (negb _); [auto|].
      destruct (file_in_cases (map_in W F)) as [(c & Hc)|Hu].
      - unfold verify_file. rewrite (file_cksum_holds C _ _ Hc). cbn [bind]. unfold verify_message, Ed_Verify. rewrite L. cbn [Z.eqb Pos.eqb negb bind]. match goal with |- context [if ?b then 0 else 1] => destruct b end; auto.
      - unfold verify_file, file_cksum. destruct (map_in W F) as [e|ws [e|]]; cbn [bind code_of]; auto. contradiction Hu; reflexivity. }
    specialize (NP _ eq_refl). split; [tauto|]. split; [intros X; rewrite X in NP; destruct NP as [NP|NP]; discriminate NP|].
    intros (K' & S' & F' & m & X & [(blob & s & T & Fb & _)|((e & X2) & _)]); injection X as <- <- <- <-.
    + exfalso. enough (X : make_public_from_string C K = Ok None) by congruence. rewrite M. apply (Hnone _ eq_refl). eauto.
    + congruence.
  - destruct (read_signature E (slurp W S)) as [sg|e|w] eqn:R; [| |exfalso; exact (RS _ w eq_refl eq_refl)].
    + split; [auto|]. split; [|reflexivity]. intros _. destruct (proj1 (Hnone _ eq_refl) eq_refl) as (blob & T & Fb). apply read_sig_ok in R. exists K, S, F, more. split; [reflexivity|]. left. exists blob, sg. auto.
    + cbn [code_of]. split; [auto|]. split; [discriminate|]. intros (K' & S' & F' & m & X & [(blob & s & _ & _ & Hs)|((e' & X2) & _)]); injection X as <- <- <- <-; [|congruence]. apply read_sig_ok in Hs. congruence.
  - destruct (read_public_key C E (slurp W K)) as [pk|e'|w] eqn:P; cbn [bind].
    + assert (L : len (pk_Pk pk) = 32). { apply public_ok in P. destruct P as (b & _ & P). apply make_public_loaded in P. destruct P as (key & c & L & ->). exact L. }
      assert (NP : forall r, r = (match read_signature E (slurp W S) with Ok sig => if negb (is_pk_match sig pk) then 1 else match verify_file C pk (map_in W F) sig with Ok true => 0 | Ok false => 1 | r => code_of r end | r => code_of r end) -> r = 0 \/ r = 1).
      { intros r ->. destruct (read_signature E (slurp W S)) as [sg|x|w] eqn:R; [|right; reflexivity|exfalso; exact (RS _ w eq_refl eq_refl)]. destruct (negb _); [auto|].
        destruct (file_in_cases (map_in W F)) as [(c & Hc)|Hu].
        - unfold verify_file. rewrite (file_cksum_holds C _ _ Hc). cbn [bind]. unfold verify_message, Ed_Verify. rewrite L. cbn [Z.eqb Pos.eqb negb bind]. match goal with |- context [if ?b then 0 else 1] => destruct b end; auto.
        - unfold verify_file, file_cksum. destruct (map_in W F) as [x|ws [x|]]; cbn [bind code_of]; auto. contradiction Hu; reflexivity. }
      specialize (NP _ eq_refl). split; [tauto|]. split; [intros X; rewrite X in NP; destruct NP as [NP|NP]; discriminate NP|].
      intros (K' & S' & F' & m & X & [(blob & s & T & Fb & _)|(_ & b & k & t & c & blob & Hf & H3)]); injection X as <- <- <- <-.
      * exfalso. enough (X : make_public_from_string C K = Ok None) by congruence. rewrite M. apply (Hnone _ eq_refl). eauto.
      * exfalso. destruct (C36_public_panics_exactly C E zero_pub b (Hb _ Hf)) as ((_ & G) & _). destruct G as (pk' & w & G); [exists k, t, c, blob; exact H3|]. enough (X : read_public_key C E (slurp W K) = Panic w) by congruence. rewrite P. apply (RP _ _ eq_refl). eauto.
    + cbn [code_of]. split; [auto|]. split; [discriminate|]. intros (K' & S' & F' & m & X & [(blob & s & T & Fb & _)|(_ & b & k & t & c & blob & Hf & H3)]); injection X as <- <- <- <-.
      * exfalso. enough (X : make_public_from_string C K = Ok None) by congruence. rewrite M. apply (Hnone _ eq_refl). eauto.
      * exfalso. destruct (C36_public_panics_exactly C E zero_pub b (Hb _ Hf)) as ((_ & G) & _). destruct G as (pk' & w & G); [exists k, t, c, blob; exact H3|]. enough (X : read_public_key C E (slurp W K) = Panic w) by congruence. rewrite P. apply (RP _ _ eq_refl). eauto.
    + cbn [code_of]. split; [auto|]. split; [|reflexivity]. intros _. exists K, S, F, more. split; [reflexivity|]. right. split; [eauto|]. destruct (proj1 (RP _ _ eq_refl) eq_refl) as (b & pk & Hf & U).
      destruct (C36_public_panics_exactly C E zero_pub b (Hb _ Hf)) as ((G & _) & _). destruct G as (k & t & c & blob & G); [eauto|]. exists b, k, t, c, blob. split; [exact Hf|exact G].
  - exfalso. exact (string_no_panic _ _ _ M).
Qed.
Print Assumptions C53_crash_exactly_partial.
(** Refuted: verify with the string of an RSA key (here: only its type) crashes. *)
Definition rsa_string : bytes := b64_encode (S4 (str "ssh-rsa") ++ S4 [x01; x00; x01]).
Lemma after_whole W ops : read_whole W -> read_whole (after W ops).
Proof. intros H p b. exact (H p b). Qed.
Theorem C53_refuted : ~ (forall C E W args, crypto_ok C -> ext_ok E -> read_whole W -> cli_verify C E W args = 0 \/ cli_verify C E W args = 1).
Proof.
  intros H. destruct (H toy toyE signed_town [rsa_string; str "plain.sig"; str "plain"] toy_ok toyE_ok (after_whole _ _ town_whole)) as [X|X]; revert X; vm_compute; discriminate.
Qed.
Print Assumptions C53_refuted.
Example C53_instance :
  (forall K b, hd_error [str "s.pub"; str "plain.sig"; str "plain"] = Some K -> len K < 2^32 /\ (file_holds signed_town K b -> len b < 2^32)) /\
  cli_verify toy toyE signed_town [rsa_string; str "plain.sig"; str "plain"] = 2 /\ cli_verify toy toyE signed_town [rsa_string; str "nofile"; str "plain"] = 1.
Proof.
  split; [|split; vm_compute; reflexivity]. intros K b H. injection H as <-. split; [reflexivity|]. intros (H & _).
  assert (X : content (wo_fs signed_town) (wo_place signed_town (str "s.pub")) = Some spub) by (vm_compute; reflexivity). assert (b = spub) as -> by congruence. reflexivity.
Qed.
