(** More about the commands: input and output the same file, -v, verify, sign (C44, C46, C47, C49). *)
From Verif Require Import Bytes BytesLemmas GoErr GoIO SpecIO IOProofs Pb SpecPb Crypto CryptoLaws Keys Sign SpecSign Encrypt Decrypt Spec Support EncryptProofs DecryptProofs OpenProofs Hostile
  KeyFiles ExtLaws Base64 GoText Ssh SpecSsh SshProofs FreeProofs Fs SpecFs FsProofs Store Cli SpecCli CliProofs Thm_Encrypt Thm_Decrypt Thm_Sign Thm_Ssh Toy Scene ToyExt Thm_KeyFiles CliScene Thm_Cli.
Require Import ZifyBool.
Ltac Zify.zify_post_hook ::= Z.div_mod_to_equations.
Local Notation length := List.length.

Lemma town_whole : read_whole town.
Proof.
  intros p b. split.
  - pose proof (take_drop 7 b) as T. cbn [town mk_world wo_pieces]. rewrite <- T at 3. apply dl_data. rewrite <- (app_nil_r (drop 7 b)) at 2. apply dl_data. constructor.
  - exists [take 4 b; drop 4 b]. split; [reflexivity|]. cbn. rewrite app_nil_r. apply take_drop.
Qed.

(** ** C44 *)
(** Without --overwrite: an output that exists already is refused, and nothing at all is done; in particular the input
    file, under whatever name, as output. *)
Theorem C44_no_overwrite_partial :
  forall C E W v,
  (forall o, a_file (eo_outfile o) -> eo_force o = false ->
     content (wo_fs W) (wo_place W (eo_outfile o)) <> None \/
       (last (eo_args o) [] <> str "-" /\ wo_place W (last (eo_args o) []) = wo_place W (eo_outfile o)) ->
     let x := cli_encrypt C E W v o in x_code x <> 0 /\ x_ops x = []) /\
  (forall o keyfile infile more, a_file (do_outfile o) -> do_test o = false -> do_force o = false -> do_args o = keyfile :: infile :: more ->
     content (wo_fs W) (wo_place W (do_outfile o)) <> None \/ (infile <> str "-" /\ wo_place W infile = wo_place W (do_outfile o)) ->
     let x := cli_decrypt C E W v o in x_code x <> 0 /\ x_ops x = []).
Proof.
  intros C E W v.
  assert (G : forall m outfile body infile rd, input_is W infile rd ->
    content (wo_fs W) (wo_place W outfile) <> None \/ (infile <> str "-" /\ wo_place W infile = wo_place W outfile) ->
    let x := with_output W v m outfile true false body in x_code x <> 0 /\ x_ops x = []).
  { intros m outfile body infile rd Hi H. assert (N : content (wo_fs W) (wo_place W outfile) <> None).
    { destruct H as [H|[H1 H2]]; [exact H|]. destruct Hi as [[Hi _]|(_ & b & [Hb _] & _)]; [contradiction|]. rewrite <- H2, Hb. discriminate. }
    destruct (with_output_file W v m outfile false body) as [(A & B & _)|(c & w & _ & _ & [X|X])]; [split; assumption|discriminate X|contradiction]. }
  split.
  - intros o Ho Hf H x. destruct (cli_encrypt_inv C E W v o Ho) as [X|(blk & sk & rd & pka & _ & _ & _ & Hi & _ & Hx)]; [exact X|]. fold x in Hx. rewrite Hx, Hf. exact (G _ _ _ _ _ Hi H).
  - intros o keyfile infile more Ho Ht Hf Ha H x. destruct (cli_decrypt_inv C E W v o Ho Ht) as [X|(kf & mo & sk & pk & rd & Ha' & _ & _ & Hi & Hx)]; [exact X|]. fold x in Hx. rewrite Hx, Hf.
    rewrite Ha in Ha'. injection Ha' as <- <-. exact (G _ _ _ _ _ Hi H).
Qed.
Print Assumptions C44_no_overwrite_partial.
(** With --overwrite: the output file - be it the input - holds at every moment its old content or the whole new one. *)
Theorem C44_old_or_new_partial :
  forall C E W v,
  (forall o, a_file (eo_outfile o) -> let f := wo_fs W in let F := wo_place W (eo_outfile o) in fresh v f F ->
     let x := cli_encrypt C E W v o in always f (x_ops x) (fun f' => content f' F = content f F \/ content f' F = content (run_ops f (x_ops x)) F)) /\
  (forall o, a_file (do_outfile o) -> let f := wo_fs W in let F := wo_place W (do_outfile o) in fresh v f F ->
     let x := cli_decrypt C E W v o in always f (x_ops x) (fun f' => content f' F = content f F \/ content f' F = content (run_ops f (x_ops x)) F)).
Proof.
  intros C E W v. split.
  - intros o Ho f F Hf x. assert (T : F <> se_tmp v) by (destruct Hf; congruence). destruct (C48_encrypt_exact C E W v o Ho Hf) as (H1 & H2). fold x f F in H1, H2.
    destruct (Z.eq_dec (x_code x) 0) as [Z|N].
    + destruct (H2 Z) as (to & infile & blk & sk & pks & rd & e & g' & e2 & rd2 & out & g2 & _ & _ & _ & _ & _ & _ & _ & _ & A & (R & _)).
      intros dn f' Hc Hs. destruct (A dn f' Hc Hs) as [U|(U & _)]; [left; apply U; exact T|right; congruence].
    + intros dn f' Hc Hs. left. exact (H1 N dn f' Hc Hs F T).
  - intros o Ho f F Hf x. assert (T : F <> se_tmp v) by (destruct Hf; congruence). destruct (do_test o) eqn:Ht.
    { destruct (C45_test_mode C E W v o Ht) as (X & _). fold x in X. rewrite X. intros dn f' Hc Hs. left. exact (always_nil v f F Hf dn f' Hc Hs F T). }
    destruct (C45_decrypt_to_file_partial C E W v o Ho Ht Hf) as (H1 & H2). fold x f F in H1, H2. destruct (Z.eq_dec (x_code x) 0) as [Z|N].
    + destruct (H2 Z) as (keyfile & more & sk & pk & rd & d & d' & out & _ & _ & _ & _ & _ & _ & A & B). destruct (close_err v) as [e|].
      * intros dn f' Hc Hs. left. exact (B ltac:(discriminate) dn f' Hc Hs F T).
      * destruct (A eq_refl) as (A1 & (R & _)). intros dn f' Hc Hs. destruct (A1 dn f' Hc Hs) as [U|(U & _)]; [left; apply U; exact T|right; congruence].
    + intros dn f' Hc Hs. left. exact (H1 N dn f' Hc Hs F T).
Qed.
Print Assumptions C44_old_or_new_partial.
(** Refuted as stated: with --overwrite, input and output may be the same file (the check for it in the code never runs);
    the input is replaced, and the command exits 0.  Here: encrypt --overwrite -o plain a.pub plain. *)
Definition enc_self : enc_opts := enc_to [str "a.pub"] (str "plain") [] true.
Theorem C44_refuted :
  ~ (forall C E W v o, crypto_ok C -> ext_ok E -> read_whole W -> a_file (eo_outfile o) -> fresh v (wo_fs W) (wo_place W (eo_outfile o)) ->
       last (eo_args o) [] <> str "-" -> wo_place W (last (eo_args o) []) = wo_place W (eo_outfile o) -> x_code (cli_encrypt C E W v o) <> 0).
Proof.
  intros H. apply (H toy toyE town sf1 enc_self); [exact toy_ok|exact toyE_ok|exact town_whole|split; discriminate|apply town_fresh; vm_compute; congruence|discriminate|reflexivity|vm_compute; reflexivity].
Qed.
Print Assumptions C44_refuted.
Example C44_instance :
  (let x := cli_encrypt toy toyE town sf1 (enc_to [str "a.pub"] (str "plain") [] false) in x_code x = 1 /\ x_ops x = []) /\
  (let x := cli_encrypt toy toyE town sf1 enc_self in x_code x = 0 /\
     exists b, content (run_ops (wo_fs town) (x_ops x)) (wo_place town (str "plain")) = Some b /\ take 7 b = str "SigTool") /\
  (let x := cli_decrypt toy toyE town sf1 (dec_from (str "signed") (str "signed") (str "s.pub") false) in x_code x = 1 /\ x_ops x = []) /\
  (let x := cli_decrypt toy toyE town sf1 (dec_from (str "signed") (str "signed") (str "s.pub") true) in x_code x = 0 /\
     content (run_ops (wo_fs town) (x_ops x)) (wo_place town (str "signed")) = Some text).
Proof.
  split; [split; vm_compute; reflexivity|]. split; [split; [vm_compute; reflexivity|]; eexists; split; vm_compute; reflexivity|].
  split; split; vm_compute; reflexivity.
Qed.

(** ** C46: decrypt -v *)
(** what decrypt did if it exited 0, wherever the output went *)
Lemma decrypt_done C E W v o : x_code (cli_decrypt C E W v o) = 0 -> exists keyfile more sk pk rd d d' out,
  do_args o = keyfile :: more /\ private_in C E W (do_nopw o) (do_envpw o) keyfile sk /\ opt_arg (public_in C E W) (do_pubkey o) pk /\
  input_is W (hd (str "-") more) rd /\ opened_by C rd sk pk d /\ decrypt C d sink = (d', out, Ok tt).
Proof.
  intros H. unfold cli_decrypt in H. destruct (do_args o) as [|keyfile more]; [discriminate H|].
  destruct (read_private_key _ _ _ _) as [sk|e|p] eqn:R; [|discriminate H..]. apply private_ok in R.
  match type of H with context [match ?r with Ok pk => _ | _ => _ end] => destruct r as [pk|e|p] eqn:Ek end; [|discriminate H..].
  assert (Hk : opt_arg (public_in C E W) (do_pubkey o) pk).
  { destruct (0 <? len (do_pubkey o)) eqn:L.
    - destruct (read_public_key _ _ _) as [s| |] eqn:P; cbn [bind] in Ek; try discriminate Ek. injection Ek as <-. split; [apply len_pos; exact L|apply public_ok; exact P].
    - injection Ek as <-. cbn. destruct (do_pubkey o) as [|b k]; [reflexivity|]. pose proof (proj2 (len_pos (b :: k)) ltac:(discriminate)). congruence. }
  assert (Ei : forall r, (match more with infile :: _ => if beq infile (str "-") then Ok (wo_stdin W) else open_in W infile | [] => Ok (wo_stdin W) end) = r ->
    r = (if beq (hd (str "-") more) (str "-") then Ok (wo_stdin W) else open_in W (hd (str "-") more))) by (intros r <-; destruct more; reflexivity).
  destruct (match more with infile :: _ => if beq infile (str "-") then Ok (wo_stdin W) else open_in W infile | [] => Ok (wo_stdin W) end) as [rd|e|p]; [|discriminate H..].
  specialize (Ei _ eq_refl). symmetry in Ei. apply input_ok in Ei.
  assert (B : exists w c w', dec_body C sk pk rd w = (c, w') /\ c = 0).
  { destruct (do_test o); [exists sink; cbn [x_code] in H; destruct (dec_body C sk pk rd sink) as [c w'] eqn:B; exists c, w'; split; [reflexivity|]; unfold sink in B; rewrite B in H; exact H|].
    unfold with_output in H. destruct (names_file (do_outfile o)).
    - destruct (safe_open _ _ _ _); [|discriminate H..]. exists (sf_sink v). destruct (dec_body C sk pk rd (sf_sink v)) as [c w']. exists c, w'. auto.
    - exists (wo_stdout W). destruct (dec_body C sk pk rd (wo_stdout W)) as [c w']. exists c, w'. auto. }
  destruct B as (w & c & w' & B & ->). unfold dec_body in B.
  destruct (new_decryptor C rd) as [[d0|e|p] rd'] eqn:En; [|discriminate B..]. destruct (set_private_key C d0 sk pk) as [[d sk'] [[]|e|p]] eqn:Es; [|discriminate B..].
  destruct (decrypt C d w) as [[d' out] [[]|e|p]] eqn:Ed; [|discriminate B..]. apply decrypt_free in Ed. destruct Ed as (_ & F). destruct (F eq_refl) as (_ & s & _ & Fs).
  exists keyfile, more, sk, pk, rd, d, d'. eexists. split; [reflexivity|]. split; [exact R|]. split; [exact Hk|]. split; [exact Ei|]. split; [exists d0, rd', sk'; auto|]. apply Fs.
Qed.
(** If decrypt -v K exits 0 (in whatever mode), the sender's field of the file, found with the decryption key, is either
    the signature by K of the session (then Decrypt has checked the trailer too: C13), or the 64 zero bytes of an anonymous
    file.  The user's own key file must hold a proper key. *)
Theorem C46_sender_partial :
  forall C, crypto_ok C -> forall E W v o, do_pubkey o <> [] -> x_code (cli_decrypt C E W v o) = 0 ->
  (forall sk, private_in C E W (do_nopw o) (do_envpw o) (hd [] (do_args o)) sk -> exists seed, keypair C seed sk) ->
  exists pk seed rd sk d d' out root sig, public_in C E W (do_pubkey o) pk /\ keypair C seed sk /\ opened_by C rd sk (Some pk) d /\ decrypt C d sink = (d', out, Ok tt) /\
    private_in C E W (do_nopw o) (do_envpw o) (hd [] (do_args o)) sk /\ input_is W (hd (str "-") (tl (do_args o))) rd /\
    unwraps C (d_hdr d) seed root /\ file_sender C (d_hdr d) root = Some sig /\
    ((authenticated_sender d = true /\ sig <> zeros 64 /\ signed_by C (pk_Pk pk) (sender_message C (d_hdr d) root) sig) \/
     (authenticated_sender d = false /\ sig = zeros 64)).
Proof.
  intros C HC E W v o Hp Hx Hg. destruct (decrypt_done _ _ _ _ _ Hx) as (keyfile & more & sk & pk & rd & d & d' & out & Ha & Hk & Hpk & Hi & Ho & Hd).
  destruct pk as [pk|]; [|contradiction]. destruct Hpk as (_ & Hpk). destruct (Hg sk ltac:(rewrite Ha; exact Hk)) as (seed & Hs). pose proof Ho as (d0 & rd' & sk' & Hn & Hse).
  destruct (new_decryptor_any _ _ _ _ Hn) as (_ & h & ck & -> & Hch & _).
  assert (Hu : unkeyed (fresh_dec h rd' ck)) by (split; [reflexivity|exact Hch]).
  destruct (set_private_key_spec _ _ _ _ _ _ _ _ HC Hu Hs Hse) as (_ & _ & root & sg & Hf & Hkd & Hv). cbn [d_hdr fresh_dec] in Hf, Hv.
  assert (Eh : d_hdr d = h) by (unfold keyed in Hkd; cbv zeta in Hkd; rewrite Hkd; reflexivity).
  assert (Ea : authenticated_sender d = sg) by (unfold keyed in Hkd; cbv zeta in Hkd; rewrite Hkd; reflexivity).
  pose proof (verify_sender_spec C h root (Some pk) HC) as Hvs. rewrite Hv in Hvs.
  destruct sg.
  - destruct Hvs as (pk2 & sig & Epk & _ & Hfs & Hnz & Hsg). injection Epk as <-. exists pk, seed, rd, sk, d, d', out, root, sig. rewrite Eh, Ha. cbn [hd tl]. repeat (split; [assumption|]). left. auto.
  - exists pk, seed, rd, sk, d, d', out, root, (zeros 64). rewrite Eh, Ha. cbn [hd tl]. repeat (split; [assumption|]). right. auto.
Qed.
Print Assumptions C46_sender_partial.
(** Refuted as stated: an anonymous file decrypts with exit status 0 whatever key is given with -v. *)
Definition dec_anon : dec_opts := dec_from (str "anon") (str "out") (str "s.pub") false.
Theorem C46_refuted :
  ~ (forall C E W v o, crypto_ok C -> ext_ok E -> read_whole W -> do_pubkey o <> [] -> x_code (cli_decrypt C E W v o) = 0 ->
       exists rd sk pk d, public_in C E W (do_pubkey o) pk /\ private_in C E W (do_nopw o) (do_envpw o) (hd [] (do_args o)) sk /\
         input_is W (hd (str "-") (tl (do_args o))) rd /\ opened_by C rd sk (Some pk) d /\ authenticated_sender d = true).
Proof.
  intros H. destruct (H toy toyE town sf1 dec_anon) as (rd & sk & pk & d & Hp & Hk & Hi & (d0 & rd' & sk' & Hn & Hs) & Ha).
  - exact toy_ok.
  - exact toyE_ok.
  - exact town_whole.
  - discriminate.
  - vm_compute. reflexivity.
  - apply public_ok in Hp. apply private_ok in Hk. apply input_ok in Hi. revert Hp Hk Hi. cbn [dec_anon dec_from do_pubkey do_args do_nopw do_envpw hd tl].
    vm_compute (read_public_key _ _ _). vm_compute (read_private_key _ _ _ _). vm_compute (if beq _ _ then _ else _). intros Hp Hk Hi.
    assert (pk = mkPub (pk_Pk pkS) [] None (pk_hash pkS)) as -> by (revert Hp; vm_compute; congruence). injection Hk as <-. injection Hi as <-. revert Hn.
    vm_compute (new_decryptor _ _). intros Hn. injection Hn as <- <-. revert Hs. vm_compute. intros Hs. injection Hs as <- _. revert Ha. vm_compute. discriminate.
Qed.
Print Assumptions C46_refuted.
Lemma town_akey sk : private_in toy toyE town true [] (str "a.key") sk -> sk = private_key_of toy (sk_Sk skA).
Proof. intros H. apply private_ok in H. revert H. vm_compute (read_private_key _ _ _ _). intros H. injection H as <-. vm_compute. reflexivity. Qed.
Lemma akey_pair : keypair toy seedA (private_key_of toy (sk_Sk skA)).
Proof. constructor; try (vm_compute; reflexivity). left. reflexivity. Qed.
Example C46_instance :
  (do_pubkey dec1 <> [] /\ x_code (cli_decrypt toy toyE town sf1 dec1) = 0 /\
   forall sk, private_in toy toyE town (do_nopw dec1) (do_envpw dec1) (hd [] (do_args dec1)) sk -> exists seed, keypair toy seed sk) /\
  (* a.pub is not the sender's key *)
  x_code (cli_decrypt toy toyE town sf1 (dec_from (str "signed") (str "out") (str "a.pub") false)) = 1 /\
  (* no key is given for a signed file *)
  x_code (cli_decrypt toy toyE town sf1 (dec_from (str "signed") (str "out") [] false)) = 1.
Proof.
  split; [split; [discriminate|split; [vm_compute; reflexivity|]]|split; vm_compute; reflexivity].
  intros sk H. apply town_akey in H. subst sk. exists seedA. exact akey_pair.
Qed.

(** ** C47: verify *)
Lemma string_loaded C p pk : make_public_from_string C p = Ok (Some pk) -> len (pk_Pk pk) = 32.
Proof.
  unfold make_public_from_string. destruct (parse_enc_pubkey C p (str "command-line-pk")) as [r|e|w] eqn:P.
  - intros H. injection H as ->. apply parse_enc_inv in P. destruct P as (key & _ & L & ->). exact L.
  - destruct (b64_decode p) as [k| |]; try discriminate. cbn [bind]. unfold make_public_from_bytes. destruct (Z.eqb_spec (len k) 32) as [L|]; cbn [negb bind]; [|discriminate].
    intros H. injection H as <-. exact L.
  - discriminate.
Qed.
Lemma string_no_panic C p w : make_public_from_string C p <> Panic w.
Proof.
  unfold make_public_from_string. destruct (parse_enc_pubkey C p (str "command-line-pk")) as [r|e|x] eqn:P; [discriminate| |exfalso; exact (parse_enc_no_panic _ _ _ _ P)].
  destruct (b64_decode p) as [k| |x] eqn:D; [|discriminate|exfalso; revert D; unfold b64_decode; destruct (b64_dec p []); discriminate]. cbn [bind].
  unfold make_public_from_bytes. destruct (negb _); discriminate.
Qed.
Lemma read_sig_ok E W p s : read_signature E (slurp W p) = Ok s <-> signature_in E W p s.
Proof.
  unfold read_signature, signature_in. split.
  - destruct (slurp W p) as [b| |] eqn:S; cbn [bind]; try discriminate. apply slurp_ok in S. destruct (unmarshal_signature E zero_sig b) as [s' [[]|e|w]] eqn:U; intros H; try discriminate H. injection H as <-. eauto.
  - intros (b & old & Hf & U). apply slurp_ok in Hf. rewrite Hf. cbn [bind].
    assert (U2 : unmarshal_signature E zero_sig b = (s, Ok tt)) by (apply (proj1 (C32_signature_reading_exact E b zero_sig)); apply (proj1 (C32_signature_reading_exact E b old)) in U; exact U).
    rewrite U2. reflexivity.
Qed.
Lemma key_len C E W p pk : key_arg C E W p pk -> len (pk_Pk pk) = 32.
Proof. intros [H|(_ & H)]; [eapply string_loaded; exact H|]. destruct H as (b & _ & H). apply make_public_loaded in H. destruct H as (key & c & L & ->). exact L. Qed.
(** the file named by a path is read as [c], without errors *)
Definition hashed_as (W : world) (p c : bytes) : Prop := exists b, file_holds W p b /\ holds (wo_mapped W p b) c.
Lemma map_in_holds W p c : holds (map_in W p) c <-> hashed_as W p c.
Proof.
  unfold map_in, hashed_as, file_holds, holds. destruct (content _ _) as [b|]; [destruct (wo_refused W p)|].
  - split; [intros (w & H & _); discriminate H|intros (b' & [_ H] & _); discriminate H].
  - split; [intros H; exists b; auto|]. intros (b' & [H _] & Hm). injection H as <-. exact Hm.
  - split; [intros (w & H & _); discriminate H|intros (b' & [H _] & _); discriminate H].
Qed.
Lemma file_in_cases f : (exists c, holds f c) \/ unreadable f.
Proof. destruct f as [e|ws [e|]]; [right; exact I|right; discriminate|left; exists (concat ws), ws; auto]. Qed.
Lemma verify_file_exact C pk f s c : len (pk_Pk pk) = 32 -> holds f c ->
  (verify_file C pk f s = Ok true <-> len (sig_Sig s) = 64 /\ ed_verify C (pk_Pk pk) (sha512 C (msg_hash_input (sha512 C (file_hash_input c)))) (sig_Sig s) = true).
Proof.
  intros Hl Hf. unfold verify_file. rewrite (file_cksum_holds C _ _ Hf). cbn [bind]. apply (C30_verify_exact C pk _ s Hl).
Qed.
(** verify K S F exits 0 exactly if K is a public key (as a string or else a file), S can be read as a signature, F can
    be read, S names K, and S is a valid Ed25519 signature by K of the file hash. *)
Theorem C47_verify_exact :
  forall C E W args, cli_verify C E W args = 0 <->
  exists K S F more pk s c, args = K :: S :: F :: more /\ key_arg C E W K pk /\ signature_in E W S s /\ hashed_as W F c /\
    sig_pkhash s = pk_hash pk /\ signed_by C (pk_Pk pk) (sha512 C (file_hash_input c)) (sig_Sig s).
Proof.
  intros C E W args. unfold cli_verify, verify_with. split.
  - destruct args as [|K [|S [|F more]]]; try discriminate.
    destruct (match make_public_from_string C K with Ok r => Ok r | Panic p => Panic p | Fail _ => pk <- read_public_key C E (slurp W K) ;; Ok (Some pk) end) as [[pk|]|e|p] eqn:EK; try discriminate.
    2:{ destruct (read_signature E (slurp W S)); discriminate. }
    assert (HK : key_arg C E W K pk).
    { unfold key_arg. destruct (make_public_from_string C K) as [r|e|p] eqn:M; [left; congruence| |discriminate EK]. right. split; [eauto|].
      destruct (read_public_key C E (slurp W K)) as [k| |] eqn:R; cbn [bind] in EK; try discriminate EK. injection EK as <-. apply public_ok. exact R. }
    destruct (read_signature E (slurp W S)) as [s| |] eqn:ES; try discriminate. apply read_sig_ok in ES.
    destruct (is_pk_match s pk) eqn:EM; [|discriminate]. cbn [negb]. pose proof (key_len _ _ _ _ _ HK) as HL.
    destruct (file_in_cases (map_in W F)) as [(c & Hc)|Hu].
    + pose proof (verify_file_exact C pk _ s c HL Hc) as V. destruct (verify_file C pk (map_in W F) s) as [[|]| |] eqn:EV; try discriminate. intros _.
      exists K, S, F, more, pk, s, c. split; [reflexivity|]. split; [exact HK|]. split; [exact ES|]. split; [apply map_in_holds; exact Hc|].
      split; [apply beq_iff in EM; congruence|]. apply (proj1 V). reflexivity.
    + unfold verify_file, file_cksum. destruct (map_in W F) as [e|ws [e|]]; cbn [bind code_of]; try discriminate. contradiction Hu; reflexivity.
  - intros (K & S & F & more & pk & s & c & -> & HK & HS & HF & HM & HV).
    assert (EK : (match make_public_from_string C K with Ok r => Ok r | Panic p => Panic p | Fail _ => pk <- read_public_key C E (slurp W K) ;; Ok (Some pk) end) = Ok (Some pk)).
    { destruct HK as [->|((e & ->) & H)]; [reflexivity|]. apply public_ok in H. rewrite H. reflexivity. }
    rewrite EK. apply read_sig_ok in HS. rewrite HS. assert (is_pk_match s pk = true) as -> by (apply beq_iff; congruence). cbn [negb].
    apply map_in_holds in HF. rewrite (proj2 (verify_file_exact C pk _ s c (key_len _ _ _ _ _ HK) HF) HV). reflexivity.
Qed.
Print Assumptions C47_verify_exact.

(** ** C49: sign *)
Lemma fullwrite_loop_used s : forall buf out x o s', fullwrite_loop s buf out = (Some x, o, s') -> exists used m, s = used ++ s' /\ In (m, Some x) used.
Proof.
  induction s as [|[k e] s IH]; intros buf out x o s'; cbn [fullwrite_loop]; destruct buf as [|b buf]; try discriminate. destruct e as [y|]; [intros H; injection H as <- _ <-; exists [(k, Some y)], k; split; [reflexivity|left; reflexivity]|].
  intros H. apply IH in H. destruct H as (used & m & -> & Hi). exists ((k, None) :: used), m. split; [reflexivity|right; exact Hi].
Qed.
Lemma fullwrite_failed v b x w : fullwrite b (sf_sink v) = (Some x, w) -> forall w', w_sched w' = w_sched w -> committed v w' = false.
Proof.
  unfold fullwrite. destruct (fullwrite_loop (w_sched (sf_sink v)) b (w_out (sf_sink v))) as [[e o] s'] eqn:F. intros H. pose proof (f_equal fst H) as E1. apply (f_equal snd) in H. cbn [fst snd] in *. subst e w.
  cbn [w_with_out w_sched]. apply fullwrite_loop_used in F. destruct F as (used & m & Hs & Hi). cbn [sf_sink w_sched] in Hs. intros w' Hw'.
  assert (W : write_failed v w' = true).
  { unfold write_failed. rewrite Hw', Hs, app_length, Nat.add_sub, firstn_app, Nat.sub_diag, firstn_all. cbn [firstn]. rewrite app_nil_r. apply existsb_exists. exists (m, Some x). auto. }
  unfold committed. rewrite W. destruct (0 <? w_nclosed w'); reflexivity.
Qed.
(** the signature file sign is to write: -o, or else the input's name with .sig *)
Definition sig_file (o : sign_opts) (fn : bytes) : bytes := match so_output o with [] => fn ++ str ".sig" | _ => so_output o end.
(** [s] is the signature of content [c] by [sk] *)
Definition file_signature (C : crypto) (sk : privkey) (c : bytes) (s : signature) : Prop :=
  sig_Sig s = ed_sign C (sk_Sk sk) (sha512 C (msg_hash_input (sha512 C (file_hash_input c)))) /\ sig_pkhash s = pk_hash (sk_pk sk).
Lemma sign_file_exact C sk f s : sign_file C sk f = Ok s <-> len (sk_Sk sk) = 64 /\ exists c, holds f c /\ file_signature C sk c s.
Proof.
  unfold sign_file. split.
  - destruct (file_in_cases f) as [(c & Hc)|Hu].
    + rewrite (file_cksum_holds C _ _ Hc). cbn [bind]. unfold sign_message, Ed_Sign. destruct (Z.eqb_spec (len (sk_Sk sk)) 64) as [L|]; cbn [negb bind]; [|discriminate].
      intros H. injection H as <-. split; [exact L|]. exists c. split; [exact Hc|]. split; reflexivity.
    + unfold file_cksum. destruct f as [e|ws [e|]]; try discriminate. contradiction Hu; reflexivity.
  - intros (L & c & Hc & H1 & H2). rewrite (file_cksum_holds C _ _ Hc). cbn [bind]. unfold sign_message, Ed_Sign. rewrite L. cbn [Z.eqb Pos.eqb negb bind]. destruct s as [a b]. cbn in H1, H2. subst. reflexivity.
Qed.
Lemma sig_out o fn : (if 0 <? len (so_output o) then so_output o else fn ++ str ".sig") = sig_file o fn.
Proof. unfold sig_file. destruct (so_output o) as [|b l]; [reflexivity|]. rewrite (proj2 (len_pos (b :: l)) ltac:(discriminate)). reflexivity. Qed.
Lemma sign_body_spec C E W o kn fn v c w : sign_body C E W o kn fn (sf_sink v) = (c, w) ->
  (c <> 0 /\ committed v w = false) \/
  (c = 0 /\ exists sk s ct, private_in C E W (so_nopw o) (so_envpw o) kn sk /\ hashed_as W fn ct /\ file_signature C sk ct s /\
     (committed v w = true -> w_out w = marshal_signature E s (str "input=" ++ fn)) /\
     (Forall (fun p => snd p = None) (se_writes v) -> close_err v = None -> committed v w = true)).
Proof.
  unfold sign_body. destruct (read_private_key _ _ _ _) as [sk|e|p] eqn:R; [|intros H; injection H as <- <-; left; split; [discriminate|apply not_closed; reflexivity]..]. apply private_ok in R.
  destruct (sign_file C sk (map_in W fn)) as [s|e|p] eqn:S; [|intros H; injection H as <- <-; left; split; [discriminate|apply not_closed; reflexivity]..]. apply sign_file_exact in S. destruct S as (_ & ct & Hc & Hs). apply map_in_holds in Hc.
  destruct (fullwrite (marshal_signature E s (str "input=" ++ fn)) (sf_sink v)) as [e w1] eqn:F. intros H. pose proof (f_equal fst H) as E1. apply (f_equal snd) in H. cbn [fst snd] in E1, H. subst c w. right. split; [reflexivity|].
  exists sk, s, ct. split; [exact R|]. split; [exact Hc|]. split; [exact Hs|]. destruct (w_close_more w1) as (N & O & Sc).
  destruct e as [x|].
  - pose proof (fullwrite_failed _ _ _ _ F _ Sc) as Hn. rewrite Hn. split; [discriminate|]. intros Hw _. exfalso. apply fullwrite_Some in F. destruct F as (_ & (m & Hi) & _). cbn [sf_sink w_sched] in Hi. rewrite Forall_forall in Hw. specialize (Hw _ Hi). discriminate Hw.
  - pose proof (fullwrite_clean _ _ _ F) as Cl. apply fullwrite_None in F. destruct F as (F & (_ & _ & L)).
    assert (Cl2 : clean (sf_sink v) (snd (w_close w1))) by (destruct Cl as (u & Cl1 & Cl2); exists u; rewrite Sc; auto).
    assert (Nc : 0 < w_nclosed (snd (w_close w1))) by (rewrite N, L; reflexivity). rewrite (committed_iff _ _ Cl2 Nc). split; [intros _; rewrite O, F; reflexivity|]. intros _ ->. reflexivity.
Qed.
(** If sign exits non-zero nothing has changed, not even for a moment; so too if the signature file exists already and
    --overwrite is not given.  If it exits 0, the key and the file could be read, and the file S was replaced at once by the
    signature file, naming the key - unless writing or closing S failed, and then nothing has changed (see C49_refuted). *)
Theorem C49_sign_partial :
  forall C E W v o kn fn more, so_args o = kn :: fn :: more -> sig_file o fn <> str "-" ->
  let f := wo_fs W in let S := wo_place W (sig_file o fn) in fresh v f S -> let x := cli_sign C E W v o in
  (so_force o = false -> content f S <> None -> x_code x <> 0) /\
  (x_code x <> 0 -> always f (x_ops x) (unchanged v f)) /\
  (x_code x = 0 -> exists sk s c, private_in C E W (so_nopw o) (so_envpw o) kn sk /\ hashed_as W fn c /\ file_signature C sk c s /\
     let text := marshal_signature E s (str "input=" ++ fn) in
     always f (x_ops x) (fun f' => unchanged v f f' \/ replaced v S text f f') /\
     (Forall (fun p => snd p = None) (se_writes v) -> close_err v = None -> replaced v S text f (run_ops f (x_ops x)))).
Proof.
  intros C E W v o kn fn more Ha Hout f S Hf x. unfold x, cli_sign. rewrite Ha. cbv zeta. rewrite sig_out.
  assert (beq (sig_file o fn) (str "-") = false) as -> by (destruct (beq (sig_file o fn) (str "-")) eqn:B; [apply beq_iff in B; contradiction|reflexivity]). cbn [negb].
  destruct (with_output_file W v (oct 6 4 4) (sig_file o fn) (so_force o) (sign_body C E W o kn fn)) as [(H1 & H2 & H3)|(c & w & Hb & -> & Hov)]; cbv zeta in *.
  - split; [intros _ _; exact H1|]. split; [|intros H; contradiction]. intros _. rewrite H2. eapply always_nil; exact Hf.
  - cbn [x_code x_ops]. split; [intros H1 H2; destruct Hov as [Hov|Hov]; [congruence|destruct (H2 Hov)]|]. apply sign_body_spec in Hb. destruct Hb as [[Hc Hn]|(Hc & sk & s & ct & Hk & Hh & Hs & Ho & Hd)].
    + split; [|intros H; contradiction]. intros _. apply always_abort; assumption.
    + split; [intros H; contradiction|]. intros _. exists sk, s, ct. split; [exact Hk|]. split; [exact Hh|]. split; [exact Hs|]. destruct (committed v w) eqn:Co.
      * rewrite <- (Ho eq_refl). destruct (always_commit v (oct 6 4 4) f S w Hf Co) as (A & B). split; [exact A|]. intros _ _. exact B.
      * split; [intros dn f' Hc' Hs'; left; exact (always_abort v (oct 6 4 4) f S w Hf Co dn f' Hc' Hs')|]. intros H1 H2. discriminate (Hd H1 H2).
Qed.
Print Assumptions C49_sign_partial.
(** Refuted: the errors of writing and closing the signature file are ignored. *)
Definition sign1 : sign_opts := mkSo [] (str "PW") false false [str "s.key"; str "plain"].
Theorem C49_refuted :
  ~ (forall C E W v o kn fn more, crypto_ok C -> ext_ok E -> read_whole W -> so_args o = kn :: fn :: more -> sig_file o fn <> str "-" ->
       let f := wo_fs W in let S := wo_place W (sig_file o fn) in fresh v f S -> let x := cli_sign C E W v o in
       x_code x = 0 -> content (run_ops f (x_ops x)) S <> None).
Proof.
  intros H. apply (H toy toyE town sf_full sign1 (str "s.key") (str "plain") []); [exact toy_ok|exact toyE_ok|exact town_whole|reflexivity|discriminate|apply town_fresh; vm_compute; congruence|vm_compute; reflexivity|vm_compute; reflexivity].
Qed.
Print Assumptions C49_refuted.
(** sign -E PW s.key plain writes plain.sig, which verify accepts with s.pub - but not with a.pub, nor for another file *)
Definition signed_town : world := after town (x_ops (cli_sign toy toyE town sf1 sign1)).
Example C49_instance :
  (so_args sign1 = [str "s.key"; str "plain"] /\ sig_file sign1 (str "plain") <> str "-" /\ fresh sf1 (wo_fs town) (wo_place town (str "plain.sig"))) /\
  x_code (cli_sign toy toyE town sf1 sign1) = 0 /\
  (exists b, content (wo_fs signed_town) (wo_place town (str "plain.sig")) = Some b /\ (80 <? len b) = true) /\
  (* wrong passphrase, no such file *)
  x_code (cli_sign toy toyE town sf1 (mkSo [] (str "NOPW") false false [str "s.key"; str "plain"])) = 1 /\
  x_code (cli_sign toy toyE town sf1 (mkSo [] (str "PW") false false [str "s.key"; str "nofile"])) = 1.
Proof.
  split; [split; [reflexivity|split; [discriminate|apply town_fresh; vm_compute; congruence]]|]. split; [vm_compute; reflexivity|].
  split; [eexists; split; vm_compute; reflexivity|]. split; vm_compute; reflexivity.
Qed.
Example C47_instance :
  cli_verify toy toyE signed_town [str "s.pub"; str "plain.sig"; str "plain"] = 0 /\
  cli_verify toy toyE signed_town [b64_encode (pk_Pk pkS); str "plain.sig"; str "plain"] = 0 /\
  cli_verify toy toyE signed_town [str "a.pub"; str "plain.sig"; str "plain"] = 1 /\
  cli_verify toy toyE signed_town [str "s.pub"; str "plain.sig"; str "anon"] = 1 /\
  cli_verify toy toyE signed_town [str "s.pub"; str "plain"; str "plain"] = 1 /\
  cli_verify toy toyE signed_town [str "s.pub"; str "plain.sig"; str "nofile"] = 1.
Proof. do 5 (split; [vm_compute; reflexivity|]). vm_compute. reflexivity. Qed.
