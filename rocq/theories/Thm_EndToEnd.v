(** Three commands one after the other: generate, encrypt, decrypt (C65); generate, sign, verify (C66). *)
From Verif Require Import Bytes BytesLemmas GoErr GoIO SpecIO IOProofs Pb SpecPb Crypto CryptoLaws Keys Sign SpecSign Encrypt Decrypt Spec Support EncryptProofs DecryptProofs OpenProofs Hostile
  KeyFiles ExtLaws Base64 GoText Ssh SpecSsh SshProofs SpecBase64 Base64Proofs FreeProofs Fs SpecFs FsProofs Store Cli SpecCli CliProofs Thm_Encrypt Thm_Decrypt Thm_Sign Thm_Ssh Toy Scene ToyExt Thm_KeyFiles Thm_Files CliScene Thm_Cli Thm_Commands Thm_Chain.
Require Import ZifyBool.
Ltac Zify.zify_post_hook ::= Z.div_mod_to_equations.
Local Notation length := List.length.

(** ** Specification *)
(** the same world, the random source having gone on *)
Definition reseeded (g : rng) (W : world) : world :=
  mkWorld (wo_fs W) (wo_place W) (wo_clean W) (wo_refused W) (wo_pieces W) (wo_mapped W) (wo_getenv W) (wo_ask W) (wo_home W)
    (wo_stdin W) (wo_stdout W) g (wo_size W).
(** the temporary files of generate are unused and distinct, and the two key files K, P are two files *)
Definition room_for_two (v1 v2 : sf_env) (f : fs) (K P : slot) : Prop :=
  K <> P /\ ~ leads f K P /\ fresh v1 f K /\ fresh v2 f P /\ se_tmp v1 <> P /\ se_tmp v2 <> K /\ se_tmp v1 <> se_tmp v2 /\ se_ino v1 <> se_ino v2.
(** a comment that YAML keeps and that does not make the private key file look like an OpenSSH one *)
Definition plain_comment (E : ext) (c : bytes) : Prop := yaml_keeps E c /\ ~ part_of (str "OPENSSH PRIVATE KEY-") (y_scalar E c).
(** the two file names that generate makes of its argument *)
Definition key_name (W : world) (bn : bytes) : bytes := wo_clean W bn ++ str ".key".
Definition pub_name (W : world) (bn : bytes) : bytes := wo_clean W bn ++ str ".pub".

(** ** What generate leaves *)
Lemma generated C E : crypto_ok C -> ext_ok E -> forall W v1 v2 o bn rest, ge_args o = bn :: rest -> plain_comment E (ge_comment o) ->
  room_for_two v1 v2 (wo_fs W) (wo_place W (key_name W bn)) (wo_place W (pub_name W bn)) ->
  let x := cli_generate C E W v1 v2 o in x_code x = 0 ->
  exists pw kt pt seed sk pk, passphrase W (ge_nopw o) (ge_envpw o) (Ok pw) /\
    content (run_ops (wo_fs W) (x_ops x)) (wo_place W (key_name W bn)) = Some kt /\ content (run_ops (wo_fs W) (x_ops x)) (wo_place W (pub_name W bn)) = Some pt /\
    make_private_key C E kt (Some (Ok pw)) = Ok sk /\ make_public_key C E pt = Ok pk /\ keypair C seed sk /\ pubof C seed pk.
Proof.
  intros HC HE W v1 v2 o bn rest Ha (HY & Hm) (R1 & R2 & R3 & R4 & R5 & R6 & R7 & R8) x Hx.
  destruct (C43_generate C E W v1 v2 o bn rest Ha R1 R2 R3 R4 R5 R6 R7 R8) as (_ & [(X & _)|(pw & kt & pt & Hp & Hpt & _ & H & _)]); [contradiction|].
  destruct (H Hx) as (HK & HP). destruct (C43_pair_usable_partial C E HC HE _ HY Hm pw kt pt Hpt) as (seed & sk & pk & A & B & D & F & _).
  exists pw, kt, pt, seed, sk, pk. auto 8.
Qed.

(** ** C65: generate, encrypt, decrypt *)
(** generate BN; then (with any further randomness) encrypt -o F ... BN.pub ... INPUT; then decrypt -o G BN.key F, giving the passphrase in the
    same way: if the first two exit with 0, so does the third, and G holds what INPUT held - provided that the commands' output files are not
    each other's inputs. *)
Theorem C65_generate_encrypt_decrypt :
  forall C E, crypto_ok C -> ext_ok E -> forall W v1 v2 og bn rest, ge_args og = bn :: rest -> plain_comment E (ge_comment og) -> read_whole W ->
  let K := wo_place W (key_name W bn) in room_for_two v1 v2 (wo_fs W) K (wo_place W (pub_name W bn)) ->
  wo_refused W (key_name W bn) = None -> ~ user_name (pub_name W bn) ->
  let x := cli_generate C E W v1 v2 og in x_code x = 0 ->
  forall g, let W1 := reseeded g (after W (x_ops x)) in
  forall v o to infile s, eo_args o = to ++ [infile] -> infile <> str "-" -> file_holds W1 infile s -> In (pub_name W bn) to -> len to <= 15885 ->
  a_file (eo_outfile o) -> let F := wo_place W1 (eo_outfile o) in fresh v (wo_fs W1) F -> wo_refused W1 (eo_outfile o) = None ->
  K <> se_tmp v -> ~ leads (wo_fs W1) F K ->
  (forall blk, wo_size W1 (eo_size o) = Ok blk -> 0 <= blk < 2^30) ->
  let y := cli_encrypt C E W1 v o in let W2 := after W1 (x_ops y) in x_code y = 0 ->
  (forall sk seed ssk blk pks e g, private_in C E W1 (ge_nopw og) (ge_envpw og) (key_name W bn) sk -> keypair C seed sk ->
     opt_arg (private_in C E W1 (eo_nopw o) (eo_envpw o)) (eo_keyfile o) ssk -> wo_size W1 (eo_size o) = Ok blk ->
     Forall2 (recipient C E W1) to pks -> session C ssk blk pks (wo_rng W1) e g -> no_accident C (e_hdr e) seed (e_key e)) ->
  forall v' o' more spk, do_args o' = key_name W bn :: eo_outfile o :: more -> do_nopw o' = ge_nopw og -> do_envpw o' = ge_envpw og -> do_test o' = false ->
  a_file (do_outfile o') -> let G := wo_place W2 (do_outfile o') in fresh v' (wo_fs W2) G -> do_force o' = true \/ content (wo_fs W2) G = None ->
  se_open v' = None -> Forall (fun p => snd p = None) (se_writes v') -> close_err v' = None ->
  opt_arg (public_in C E W2) (do_pubkey o') spk ->
  (forall ssk, opt_arg (private_in C E W1 (eo_nopw o) (eo_envpw o)) (eo_keyfile o) ssk -> sender_matches C ssk spk) ->
  let z := cli_decrypt C E W2 v' o' in x_code z = 0 /\ content (run_ops (wo_fs W2) (x_ops z)) G = Some s.
Proof.
  intros C E HC HE W v1 v2 og bn rest Ha Hpc HW K Hroom Href Hnu x Hx g W1 v o to infile s Hea Hin Hs Hto Hlen Ho F Hf HrefF HKt HKl Hblk y W2 Hy Hna v' o' more spk Ha' Hn' He' Ht' Ho' G Hf' Hov Hop Hwr Hcl Hspk Hsm z.
  destruct (generated C E HC HE W v1 v2 og bn rest Ha Hpc Hroom Hx) as (pw & kt & pt & seed & sk & pk & Hpw & HK & HP & Hsk & Hpk & Hkp & Hpo). fold x in HK, HP. fold K in HK.
  assert (P1 : private_in C E W1 (ge_nopw og) (ge_envpw og) (key_name W bn) sk). { exists kt, (Ok pw). split; [split; [exact HK|exact Href]|]. split; [exact Hpw|exact Hsk]. }
  destruct (C48_encrypt_exact C E W1 v o Ho Hf) as (_ & H). destruct (H Hy) as (to2 & in2 & blk & ssk & pks & rd & e & g' & e2 & rd2 & out & g2 & _ & _ & _ & _ & _ & _ & _ & _ & _ & (_ & R2)). clear H. fold y in R2.
  assert (P2 : private_in C E W2 (do_nopw o') (do_envpw o') (key_name W bn) sk).
  { rewrite Hn', He'. exists kt, (Ok pw). split; [split; [|exact Href]|split; [exact Hpw|exact Hsk]]. transitivity (content (wo_fs W1) K); [|exact HK]. apply R2; assumption. }
  destruct (C51_encrypt_then_decrypt C E HC W1 v o to infile s HW Hea Hin Hs Ho Hf HrefF Hlen Hblk Hy v' o' (key_name W bn) more (pub_name W bn) seed sk spk Ha' Ht' Ho' Hf' Hov Hop Hwr Hcl P2 Hkp Hspk Hsm Hto) as (Hz & Hz' & _).
  - intros pk' [(X & _)|(_ & b & (Hb & _) & Hm)]; [contradiction|]. assert (b = pt) as -> by (change (wo_fs W1) with (run_ops (wo_fs W) (x_ops x)) in Hb; change (wo_place W1) with (wo_place W) in Hb; congruence). congruence.
  - intros ssk' blk' pks' e' gg A1 A2 A3 A4. exact (Hna sk seed ssk' blk' pks' e' gg P1 Hkp A1 A2 A3 A4).
  - split; [exact Hz|exact Hz'].
Qed.
Print Assumptions C65_generate_encrypt_decrypt.

(** ** C66: generate, sign, verify *)
(** generate BN; then sign BN.key FILE; then verify with BN.pub: if the first two exit with 0, so does the third. *)
Theorem C66_generate_sign_verify :
  forall C E, crypto_ok C -> ext_ok E -> forall W v1 v2 og bn rest, ge_args og = bn :: rest -> plain_comment E (ge_comment og) ->
  let K := wo_place W (key_name W bn) in let P := wo_place W (pub_name W bn) in room_for_two v1 v2 (wo_fs W) K P ->
  wo_refused W (key_name W bn) = None -> wo_refused W (pub_name W bn) = None -> (exists e, make_public_from_string C (pub_name W bn) = Fail e) ->
  let x := cli_generate C E W v1 v2 og in x_code x = 0 ->
  let W1 := after W (x_ops x) in
  forall v o fn more, so_args o = key_name W bn :: fn :: more -> so_nopw o = ge_nopw og -> so_envpw o = ge_envpw og -> sig_file o fn <> str "-" ->
  let S := wo_place W1 (sig_file o fn) in fresh v (wo_fs W1) S -> Forall (fun p => snd p = None) (se_writes v) -> close_err v = None -> wo_refused W1 (sig_file o fn) = None ->
  yaml_keeps E (str "input=" ++ fn) -> wo_place W1 fn <> se_tmp v -> ~ leads (wo_fs W1) S (wo_place W1 fn) -> P <> se_tmp v -> ~ leads (wo_fs W1) S P ->
  let y := cli_sign C E W1 v o in x_code y = 0 ->
  cli_verify C E (after W1 (x_ops y)) [pub_name W bn; sig_file o fn; fn] = 0.
Proof.
  intros C E HC HE W v1 v2 og bn rest Ha Hpc K P Hroom HrK HrP Hns x Hx W1 v o fn more Hso Hn He Hout S Hf Hw Hcl Href HY Hft Hfl HPt HPl y Hy.
  destruct (generated C E HC HE W v1 v2 og bn rest Ha Hpc Hroom Hx) as (pw & kt & pt & seed & sk & pk & Hpw & HK & HP & Hsk & Hpk & Hkp & Hpo). fold x K P in HK, HP.
  assert (P1 : private_in C E W1 (so_nopw o) (so_envpw o) (key_name W bn) sk). { rewrite Hn, He. exists kt, (Ok pw). split; [split; [exact HK|exact HrK]|]. split; [exact Hpw|exact Hsk]. }
  destruct (C49_sign_partial C E W1 v o (key_name W bn) fn more Hso Hout Hf) as (_ & _ & H). destruct (H Hy) as (sk0 & s & c & _ & _ & _ & _ & R). specialize (R Hw Hcl). fold y in R. destruct R as (_ & R2).
  apply (C52_sign_then_verify C E HC W1 v o (key_name W bn) fn more seed (pub_name W bn) pk Hso Hout Hf Hw Hcl Href HY Hft Hfl).
  - intros sk' Hk'. apply private_ok in P1, Hk'. congruence.
  - exact Hy.
  - right. split; [exact Hns|]. exists pt. split; [split; [|exact HrP]|exact Hpk]. cbn [after wo_fs wo_place]. fold y. rewrite <- HP. apply R2; assumption.
  - exact Hpo.
Qed.
Print Assumptions C66_generate_sign_verify.

(** ** Instances *)
(** generate -E PW id; encrypt -B 4 -o out id.pub a.pub plain; decrypt -E PW -o out2 id.key out *)
Definition gen_x : outcome := cli_generate toy toyE town sf1 sf2 gen1.
Definition gtown : world := after town (x_ops gen_x).
Definition gtown1 : world := reseeded g1 gtown.
Definition sf3 : sf_env := mkSf 7 70 None [(3, None)] None None None (oct 0 2 2).
Definition sf4 : sf_env := mkSf 8 80 None [] None None None (oct 0 2 2).
Definition enc3 : enc_opts := enc_to [str "id.pub"; str "a.pub"] (str "out") [] false.
Definition gtown2 : world := after gtown1 (x_ops (cli_encrypt toy toyE gtown1 sf3 enc3)).
Definition dec3 : dec_opts := mkDo (str "out2") [] (str "PW") false false false [str "id.key"; str "out"].
Lemma run_ops_app f a b : run_ops f (a ++ b) = run_ops (run_ops f a) b.
Proof. unfold run_ops. apply fold_left_app. Qed.
Lemma gen_ops : exists a b, x_ops gen_x = commit_ops sf1 (oct 6 0 0) (wo_place town (str "id.key")) a ++ commit_ops sf2 (oct 6 4 4) (wo_place town (str "id.pub")) b.
Proof. eexists _, _. vm_compute. reflexivity. Qed.
Lemma gtown_fresh v dst : se_tmp v <= 10 -> se_ino v < 100 -> se_tmp v <> dst -> 6 < se_tmp v -> 60 < se_ino v -> fresh v (wo_fs gtown) dst.
Proof.
  intros H1 H2 H3 H4 H5. destruct gen_ops as (a & b & E). unfold gtown. cbn [after wo_fs]. rewrite E, run_ops_app.
  assert (F0 : forall v' d, v' = sf1 \/ v' = sf2 -> se_tmp v' <> d -> fresh v' (wo_fs town) d) by (intros v' d [->| ->] Hd; apply town_fresh; cbn; try lia; exact Hd).
  assert (P : forall s, wo_place town (str "id.key") <> s \/ 10 < s) by (intros s; destruct (Z.leb_spec s 10); [left|right; lia]; assert (X : (10 <? wo_place town (str "id.key")) = true) by (vm_compute; reflexivity); lia).
  assert (P2 : (10 <? wo_place town (str "id.pub")) = true) by (vm_compute; reflexivity). assert (P1 : (10 <? wo_place town (str "id.key")) = true) by (vm_compute; reflexivity).
  apply fresh_after; [| |lia|cbn; lia|cbn; lia].
  - apply fresh_after; [apply F0; [auto|cbn; lia]|apply F0; [auto|cbn; lia]|cbn; lia|cbn; lia|cbn; lia].
  - apply fresh_after; [apply F0; [auto|cbn; lia]|apply town_fresh; assumption|lia|cbn; lia|cbn; lia].
Qed.
Lemma gtown_leads d q : 10 < d -> d <> wo_place town (str "id.key") -> d <> wo_place town (str "id.pub") -> leads (wo_fs gtown) d q -> q = d.
Proof.
  intros Hd H1 H2. destruct gen_ops as (a & b & E). unfold gtown. cbn [after wo_fs]. rewrite E, run_ops_app. intros L.
  assert (P2 : (10 <? wo_place town (str "id.pub")) = true) by (vm_compute; reflexivity). assert (P1 : (10 <? wo_place town (str "id.key")) = true) by (vm_compute; reflexivity).
  apply leads_after in L; [|apply fresh_after; [apply town_fresh; cbn; lia..|cbn; lia|cbn; lia|cbn; lia]|congruence].
  apply leads_after in L; [|apply town_fresh; cbn; lia|congruence]. exact (dir_leads _ _ _ L).
Qed.
Lemma gen_room : room_for_two sf1 sf2 (wo_fs town) (wo_place town (key_name town (str "id"))) (wo_place town (pub_name town (str "id"))).
Proof.
  split; [vm_compute; discriminate|]. split; [intros L; apply dir_leads in L; revert L; vm_compute; discriminate|].
  split; [apply town_fresh; vm_compute; congruence|]. split; [apply town_fresh; vm_compute; congruence|]. split; [vm_compute; discriminate|]. split; [vm_compute; discriminate|]. split; discriminate.
Qed.
Lemma gen_comment : plain_comment toyE (ge_comment gen1).
Proof.
  split; [apply toyE_keeps|]. intros (a & b & E). apply (f_equal len) in E. rewrite !len_app in E. pose proof (len_nonneg a). pose proof (len_nonneg b). revert E. vm_compute (len (str _)). vm_compute (len (y_scalar toyE _)). lia.
Qed.
Lemma gen_code : x_code gen_x = 0. Proof. vm_compute. reflexivity. Qed.
Lemma g_input : file_holds gtown1 (str "plain") text. Proof. split; vm_compute; reflexivity. Qed.
Lemma g_code : x_code (cli_encrypt toy toyE gtown1 sf3 enc3) = 0. Proof. vm_compute. reflexivity. Qed.
Lemma g_nouser : ~ user_name (pub_name town (str "id")). Proof. intros X. apply is_user_iff in X. discriminate X. Qed.
Lemma g_key : exists sk, read_private_key toy toyE (slurp gtown1 (str "id.key")) (Some (get_pass gtown1 false (str "PW"))) = Ok sk /\ take 32 (sk_Sk sk) = fst (rand_buf 32 g0).
Proof. eexists. split; vm_compute; reflexivity. Qed.
Definition keyI : pubkey := Eval vm_compute in match read_public_key toy toyE (slurp gtown1 (str "id.pub")) with Ok pk => pk | _ => zero_pub end.
Lemma g_auth : authorized toy gtown1 [keyB].
Proof. exists (str "/h"). split; [reflexivity|]. right. exists auth_text. split; [split; vm_compute; reflexivity|vm_compute; reflexivity]. Qed.
Lemma g_pks pks : Forall2 (recipient toy toyE gtown1) [str "id.pub"; str "a.pub"] pks -> pks = [keyI; keyA].
Proof.
  intros H. inversion H as [|a k1 b l1 R1 H1 E1 E2]; subst. inversion H1 as [|a k2 b l2 R2 H2 E1 E2]; subst. inversion H2; subst. clear H H1 H2.
  apply (lookup_ok toy toyE gtown1 [keyB] _ _ g_auth) in R1, R2. revert R1 R2. vm_compute (lookup _ _ _ _ _). intros R1 R2. injection R1 as <-. injection R2 as <-. vm_compute. reflexivity.
Qed.
Definition g_sess : option (encryptor * rng) := match new_encryptor toy None 4 g1 with (Ok e0, g) => add_recipients toy e0 [keyI; keyA] g | _ => None end.
Definition eI : header * bytes := Eval vm_compute in match g_sess with Some (e, _) => (e_hdr e, e_key e) | None => (empty_header, []) end.
Lemma g_sess_eI : option_map (fun p => (e_hdr (fst p), e_key (fst p))) g_sess = Some eI. Proof. vm_compute. reflexivity. Qed.
Lemma g_naI : no_accident toy (fst eI) (fst (rand_buf 32 g0)) (snd eI). Proof. apply no_accident_ok. vm_compute. reflexivity. Qed.
Lemma g_na sk seed ssk blk pks e g : private_in toy toyE gtown1 (ge_nopw gen1) (ge_envpw gen1) (key_name town (str "id")) sk -> keypair toy seed sk ->
  opt_arg (private_in toy toyE gtown1 (eo_nopw enc3) (eo_envpw enc3)) (eo_keyfile enc3) ssk -> wo_size gtown1 (eo_size enc3) = Ok blk ->
  Forall2 (recipient toy toyE gtown1) [str "id.pub"; str "a.pub"] pks -> session toy ssk blk pks (wo_rng gtown1) e g -> no_accident toy (e_hdr e) seed (e_key e).
Proof.
  intros Hk Hkp Hs Hb Hp (e0 & g2 & Hn & Ha). apply private_ok in Hk. destruct g_key as (sk' & Hk' & Hsd). assert (sk' = sk) as -> by (change (key_name town (str "id")) with (str "id.key") in Hk; cbn [gen1 ge_nopw ge_envpw] in Hk; congruence).
  assert (seed = fst (rand_buf 32 g0)) as ->. { rewrite <- Hsd. destruct Hkp as [L S _ _]. rewrite S. rewrite take_app_eq; [reflexivity|symmetry; exact L]. }
  apply g_pks in Hp. subst pks. assert (blk = 4) as -> by (revert Hb; vm_compute; congruence). assert (ssk = None) as -> by (destruct ssk; [destruct Hs as (X & _); contradiction X; reflexivity|reflexivity]).
  assert (M : g_sess = Some (e, g)) by (unfold g_sess; change (wo_rng gtown1) with g1 in Hn; rewrite Hn; exact Ha).
  pose proof g_sess_eI as X. rewrite M in X. cbn [option_map fst] in X. assert (Y : eI = (e_hdr e, e_key e)) by congruence. pose proof g_naI as Z. rewrite Y in Z. exact Z.
Qed.
Definition g_whole : read_whole town := town_whole.
Lemma g_to : In (pub_name town (str "id")) [str "id.pub"; str "a.pub"]. Proof. left. vm_compute. reflexivity. Qed.
Lemma g_out_file : a_file (eo_outfile enc3). Proof. split; vm_compute; discriminate. Qed.
Lemma g_out2_file : a_file (do_outfile dec3). Proof. split; vm_compute; discriminate. Qed.
Lemma g_fresh3 : fresh sf3 (wo_fs gtown1) (wo_place gtown1 (eo_outfile enc3)).
Proof. apply gtown_fresh; [vm_compute; congruence..]. Qed.
Lemma g_leads : ~ leads (wo_fs gtown1) (wo_place gtown1 (eo_outfile enc3)) (wo_place town (key_name town (str "id"))).
Proof. intros L. apply gtown_leads in L; [|vm_compute; congruence..]. revert L. vm_compute. discriminate. Qed.
Lemma g_blk blk : wo_size gtown1 (eo_size enc3) = Ok blk -> 0 <= blk < 2^30.
Proof. intros H. assert (blk = 4) as -> by (revert H; vm_compute; congruence). lia. Qed.
Lemma enc_ops3 : exists b, x_ops (cli_encrypt toy toyE gtown1 sf3 enc3) = commit_ops sf3 (oct 6 0 0) (wo_place gtown1 (str "out")) b.
Proof. eexists. vm_compute. reflexivity. Qed.
Lemma g_fresh4 : fresh sf4 (wo_fs gtown2) (wo_place gtown2 (do_outfile dec3)).
Proof.
  destruct enc_ops3 as (b & E). unfold gtown2. cbn [after wo_fs]. rewrite E. apply fresh_after; [apply gtown_fresh; vm_compute; congruence|apply gtown_fresh; vm_compute; congruence|vm_compute; congruence|vm_compute; congruence|vm_compute; congruence].
Qed.
Lemma g_none : content (wo_fs gtown2) (wo_place gtown2 (do_outfile dec3)) = None. Proof. vm_compute. reflexivity. Qed.
Lemma g_sender ssk : opt_arg (private_in toy toyE gtown1 (eo_nopw enc3) (eo_envpw enc3)) (eo_keyfile enc3) ssk -> sender_matches toy ssk None.
Proof. destruct ssk; [intros (X & _); contradiction X; reflexivity|intros _; exact I]. Qed.
Lemma g_nopub : opt_arg (public_in toy toyE gtown2) (do_pubkey dec3) None. Proof. reflexivity. Qed.
Lemma g_args : eo_args enc3 = [str "id.pub"; str "a.pub"] ++ [str "plain"]. Proof. reflexivity. Qed.
Lemma g_noin : str "plain" <> str "-". Proof. discriminate. Qed.
Lemma g_few : len [str "id.pub"; str "a.pub"] <= 15885. Proof. vm_compute. discriminate. Qed.
Lemma g_tmp : wo_place town (key_name town (str "id")) <> se_tmp sf3. Proof. vm_compute. discriminate. Qed.
Lemma g_close : close_err sf4 = None. Proof. reflexivity. Qed.
Lemma g_dargs : do_args dec3 = key_name town (str "id") :: eo_outfile enc3 :: []. Proof. vm_compute. reflexivity. Qed.
Example C65_instance : let z := cli_decrypt toy toyE gtown2 sf4 dec3 in x_code z = 0 /\ content (run_ops (wo_fs gtown2) (x_ops z)) (wo_place gtown2 (do_outfile dec3)) = Some text.
Proof.
  exact (C65_generate_encrypt_decrypt toy toyE toy_ok toyE_ok town sf1 sf2 gen1 (str "id") [] eq_refl gen_comment g_whole gen_room eq_refl g_nouser gen_code g1
    sf3 enc3 [str "id.pub"; str "a.pub"] (str "plain") text g_args g_noin g_input g_to g_few g_out_file g_fresh3 eq_refl g_tmp g_leads g_blk g_code g_na
    sf4 dec3 [] None g_dargs eq_refl eq_refl eq_refl g_out2_file g_fresh4 (or_intror g_none) eq_refl (Forall_nil _) g_close g_nopub g_sender).
Qed.

(** generate -E PW id; sign -E PW id.key plain; verify id.pub plain.sig plain *)
Definition sign3 : sign_opts := mkSo [] (str "PW") false false [str "id.key"; str "plain"].
Lemma s_code : x_code (cli_sign toy toyE gtown sf3 sign3) = 0. Proof. vm_compute. reflexivity. Qed.
Lemma s_nokey : exists e, make_public_from_string toy (pub_name town (str "id")) = Fail e. Proof. eexists. vm_compute. reflexivity. Qed.
Lemma s_args : so_args sign3 = key_name town (str "id") :: str "plain" :: []. Proof. vm_compute. reflexivity. Qed.
Lemma s_out : sig_file sign3 (str "plain") <> str "-". Proof. vm_compute. discriminate. Qed.
Lemma s_fresh : fresh sf3 (wo_fs gtown) (wo_place gtown (sig_file sign3 (str "plain"))).
Proof. apply gtown_fresh; [vm_compute; congruence..]. Qed.
Lemma s_writes : Forall (fun p : Z * option goerr => snd p = None) (se_writes sf3). Proof. constructor; [reflexivity|constructor]. Qed.
Lemma s_leads q : q <> wo_place gtown (sig_file sign3 (str "plain")) -> ~ leads (wo_fs gtown) (wo_place gtown (sig_file sign3 (str "plain"))) q.
Proof. intros H L. apply gtown_leads in L; [contradiction|vm_compute; congruence..]. Qed.
Lemma s_tmp1 : wo_place gtown (str "plain") <> se_tmp sf3. Proof. vm_compute. discriminate. Qed.
Lemma s_tmp2 : wo_place town (pub_name town (str "id")) <> se_tmp sf3. Proof. vm_compute. discriminate. Qed.
Lemma s_d1 : wo_place gtown (str "plain") <> wo_place gtown (sig_file sign3 (str "plain")). Proof. vm_compute. discriminate. Qed.
Lemma s_d2 : wo_place town (pub_name town (str "id")) <> wo_place gtown (sig_file sign3 (str "plain")). Proof. vm_compute. discriminate. Qed.
Example C66_instance : cli_verify toy toyE (after gtown (x_ops (cli_sign toy toyE gtown sf3 sign3))) [pub_name town (str "id"); sig_file sign3 (str "plain"); str "plain"] = 0.
Proof.
  exact (C66_generate_sign_verify toy toyE toy_ok toyE_ok town sf1 sf2 gen1 (str "id") [] eq_refl gen_comment gen_room eq_refl eq_refl s_nokey gen_code
    sf3 sign3 (str "plain") [] s_args eq_refl eq_refl s_out s_fresh s_writes eq_refl eq_refl (toyE_keeps _) s_tmp1 (s_leads _ s_d1) s_tmp2 (s_leads _ s_d2) s_code).
Qed.
