(** C73: whole command lines, one after the other. *)
From Verif Require Import Bytes BytesLemmas GoErr GoIO SpecIO IOProofs Pb SpecPb Crypto CryptoLaws Keys Sign SpecSign Encrypt Decrypt Spec Support EncryptProofs DecryptProofs OpenProofs Hostile
  KeyFiles ExtLaws Base64 GoText Ssh SpecSsh SshProofs SpecBase64 Base64Proofs FreeProofs Fs SpecFs FsProofs Store Cli SpecCli CliProofs Thm_Encrypt Thm_Decrypt Thm_Sign Thm_Ssh Toy Scene ToyExt Thm_KeyFiles Thm_Files CliScene Thm_Cli Thm_Commands Thm_Chain Stream SpecStream Main Thm_Main Thm_Pipe Thm_EndToEnd Flags SpecFlags FlagsProofs Thm_Flags.
Local Notation length := List.length.

(** ** Specification: the words ask for a command with these options and arguments *)
Definition asks_generate (argv : list bytes) (o : gen_opts) : Prop :=
  exists args items, calls argv Generate args /\ command_line generate_options true args items /\ switch items "help" false /\ generate_means items o.
Definition asks_sign (argv : list bytes) (o : sign_opts) : Prop :=
  exists args items, calls argv Sign args /\ command_line sign_options true args items /\ switch items "help" false /\ sign_means items o.
Definition asks_verify (argv : list bytes) (l : list bytes) : Prop :=
  exists args items, calls argv Verify args /\ command_line verify_options true args items /\ switch items "help" false /\ words items = l.
Definition asks_encrypt (argv : list bytes) (o : enc_opts) : Prop :=
  exists args items, calls argv Encrypt_ args /\ command_line encrypt_options true args items /\ encrypt_means items o.
Definition asks_decrypt (argv : list bytes) (o : dec_opts) : Prop :=
  exists args items, calls argv Decrypt_ args /\ command_line decrypt_options true args items /\ decrypt_means items o.

Lemma asked_generate C E W v1 v2 argv o : asks_generate argv o -> main C E W declared v1 v2 argv = cli_generate C E W v1 v2 o.
Proof. intros (args & items & H & CL & Hh & M). pose proof (C71_command C E W v1 v2 _ _ _ H) as X. cbv zeta in X. apply (proj2 (proj1 X items CL)); assumption. Qed.
Lemma asked_sign C E W v1 v2 argv o : asks_sign argv o -> main C E W declared v1 v2 argv = cli_sign C E W v1 o.
Proof. intros (args & items & H & CL & Hh & M). pose proof (C71_command C E W v1 v2 _ _ _ H) as X. cbv zeta in X. apply (proj2 (proj1 X items CL)); assumption. Qed.
Lemma asked_verify C E W v1 v2 argv l : asks_verify argv l -> exists q, main C E W declared v1 v2 argv = cli_verify_cmd C E W q l.
Proof.
  intros (args & items & H & CL & Hh & <-). pose proof (C71_command C E W v1 v2 _ _ _ H) as X. cbv zeta in X. exists (get_bool (gives items) (str "quiet") false).
  apply (proj2 (proj1 X items CL) Hh). rewrite verify_same in CL. ty verify_table CL "quiet"%string. apply switch_iff; auto.
Qed.
Lemma asked_encrypt C E W v1 v2 argv o : asks_encrypt argv o -> main C E W declared v1 v2 argv = cli_encrypt C E W v1 o.
Proof. intros (args & items & H & CL & M). pose proof (C71_command C E W v1 v2 _ _ _ H) as X. cbv zeta in X. apply (proj1 X items CL); assumption. Qed.
Lemma asked_decrypt C E W v1 v2 argv o : asks_decrypt argv o -> main C E W declared v1 v2 argv = cli_decrypt C E W v1 o.
Proof. intros (args & items & H & CL & M). pose proof (C71_command C E W v1 v2 _ _ _ H) as X. cbv zeta in X. apply (proj1 X items CL); assumption. Qed.

(** C73.  The words [argv1] ask for generate, [argv2] for encrypt to the new key (among others), [argv3] for decrypt with it: as C65, for every
    way of writing the three command lines. *)
Theorem C73_encrypt_words :
  forall C E, crypto_ok C -> ext_ok E -> forall W v1 v2 argv1 og bn rest, asks_generate argv1 og -> ge_args og = bn :: rest -> plain_comment E (ge_comment og) -> read_whole W ->
  let K := wo_place W (key_name W bn) in room_for_two v1 v2 (wo_fs W) K (wo_place W (pub_name W bn)) ->
  wo_refused W (key_name W bn) = None -> ~ user_name (pub_name W bn) ->
  let x := main C E W declared v1 v2 argv1 in x_code x = 0 ->
  forall g, let W1 := reseeded g (after W (x_ops x)) in
  forall v vx argv2 o to infile s, asks_encrypt argv2 o -> eo_args o = to ++ [infile] -> infile <> str "-" -> file_holds W1 infile s -> In (pub_name W bn) to -> len to <= 15885 ->
  a_file (eo_outfile o) -> let F := wo_place W1 (eo_outfile o) in fresh v (wo_fs W1) F -> wo_refused W1 (eo_outfile o) = None ->
  K <> se_tmp v -> ~ leads (wo_fs W1) F K ->
  (forall blk, wo_size W1 (eo_size o) = Ok blk -> 0 <= blk < 2^30) ->
  let y := main C E W1 declared v vx argv2 in let W2 := after W1 (x_ops y) in x_code y = 0 ->
  (forall sk seed ssk blk pks e g, private_in C E W1 (ge_nopw og) (ge_envpw og) (key_name W bn) sk -> keypair C seed sk ->
     opt_arg (private_in C E W1 (eo_nopw o) (eo_envpw o)) (eo_keyfile o) ssk -> wo_size W1 (eo_size o) = Ok blk ->
     Forall2 (recipient C E W1) to pks -> session C ssk blk pks (wo_rng W1) e g -> no_accident C (e_hdr e) seed (e_key e)) ->
  forall v' vy argv3 o' more spk, asks_decrypt argv3 o' -> do_args o' = key_name W bn :: eo_outfile o :: more -> do_nopw o' = ge_nopw og -> do_envpw o' = ge_envpw og -> do_test o' = false ->
  a_file (do_outfile o') -> let G := wo_place W2 (do_outfile o') in fresh v' (wo_fs W2) G -> do_force o' = true \/ content (wo_fs W2) G = None ->
  se_open v' = None -> Forall (fun p => snd p = None) (se_writes v') -> close_err v' = None ->
  opt_arg (public_in C E W2) (do_pubkey o') spk ->
  (forall ssk, opt_arg (private_in C E W1 (eo_nopw o) (eo_envpw o)) (eo_keyfile o) ssk -> sender_matches C ssk spk) ->
  let z := main C E W2 declared v' vy argv3 in x_code z = 0 /\ content (run_ops (wo_fs W2) (x_ops z)) G = Some s.
Proof.
  intros C E HC HE W v1 v2 argv1 og bn rest A1 H1 H2 H3 K H4 H5 H6 x. subst x. rewrite (asked_generate C E W v1 v2 _ _ A1). intros H7 g W1 v vx argv2 o to infile s A2 H8 H9 H10 H11 H12 H13 F H14 H15 H16 H17 H18 y.
  subst y. rewrite (asked_encrypt C E W1 v vx _ _ A2). intros W2 H19 H20 v' vy argv3 o' more spk A3 H21 H22 H23 H24 H25 G H26 H27 H28 H29 H30 H31 H32 z. subst z. rewrite (asked_decrypt C E W2 v' vy _ _ A3).
  exact (C65_generate_encrypt_decrypt C E HC HE W v1 v2 og bn rest H1 H2 H3 H4 H5 H6 H7 g v o to infile s H8 H9 H10 H11 H12 H13 H14 H15 H16 H17 H18 H19 H20 v' o' more spk H21 H22 H23 H24 H25 H26 H27 H28 H29 H30 H31 H32).
Qed.

Theorem C73_sign_words :
  forall C E, crypto_ok C -> ext_ok E -> forall W v1 v2 argv1 og bn rest, asks_generate argv1 og -> ge_args og = bn :: rest -> plain_comment E (ge_comment og) ->
  let K := wo_place W (key_name W bn) in let P := wo_place W (pub_name W bn) in room_for_two v1 v2 (wo_fs W) K P ->
  wo_refused W (key_name W bn) = None -> wo_refused W (pub_name W bn) = None -> (exists e, make_public_from_string C (pub_name W bn) = Fail e) ->
  let x := main C E W declared v1 v2 argv1 in x_code x = 0 ->
  let W1 := after W (x_ops x) in
  forall v vx argv2 o fn more, asks_sign argv2 o -> so_args o = key_name W bn :: fn :: more -> so_nopw o = ge_nopw og -> so_envpw o = ge_envpw og -> sig_file o fn <> str "-" ->
  let S := wo_place W1 (sig_file o fn) in fresh v (wo_fs W1) S -> Forall (fun p => snd p = None) (se_writes v) -> close_err v = None -> wo_refused W1 (sig_file o fn) = None ->
  yaml_keeps E (str "input=" ++ fn) -> wo_place W1 fn <> se_tmp v -> ~ leads (wo_fs W1) S (wo_place W1 fn) -> P <> se_tmp v -> ~ leads (wo_fs W1) S P ->
  let y := main C E W1 declared v vx argv2 in x_code y = 0 ->
  forall vy vz argv3, asks_verify argv3 [pub_name W bn; sig_file o fn; fn] ->
  x_code (main C E (after W1 (x_ops y)) declared vy vz argv3) = 0.
Proof.
  intros C E HC HE W v1 v2 argv1 og bn rest A1 H1 H2 K P H3 H4 H5 H6 x. subst x. rewrite (asked_generate C E W v1 v2 _ _ A1). intros H7 W1 v vx argv2 o fn more A2 H8 H9 H10 H11 S H12 H13 H14 H15 H16 H17 H18 H19 H20 y.
  subst y. rewrite (asked_sign C E W1 v vx _ _ A2). intros H21 vy vz argv3 A3. destruct (asked_verify C E (after W1 (x_ops (cli_sign C E W1 v o))) vy vz _ _ A3) as (q & ->).
  pose proof (C66_generate_sign_verify C E HC HE W v1 v2 og bn rest H1 H2 H3 H4 H5 H6 H7 v o fn more H8 H9 H10 H11 H12 H13 H14 H15 H16 H17 H18 H19 H20 H21) as V.
  rewrite (proj1 (proj2 (C62_verify_report C E _ q _))). exact V.
Qed.

(** Instances: sigtool g -cme -E PW id; sigtool Enc id.pub -B4 -o out a.pub --env-password=PW plain; sigtool decr -EPW --outfile out2 id.key out *)
Lemma w_gen : asks_generate [str "g"; str "-cme"; str "-E"; str "PW"; str "id"] gen1.
Proof.
  destruct (proj1 (proj1 (proj2 (C71_options [str "-cme"; str "-E"; str "PW"; str "id"])) gen1)) as (items & CL & H & M); [vm_compute; reflexivity|].
  eexists _, items. split; [|split; [exact CL|split; [exact H|exact M]]].
  destruct (proj1 (proj1 (C71_options [str "g"; str "-cme"; str "-E"; str "PW"; str "id"]) (mkMain false false [str "g"; str "-cme"; str "-E"; str "PW"; str "id"]))) as (it & C0 & A & B & Wd); [vm_compute; reflexivity|].
  exists it, (str "g"). split; [exact C0|]. split; [exact A|]. split; [exact B|]. split; [symmetry; exact Wd|]. exists (str "g"), (str "enerate"). split; [discriminate|]. split; [repeat constructor|reflexivity].
Qed.
Lemma w_enc : asks_encrypt [str "Enc"; str "id.pub"; str "-B4"; str "-o"; str "out"; str "a.pub"; str "--env-password=PW"; str "plain"] enc3.
Proof.
  destruct (proj1 (proj1 (proj2 (proj2 (proj2 (proj2 (C71_options [str "id.pub"; str "-B4"; str "-o"; str "out"; str "a.pub"; str "--env-password=PW"; str "plain"]))))) enc3)) as (items & CL & M); [vm_compute; reflexivity|].
  eexists _, items. split; [|split; [exact CL|exact M]].
  destruct (proj1 (proj1 (C71_options [str "Enc"; str "id.pub"; str "-B4"; str "-o"; str "out"; str "a.pub"; str "--env-password=PW"; str "plain"])
    (mkMain false false [str "Enc"; str "id.pub"; str "-B4"; str "-o"; str "out"; str "a.pub"; str "--env-password=PW"; str "plain"]))) as (it & C0 & A & B & Wd); [vm_compute; reflexivity|].
  exists it, (str "Enc"). split; [exact C0|]. split; [exact A|]. split; [exact B|]. split; [symmetry; exact Wd|]. exact c55_enc.
Qed.
Lemma w_dec : asks_decrypt [str "decr"; str "-EPW"; str "--outfile"; str "out2"; str "id.key"; str "out"] dec3.
Proof.
  destruct (proj1 (proj2 (proj2 (proj2 (proj2 (proj2 (C71_options [str "-EPW"; str "--outfile"; str "out2"; str "id.key"; str "out"]))))) dec3)) as (items & CL & M); [vm_compute; reflexivity|].
  eexists _, items. split; [|split; [exact CL|exact M]].
  destruct (proj1 (proj1 (C71_options [str "decr"; str "-EPW"; str "--outfile"; str "out2"; str "id.key"; str "out"]) (mkMain false false [str "decr"; str "-EPW"; str "--outfile"; str "out2"; str "id.key"; str "out"]))) as (it & C0 & A & B & Wd); [vm_compute; reflexivity|].
  exists it, (str "decr"). split; [exact C0|]. split; [exact A|]. split; [exact B|]. split; [symmetry; exact Wd|]. exists (str "decr"), (str "ypt"). split; [discriminate|]. split; [repeat constructor|reflexivity].
Qed.
Example C73_instance : exists x y z,
  x = main toy toyE town declared sf1 sf2 [str "g"; str "-cme"; str "-E"; str "PW"; str "id"] /\ x_code x = 0 /\
  y = main toy toyE (reseeded g1 (after town (x_ops x))) declared sf3 sf3
        [str "Enc"; str "id.pub"; str "-B4"; str "-o"; str "out"; str "a.pub"; str "--env-password=PW"; str "plain"] /\ x_code y = 0 /\
  let W2 := after (reseeded g1 (after town (x_ops x))) (x_ops y) in
  z = main toy toyE W2 declared sf4 sf4 [str "decr"; str "-EPW"; str "--outfile"; str "out2"; str "id.key"; str "out"] /\
  x_code z = 0 /\ content (run_ops (wo_fs W2) (x_ops z)) (wo_place W2 (do_outfile dec3)) = Some Scene.text.
Proof.
  exists gen_x, (cli_encrypt toy toyE gtown1 sf3 enc3), (cli_decrypt toy toyE gtown2 sf4 dec3).
  split; [symmetry; exact (asked_generate toy toyE town sf1 sf2 _ _ w_gen)|]. split; [exact gen_code|].
  fold gtown. fold gtown1. split; [symmetry; exact (asked_encrypt toy toyE gtown1 sf3 sf3 _ _ w_enc)|]. split; [exact g_code|]. cbv zeta. fold gtown2.
  split; [symmetry; exact (asked_decrypt toy toyE gtown2 sf4 sf4 _ _ w_dec)|]. exact C65_instance.
Qed.
(** C72, continued.  README.md on decrypt: "if the -v option is not used, then decryption will proceed without verifying the sender".  It does not:
    a file encrypted with -s cannot be decrypted without -v by any of its recipients. *)
Theorem C72_unverified_refuted :
  forall C E, crypto_ok C -> forall ssk blk pks e s file0, made C (Some ssk) blk pks e s file0 ->
  forall W v1 v2 argv o K F more seed pk sk, asks_decrypt argv o -> do_args o = K :: F :: more -> do_pubkey o = [] ->
  read_whole W -> F <> str "-" -> file_holds W F file0 ->
  private_in C E W (do_nopw o) (do_envpw o) K sk -> keypair C seed sk -> In pk pks -> pubof C seed pk -> no_accident C (e_hdr e) seed (e_key e) ->
  x_code (main C E W declared v1 v2 argv) <> 0.
Proof.
  intros C E HC ssk blk pks e s file0 Hm W v1 v2 argv o K F more seed pk sk Hask Ha Hpub Hw Hd Hh Hs Hk Hin Hp Hna.
  rewrite (asked_decrypt C E W v1 v2 _ _ Hask).
  destruct (C20_refuted C HC ssk blk pks e s file0 Hm _ _ seed pk sk (proj1 (Hw F file0)) Hin Hp Hk Hna) as (d0 & rd' & d & sk' & x & En & Es & _).
  destruct (do_test o) eqn:Ht.
  { intros X. destruct (C45_test_mode C E W v1 o Ht) as (_ & _ & [T _]). destruct (T X) as (kf & more2 & sk2 & pk2 & rd & d1 & d2 & out & Ha2 & Hs2 & Hp2 & Hi & Ho & _).
    rewrite Ha in Ha2. injection Ha2 as <- <-. cbn [hd] in Hi.
    assert (sk2 = sk) by (apply private_ok in Hs, Hs2; congruence). subst sk2.
    assert (pk2 = None) by (destruct pk2; [destruct Hp2 as [Hp2 _]; contradiction|reflexivity]). subst pk2.
    destruct Hi as [[Hi _]|(_ & b & Hb & ->)]; [contradiction|]. assert (b = file0) by (destruct Hb as [Hb _], Hh as [Hh _]; congruence). subst b.
    destruct Ho as (d0' & rd2 & sk3 & En' & Es'). rewrite En in En'. injection En' as <- <-. rewrite Es in Es'. discriminate. }
  destruct (cli_decrypt_any C E W v1 o Ht) as [(X & _)|(kf & more2 & sk2 & pk2 & rd & Ha2 & Hs2 & Hp2 & Hi & ->)]; [exact X|].
  rewrite Ha in Ha2. injection Ha2 as <- <-. cbn [hd] in Hi.
  assert (sk2 = sk) by (apply private_ok in Hs, Hs2; congruence). subst sk2.
  assert (pk2 = None) by (destruct pk2; [destruct Hp2 as [Hp2 _]; contradiction|reflexivity]). subst pk2.
  destruct Hi as [[Hi _]|(_ & b & Hb & ->)]; [contradiction|]. assert (b = file0) by (destruct Hb as [Hb _], Hh as [Hh _]; congruence). subst b.
  assert (B : forall w, dec_body C sk None (wo_pieces W F file0) w = (1, w)) by (intros w; unfold dec_body; rewrite En, Es; reflexivity).
  unfold with_output. destruct (names_file _).
  - destruct (safe_open _ _ _ _) as [u|y|y]; [|discriminate..]. rewrite B. discriminate.
  - rewrite B. discriminate.
Qed.
Example C72_unverified_instance :
  x_code (main toy toyE town1 declared sf2 sf2 [str "decrypt"; str "--no-password"; str "-o"; str "out2"; str "a.key"; str "out"]) = 1 /\
  x_code (main toy toyE town1 declared sf2 sf2 [str "decrypt"; str "--no-password"; str "-o"; str "out2"; str "-v"; str "s.pub"; str "a.key"; str "out"]) = 0.
Proof. split; vm_compute; reflexivity. Qed.
Print Assumptions C72_unverified_refuted.
Print Assumptions C73_encrypt_words.
Print Assumptions C73_sign_words.
