(** C80: the exact texts of key and signature files. *)
From Verif Require Import Bytes BytesLemmas GoErr GoIO SpecIO IOProofs Support Crypto CryptoLaws Keys Sign SpecSign Spec KeyFiles ExtLaws Base64 SpecBase64 GoText Ssh SpecSsh
  Fs SpecFs FsProofs Store Cli SpecCli CliProofs Toy Scene ToyExt CliScene Thm_KeyFiles Thm_Files Thm_Commands.
Require Import ZifyBool.
Ltac Zify.zify_post_hook ::= Z.div_mod_to_equations.
Local Notation length := List.length.

(** ** Specification: the formats of the README *)
Definition line (k : string) (v : bytes) : bytes := str k ++ str ": " ++ v ++ [x0a].
(** the comment, as YAML quotes it; no line if it is empty *)
Definition comment_line (E : ext) (comment : bytes) : bytes := match comment with [] => [] | _ => line "comment" (y_scalar E comment) end.
(** AES-256-GCM of the 64 key bytes under scrypt(SHA-512(passphrase), salt, N = 2^19, r = 8, p = 1); the nonce is the first 12 bytes of the salt *)
Definition private_text (C : crypto) (E : ext) (comment pw salt skb : bytes) : bytes :=
  comment_line E comment ++
  line "esk" (b64_encode (gcm_seal C (scrypt C (sha512 C pw) salt (2^19) 8 1) (take 12 salt) skb [])) ++
  line "salt" (b64_encode salt) ++ line "algo" (str "scrypt-sha256") ++ line "Z" (str "524288") ++ line "r" (str "8") ++ line "p" (str "1").
Definition public_text (C : crypto) (E : ext) (comment pkb : bytes) : bytes :=
  comment_line E comment ++ line "pk" (b64_encode pkb) ++ line "hash" (b64_encode (take 16 (sha256 C pkb))).
Definition signature_text (C : crypto) (E : ext) (comment pkb sig : bytes) : bytes :=
  comment_line E comment ++ line "pkhash" (b64_encode (take 16 (sha256 C pkb))) ++ line "signature" (b64_encode sig).

(** ** Proofs *)
Lemma opt_comment E c : y_opt E "comment" c = comment_line E c.
Proof. unfold y_opt, comment_line. destruct c; [reflexivity|]. rewrite len_cons. pose proof (len_nonneg c). destruct (Z.eqb_spec (1 + len c) 0); [lia|reflexivity]. Qed.
Lemma b64_nonempty b : 0 < len b -> (len (b64_encode b) =? 0) = false.
Proof. intros H. destruct b as [|x [|y [|z b]]]; [cbn in H; lia|reflexivity..]. Qed.
(** the texts that MarshalBinary makes; the salt is the 32 bytes drawn *)
Theorem C80_marshal :
  forall C E, crypto_ok C -> ext_ok E ->
  (forall sk comment pw g salt g', len (sk_Sk sk) = 64 -> rand_buf 32 g = (salt, g') ->
     marshal_private C E sk comment pw g = (Ok (private_text C E comment pw salt (sk_Sk sk)), g')) /\
  (forall pk comment, len (pk_Pk pk) = 32 -> named C pk -> marshal_public E pk comment = public_text C E comment (pk_Pk pk)) /\
  (forall s comment pkb, len (sig_Sig s) = 64 -> sig_pkhash s = take 16 (sha256 C pkb) -> marshal_signature E s comment = signature_text C E comment pkb (sig_Sig s)).
Proof.
  intros C E HC HE. split; [|split].
  - intros sk comment pw g salt g' Hl Hr. pose proof (marshal_private_spec C E sk comment pw g HC) as H. rewrite Hr in H. rewrite H. do 2 f_equal.
    assert (Hs : len salt = 32) by (eapply len_rand_buf; [|exact Hr]; lia).
    unfold yaml_priv, private_text. cbn [sp_comment sp_esk sp_salt sp_algo sp_N sp_R sp_P]. rewrite opt_comment. unfold sealed, file_key.
    set (esk := gcm_seal C _ _ _ _). assert (He : len esk = 80) by (unfold esk; rewrite (ok_seal_len C HC); unfold gcm_overhead; lia).
    rewrite (ok_y_base64 E HE esk) by (rewrite He; discriminate). unfold y_opt. rewrite (b64_nonempty salt) by lia. rewrite (ok_y_base64 E HE salt) by (rewrite Hs; discriminate).
    change (len (str "scrypt-sha256") =? 0) with false. rewrite (ok_y_algo E HE). unfold y_optint. change (2 ^ 19 =? 0) with false. change (8 =? 0) with false. change (1 =? 0) with false. cbv iota.
    rewrite (ok_y_N E HE), (ok_y_r E HE), (ok_y_p E HE). reflexivity.
  - intros pk comment Hl Hn. unfold marshal_public, yaml_pub, public_text. cbn [su_comment su_pk su_hash]. rewrite opt_comment, Hn.
    rewrite (ok_y_base64 E HE (pk_Pk pk)) by (rewrite Hl; discriminate). rewrite (ok_y_base64 E HE (take 16 _)); [reflexivity|]. rewrite len_take_le by (rewrite (ok_sha256_len C HC); lia). discriminate.
  - intros s comment pkb Hl Hn. unfold marshal_signature, yaml_sig, signature_text. cbn [ss_comment ss_pkhash ss_sig]. rewrite opt_comment, Hn. unfold y_opt.
    assert (Hh : len (take 16 (sha256 C pkb)) = 16) by (apply len_take_le; rewrite (ok_sha256_len C HC); lia).
    rewrite b64_nonempty by lia. rewrite (ok_y_base64 E HE (take 16 _)) by (rewrite Hh; discriminate). rewrite (ok_y_base64 E HE (sig_Sig s)) by (rewrite Hl; discriminate). reflexivity.
Qed.
Print Assumptions C80_marshal.

(** what generate writes: the seed is the first 32 bytes drawn, the salt the next 32 *)
Lemma generate_success C E W v1 v2 o bn rest : ge_args o = bn :: rest -> x_code (cli_generate C E W v1 v2 o) = 0 ->
  exists pw kt seed g1 g2 m m2, passphrase W (ge_nopw o) (ge_envpw o) (Ok pw) /\ rand_buf 32 (wo_rng W) = (seed, g1) /\
    marshal_private C E (new_private_key C seed) (ge_comment o) pw g1 = (Ok kt, g2) /\
    x_ops (cli_generate C E W v1 v2 o) = commit_ops v1 m (wo_place W (wo_clean W bn ++ str ".key")) kt ++
      commit_ops v2 m2 (wo_place W (wo_clean W bn ++ str ".pub")) (marshal_public E (sk_pk (new_private_key C seed)) (ge_comment o)).
Proof.
  intros Ha. unfold cli_generate. rewrite Ha. destruct (negb (ge_force o) && _); [discriminate|].
  destruct (get_pass W (ge_nopw o) (ge_envpw o)) as [pw|e|p] eqn:Ep; [|discriminate..].
  destruct (rand_buf 32 (wo_rng W)) as [seed g] eqn:Er. unfold serialize_private.
  destruct (marshal_private C E (new_private_key C seed) (ge_comment o) pw g) as [[kt|e|p] g'] eqn:Em; [|discriminate..].
  destruct (write_file v1 (oct 6 0 0) (wo_fs W) (wo_place W (wo_clean W bn ++ str ".key")) kt (ge_force o)) as [ops1 r1] eqn:E1.
  destruct (write_file_spec _ _ _ _ _ _ _ _ E1) as [(-> & Ht & _)|(e & -> & Ho)]; [|discriminate]. unfold serialize_public.
  destruct (write_file v2 _ _ _ _ (ge_force o)) as [ops2 r2] eqn:E2. cbn [x_code x_ops].
  destruct (write_file_spec _ _ _ _ _ _ _ _ E2) as [(-> & Ht2 & _)|(e & -> & Ho)]; [|discriminate]. intros _.
  inversion Ht as [| |m Hm]; subst. inversion Ht2 as [| |m2 Hm2]; subst. exists pw, kt, seed, g, g', m, m2.
  split; [pose proof (get_pass_ok W (ge_nopw o) (ge_envpw o)) as G; rewrite Ep in G; exact G|]. split; [reflexivity|]. split; [exact Em|reflexivity].
Qed.
Theorem C80_generate :
  forall C E, crypto_ok C -> ext_ok E -> forall W v1 v2 o bn rest, ge_args o = bn :: rest ->
  let f := wo_fs W in let K := wo_place W (wo_clean W bn ++ str ".key") in let P := wo_place W (wo_clean W bn ++ str ".pub") in
  K <> P -> ~ leads f K P -> fresh v1 f K -> fresh v2 f P -> se_tmp v1 <> P -> se_tmp v2 <> K -> se_tmp v1 <> se_tmp v2 -> se_ino v1 <> se_ino v2 ->
  let x := cli_generate C E W v1 v2 o in x_code x = 0 ->
  exists pw seed salt g1 g2, passphrase W (ge_nopw o) (ge_envpw o) (Ok pw) /\ rand_buf 32 (wo_rng W) = (seed, g1) /\ rand_buf 32 g1 = (salt, g2) /\
    content (run_ops f (x_ops x)) K = Some (private_text C E (ge_comment o) pw salt (seed ++ ed_public C seed)) /\
    content (run_ops f (x_ops x)) P = Some (public_text C E (ge_comment o) (ed_public C seed)).
Proof.
  intros C E HC HE W v1 v2 o bn rest Ha f K P HKP HL F1 F2 T1 T2 T12 I12 x H0.
  destruct (generate_success C E W v1 v2 o bn rest Ha H0) as (pw & kt & seed & g1 & g2 & m & m2 & Hp & Hr & Hm & Hops). fold x in Hops. fold K P in Hops.
  destruct (rand_buf 32 g1) as [salt g3] eqn:Eg. exists pw, seed, salt, g1, g3. split; [exact Hp|]. split; [exact Hr|]. split; [exact Eg|].
  assert (Hs : len seed = 32) by (eapply len_rand_buf; [|exact Hr]; lia).
  destruct (C80_marshal C E HC HE) as (M1 & M2 & _).
  assert (Lp : len (ed_public C seed) = 32) by apply (ok_ed_public_len C HC).
  rewrite (M1 (new_private_key C seed) (ge_comment o) pw g1 salt g3) in Hm; [|cbn [new_private_key sk_Sk]; rewrite len_app; lia|exact Eg].
  rewrite (M2 (sk_pk (new_private_key C seed)) (ge_comment o)) in Hops; [|exact Lp|reflexivity]. injection Hm as <- _.
  rewrite Hops, run_app. set (pt := public_text _ _ _ _) in *. set (kt := private_text _ _ _ _ _ _) in *. set (f1 := run_ops f (commit_ops v1 m K kt)).
  assert (Ht2 : trace v2 P pt (commit_ops v2 m2 P pt) true) by (unfold commit_ops; constructor).
  pose proof (trace_end v2 P pt _ true f1 (F2' v1 v2 f K P kt m F1 F2 T2 T12 I12) Ht2) as Sw.
  apply (swapped2 v1 v2 f K P kt pt m HKP F1 F2 T2 T12 I12) in Sw. tauto.
Qed.
Print Assumptions C80_generate.

(** what sign writes, if the key file held a proper key pair *)
Theorem C80_sign :
  forall C E, crypto_ok C -> ext_ok E -> forall W v o kn fn more, so_args o = kn :: fn :: more -> sig_file o fn <> str "-" ->
  let f := wo_fs W in let S := wo_place W (sig_file o fn) in fresh v f S -> let x := cli_sign C E W v o in
  x_code x = 0 -> Forall (fun p => snd p = None) (se_writes v) -> close_err v = None ->
  exists sk c, private_in C E W (so_nopw o) (so_envpw o) kn sk /\ hashed_as W fn c /\
    let sig := ed_sign C (sk_Sk sk) (sha512 C (msg_hash_input (sha512 C (file_hash_input c)))) in
    content (run_ops f (x_ops x)) S = Some (signature_text C E (str "input=" ++ fn) (drop 32 (sk_Sk sk)) sig).
Proof.
  intros C E HC HE W v o kn fn more Ha Hn f S Hf x H0 Hw Hc.
  destruct (C49_sign_partial C E W v o kn fn more Ha Hn Hf) as (_ & _ & H). destruct (H H0) as (sk & s & c & H1 & H2 & (H3 & H4) & _ & H5).
  specialize (H5 Hw Hc). destruct H5 as (H5 & _). exists sk, c. split; [exact H1|]. split; [exact H2|]. cbv zeta. fold f S x in H5. rewrite H5. f_equal. rewrite <- H3.
  apply (proj2 (proj2 (C80_marshal C E HC HE))).
  - rewrite H3. apply (ok_sign_len C HC).
  - rewrite H4. destruct H1 as (b & pw & _ & _ & H1). unfold make_private_key in H1. destruct (unmarshal_private C E zero_priv b (Some pw)) as [sk' [[]| |]] eqn:Eu; try discriminate H1. injection H1 as ->.
    destruct (C35_private_partial C E zero_priv b (Some pw) sk Eu (or_introl eq_refl)) as (skb & _ & J1 & _ & _ & J4). rewrite J1. exact J4.
Qed.
Print Assumptions C80_sign.

(** "gen id" and "sign -E PW s.key plain" in CliScene's town *)
Example C80_instance :
  (exists salt, content (run_ops (wo_fs town) (x_ops (cli_generate toy toyE town sf1 sf2 gen1))) (wo_place town (str "id.key")) =
     Some (str "comment: me" ++ [x0a] ++ str "esk: " ++ b64_encode (gcm_seal toy (scrypt toy (sha512 toy (str "pass")) salt 524288 8 1) (take 12 salt)
             (fst (rand_buf 32 g0) ++ ed_public toy (fst (rand_buf 32 g0))) []) ++ [x0a] ++ str "salt: " ++ b64_encode salt ++ [x0a] ++
           str "algo: scrypt-sha256" ++ [x0a] ++ str "Z: 524288" ++ [x0a] ++ str "r: 8" ++ [x0a] ++ str "p: 1" ++ [x0a]) /\ len salt = 32) /\
  content (run_ops (wo_fs town) (x_ops (cli_sign toy toyE town sf1 sign1))) (wo_place town (str "plain.sig")) <> None.
Proof. split; [|vm_compute; discriminate]. exists (fst (rand_buf 32 (snd (rand_buf 32 g0)))). split; vm_compute; reflexivity. Qed.
