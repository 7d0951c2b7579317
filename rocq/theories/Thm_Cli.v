(** The commands encrypt, decrypt, sign and verify (C44 - C53). *)
From Verif Require Import Bytes BytesLemmas GoErr GoIO SpecIO IOProofs Pb SpecPb Crypto CryptoLaws Keys Sign SpecSign Encrypt Decrypt Spec Support EncryptProofs
  KeyFiles ExtLaws GoText Ssh SpecSsh SshProofs FreeProofs Fs SpecFs FsProofs Store Cli SpecCli CliProofs Thm_Encrypt Thm_Decrypt Thm_Sign Thm_Ssh Toy Scene ToyExt Thm_KeyFiles CliScene.
Require Import ZifyBool.
Ltac Zify.zify_post_hook ::= Z.div_mod_to_equations.
Local Notation length := List.length.

(** ** C48: encrypt *)
Lemma cli_encrypt_any C E W v o : let x := cli_encrypt C E W v o in
  (x_code x <> 0 /\ x_ops x = [] /\ x_stdout x = wo_stdout W) \/
  exists blk sk rd pka, wo_size W (eo_size o) = Ok blk /\ opt_arg (private_in C E W (eo_nopw o) (eo_envpw o)) (eo_keyfile o) sk /\
    2 <= len (eo_args o) /\ input_is W (last (eo_args o) []) rd /\ authorized C W pka /\
    x = with_output W v (oct 6 0 0) (eo_outfile o) (names_file (eo_outfile o)) (eo_force o) (enc_body C E W pka sk blk (removelast (eo_args o)) rd).
Proof.
  cbv zeta. unfold cli_encrypt. assert (D : forall A (r : res A), (forall a, r <> Ok a) -> code_of r <> 0) by (intros A [a| |] H; [exfalso; exact (H a eq_refl)|discriminate..]).
  destruct (wo_size W (eo_size o)) as [blk|e|p] eqn:Es; [|left; split; [discriminate|split; reflexivity]..].
  match goal with |- context [match ?r with Ok sk => _ | _ => _ end] => destruct r as [sk|e|p] eqn:Ek end; [|left; split; [discriminate|split; reflexivity]..].
  assert (Hk : opt_arg (private_in C E W (eo_nopw o) (eo_envpw o)) (eo_keyfile o) sk).
  { destruct (0 <? len (eo_keyfile o)) eqn:L.
    - destruct (read_private_key _ _ _ _) as [s| |] eqn:R; cbn [bind] in Ek; try discriminate Ek. injection Ek as <-. split; [apply len_pos; exact L|apply private_ok; exact R].
    - injection Ek as <-. cbn. destruct (eo_keyfile o) as [|b k]; [reflexivity|]. pose proof (proj2 (len_pos (b :: k)) ltac:(discriminate)). congruence. }
  destruct (Z.ltb_spec (len (eo_args o)) 2) as [L|L]; [left; split; [discriminate|split; reflexivity]|]. cbv zeta.
  match goal with |- context [match (if beq ?a ?b then ?c else ?d) with Ok rd => _ | _ => _ end] => destruct (if beq a b then c else d) as [rd|e|p] eqn:Ei end; [|left; split; [discriminate|split; reflexivity]..].
  apply input_ok in Ei. destruct (wo_home W) as [home|] eqn:Eh; [|left; split; [discriminate|split; reflexivity]].
  assert (G : forall b ks, parse_authorized_keys C b = Ok ks -> (file_holds W (home ++ str "/.ssh/authorized_keys") b \/ no_file W (home ++ str "/.ssh/authorized_keys") /\ b = []) -> authorized C W ks).
  { intros b ks P [H|[H ->]]; exists home; (split; [exact Eh|]); cbv zeta; [right; eauto|left]. split; [exact H|]. cbn in P. congruence. }
  destruct (slurp W (home ++ str "/.ssh/authorized_keys")) as [b|e|p] eqn:Ea.
  - apply slurp_ok in Ea. destruct (proj1 (C38_total_and_linewise C) b) as (ks & P). rewrite P. right. exists blk, sk, rd, ks.  repeat split; auto. eapply G; eauto.
  - assert (He : e = enoent \/ not_exist e = false).
    { destruct e; try (right; reflexivity). destruct n as [|[p|[p|p|]|]|]; try (right; reflexivity). left. reflexivity. }
    destruct He as [->|He].
    + cbn [not_exist enoent]. change (parse_authorized_keys C []) with (Ok (A := list pubkey) []). right. exists blk, sk, rd, [].  repeat split; auto. apply (G [] []); [reflexivity|]. right. split; [|reflexivity].
      unfold slurp, read_file in Ea. unfold no_file. destruct (content _ _); [|left; reflexivity]. destruct (wo_refused W _) as [e|]; [|discriminate Ea]. right. congruence.
    + rewrite He. left. split; [discriminate|split; reflexivity].
  - exfalso. exact (slurp_nopanic _ _ _ Ea).
Qed.
Lemma cli_encrypt_inv C E W v o : a_file (eo_outfile o) -> let x := cli_encrypt C E W v o in
  (x_code x <> 0 /\ x_ops x = []) \/
  exists blk sk rd pka, wo_size W (eo_size o) = Ok blk /\ opt_arg (private_in C E W (eo_nopw o) (eo_envpw o)) (eo_keyfile o) sk /\
    2 <= len (eo_args o) /\ input_is W (last (eo_args o) []) rd /\ authorized C W pka /\
    x = with_output W v (oct 6 0 0) (eo_outfile o) true (eo_force o) (enc_body C E W pka sk blk (removelast (eo_args o)) rd).
Proof. intros Ho. pose proof (cli_encrypt_any C E W v o) as H. cbv zeta in H. rewrite (proj2 (names_ok _) Ho) in H. destruct H as [(H1 & H2 & _)|H]; [left; auto|right; exact H]. Qed.
(** If encrypt -o F exits 0, every recipient argument stands for a key, and F was replaced - at once - by the encryption of
    the input to exactly these keys in this order, signed with the -s key if there is one, with the -B block size: what
    Encrypt writes, in a session so made, to a destination that accepts everything.  Otherwise nothing has changed, not
    even for a moment. *)
Theorem C48_encrypt_exact :
  forall C E W v o, a_file (eo_outfile o) -> let f := wo_fs W in let F := wo_place W (eo_outfile o) in fresh v f F ->
  let x := cli_encrypt C E W v o in
  (x_code x <> 0 -> always f (x_ops x) (unchanged v f)) /\
  (x_code x = 0 -> exists to infile blk sk pks rd e g' e2 rd2 out g2,
     eo_args o = to ++ [infile] /\ wo_size W (eo_size o) = Ok blk /\ opt_arg (private_in C E W (eo_nopw o) (eo_envpw o)) (eo_keyfile o) sk /\
     Forall2 (recipient C E W) to pks /\ pks <> [] /\ input_is W infile rd /\
     session C sk blk pks (wo_rng W) e g' /\ encrypt C e rd sink g' = (e2, rd2, out, g2, Ok tt) /\
     always f (x_ops x) (fun f' => unchanged v f f' \/ replaced v F (w_out out) f f') /\ replaced v F (w_out out) f (run_ops f (x_ops x))).
Proof.
  intros C E W v o Ho f F Hf x. destruct (cli_encrypt_inv C E W v o Ho) as [[H1 H2]|(blk & sk & rd & pka & Hs & Hk & Hl & Hi & Ha & Hx)].
  - fold x in H1, H2. split; [|intros H; contradiction]. intros _. rewrite H2. eapply always_nil; exact Hf.
  - fold x in Hx. destruct (with_output_file W v (oct 6 0 0) (eo_outfile o) (eo_force o) (enc_body C E W pka sk blk (removelast (eo_args o)) rd)) as [(H1 & H2 & _)|(c & w & Hb & Hw & _)]; cbv zeta in *.
    + rewrite <- Hx in H1, H2. split; [|intros H; contradiction]. intros _. rewrite H2. eapply always_nil; exact Hf.
    + rewrite <- Hx in Hw. rewrite Hw. cbn [x_code x_ops]. apply enc_body_spec in Hb; [|exact Ha].
      destruct Hb as [[Hc Hn]|(Hc & Hn & pks & e & g' & e2 & rd2 & out & g2 & Hr & Hss & He & Hout)].
      * split; [|intros H; contradiction]. intros _. apply always_abort; assumption.
      * split; [intros H; contradiction|]. intros _. assert (Hne : eo_args o <> []) by (intros Z; rewrite Z in Hl; cbv in Hl; contradiction).
        exists (removelast (eo_args o)), (last (eo_args o) []), blk, sk, pks, rd, e, g', e2, rd2, out, g2.
        pose proof (app_removelast_last [] Hne) as El.
        split; [exact El|]. split; [exact Hs|]. split; [exact Hk|]. split; [exact Hr|]. split.
        { intros ->. inversion Hr as [Z|]. rewrite <- Z in El. rewrite El in Hl. cbv in Hl. apply Hl. reflexivity. }
        split; [exact Hi|]. split; [exact Hss|]. split; [exact He|]. rewrite Hout. apply always_commit; assumption.
Qed.
Print Assumptions C48_encrypt_exact.
(** In particular: one argument that stands for no key, and nothing happens. *)
Theorem C48_unresolved :
  forall C E W v o to infile fn, a_file (eo_outfile o) -> fresh v (wo_fs W) (wo_place W (eo_outfile o)) ->
  eo_args o = to ++ [infile] -> In fn to -> (forall pk, ~ recipient C E W fn pk) ->
  let x := cli_encrypt C E W v o in x_code x <> 0 /\ always (wo_fs W) (x_ops x) (unchanged v (wo_fs W)).
Proof.
  intros C E W v o to infile fn Ho Hf Ha Hin Hno x. destruct (C48_encrypt_exact C E W v o Ho Hf) as (H1 & H2). fold x in H1, H2.
  assert (N : x_code x <> 0); [|auto]. intros Z. destruct (H2 Z) as (to' & inf' & blk & sk & pks & rd & e & g' & e2 & rd2 & out & g2 & Ha' & _ & _ & Hr & _).
  rewrite Ha in Ha'. apply app_inj_tail in Ha'. destruct Ha' as [<- _]. clear -Hin Hno Hr. induction Hr as [|a pk to pks R Hr IH]; [contradiction|].
  destruct Hin as [->|Hin]; [exact (Hno _ R)|auto].
Qed.
Print Assumptions C48_unresolved.
(** It does succeed when everything is in order. *)
Theorem C48_encrypt_succeeds :
  forall C, crypto_ok C -> forall E W v o to infile blk sk pks rd s ks,
  eo_args o = to ++ [infile] -> to <> [] -> wo_size W (eo_size o) = Ok blk -> 0 <= blk -> len pks < 2^40 ->
  match sk with
  | None => eo_keyfile o = []
  | Some k => eo_keyfile o <> [] /\ (exists seed, keypair C seed k) /\ private_in C E W (eo_nopw o) (eo_envpw o) (eo_keyfile o) k
  end ->
  authorized C W ks -> Forall2 (recipient C E W) to pks -> Forall (fun pk => exists seed, pubof C seed pk) pks ->
  input_is W infile rd -> delivers rd s IoEOF ->
  a_file (eo_outfile o) -> (eo_force o = true \/ content (wo_fs W) (wo_place W (eo_outfile o)) = None) ->
  se_open v = None -> Forall (fun p => snd p = None) (se_writes v) -> close_err v = None ->
  x_code (cli_encrypt C E W v o) = 0.
Proof.
  intros C HC E W v o to infile blk sk pks rd s ks Ha Hto Hs Hb Hp Hk Hau Hr Hpk Hi Hd Ho Hov Hop Hwr Hcl.
  unfold cli_encrypt. rewrite Hs. assert (Hg : good_sender sk).
  { destruct sk as [k|]; [|intros k Z; discriminate Z]. destruct Hk as (_ & (seed & Hkp) & _). exact (keypair_good C seed k HC Hkp). }
  assert (Ek : (if 0 <? len (eo_keyfile o) then sk0 <- read_private_key C E (slurp W (eo_keyfile o)) (Some (get_pass W (eo_nopw o) (eo_envpw o))) ;; Ok (Some sk0) else Ok None) = Ok sk).
  { destruct sk as [k|]; [|rewrite Hk; reflexivity]. destruct Hk as (Hne & _ & Hk). rewrite (proj2 (len_pos _) Hne). apply private_ok in Hk. rewrite Hk. reflexivity. }
  rewrite Ek. destruct (Z.ltb_spec (len (eo_args o)) 2) as [L|_].
  { exfalso. rewrite Ha, len_app in L. destruct to as [|a to]; [contradiction|]. rewrite len_cons in L. pose proof (len_nonneg to). change (len [infile]) with 1 in L. lia. }
  cbv zeta. rewrite Ha, last_last, removelast_last. apply input_ok in Hi. rewrite Hi.
  pose proof Hau as (home & Eh & Hks). rewrite Eh. cbv zeta in Hks.
  assert (G : x_code (with_output W v (oct 6 0 0) (eo_outfile o) (names_file (eo_outfile o)) (eo_force o) (enc_body C E W ks sk blk to rd)) = 0).
  { rewrite (proj2 (names_ok _) Ho). destruct (with_output_file W v (oct 6 0 0) (eo_outfile o) (eo_force o) (enc_body C E W ks sk blk to rd)) as [(H1 & _ & H3)|(c & w & Hbd & -> & _)].
    { exfalso. apply H3; [tauto|exact Hop]. }
    cbn [x_code]. unfold enc_body in Hbd. destruct (session_total C sk blk pks (wo_rng W) HC Hg Hpk) as (e & g' & Hss). pose proof Hss as (e0 & g0 & En & Ear). rewrite En in Hbd.
    rewrite (enc_recipients_total C E W ks to pks e0 g0 0 e g') in Hbd; [|clear -Hr Hau; induction Hr; constructor; [apply lookup_ok; assumption|assumption]|exact Ear].
    change (0 <? 0) with false in Hbd. cbv iota in Hbd. pose proof (session_ready _ _ _ _ _ _ _ HC Hg Hss) as Hrd.
    assert (Hl : len (pb_header (e_hdr e)) < 2^62) by (eapply header_small; eauto).
    destruct (encrypt C e rd (sf_sink v) g') as [[[[e2 rd2] w2] g2] rs] eqn:Ee.
    pose proof (encrypt_spec _ _ _ _ _ _ _ _ _ _ _ _ _ _ _ HC Hg Hb Hrd Hl Hd Ee) as (_ & Hsp).
    pose proof (encrypt_free _ _ _ _ _ _ _ _ _ _ Ee) as Hfr.
    destruct rs as [[]|y|p]; [injection Hbd as <- _; reflexivity| |contradiction]. exfalso.
    destruct Hsp as [[_ Hn]|[(m & y' & Hm & _)|Hm]].
    - apply Hn. left. reflexivity.
    - cbn [sf_sink w_sched] in Hm. rewrite Forall_forall in Hwr. specialize (Hwr _ Hm). discriminate Hwr.
    - destruct Hm as (cs & Hm). cbn [sf_sink w_closes] in Hm. congruence. }
  destruct Hks as [[Hn ->]|(b & Hh & P)].
  - assert (slurp W (home ++ str "/.ssh/authorized_keys") = Fail enoent) as ->.
    { unfold slurp, read_file. destruct Hn as [->| ->]; [reflexivity|]. match goal with |- context [content ?a ?b] => destruct (content a b) eqn:EC; cbn; try reflexivity end. }
    cbn [not_exist enoent]. change (parse_authorized_keys C []) with (Ok (A := list pubkey) []). exact G.
  - apply slurp_ok in Hh. rewrite Hh, P. exact G.
Qed.
Print Assumptions C48_encrypt_succeeds.
Definition enc_to (to : list bytes) (outfile keyfile : bytes) (force : bool) : enc_opts :=
  mkEo outfile keyfile (str "4") (str "PW") false force (to ++ [str "plain"]).
(** encrypt -s s.key -B 4 -o out a.pub bob@host plain *)
Definition enc1 : enc_opts := enc_to [str "a.pub"; str "bob@host"] (str "out") (str "s.key") false.
Lemma town_pub : public_in toy toyE town (str "a.pub") (mkPub (pk_Pk pkA) [] None (pk_hash pkA)).
Proof. exists apub. split; [split; reflexivity|]. vm_compute. reflexivity. Qed.
Lemma town_auth : authorized toy town [mkPub (pk_Pk pkB) (str "bob@host") None (pk_hash pkB)].
Proof. exists (str "/h"). split; [reflexivity|]. cbv zeta. right. exists auth_text. split; [split; reflexivity|]. vm_compute. reflexivity. Qed.
Example C48_instance :
  fresh sf1 (wo_fs town) (wo_place town (str "out")) /\ a_file (str "out") /\
  Forall2 (recipient toy toyE town) [str "a.pub"; str "bob@host"] [mkPub (pk_Pk pkA) [] None (pk_hash pkA); mkPub (pk_Pk pkB) (str "bob@host") None (pk_hash pkB)] /\
  (let x := cli_encrypt toy toyE town sf1 enc1 in x_code x = 0 /\
     exists b, content (run_ops (wo_fs town) (x_ops x)) (wo_place town (str "out")) = Some b /\ take 7 b = str "SigTool" /\ (300 <? len b) = true) /\
  (* unknown user, no such file, a file that is no key, disk full, existing output *)
  (let x := cli_encrypt toy toyE town sf1 (enc_to [str "a.pub"; str "eve@host"] (str "out") [] false) in x_code x = 1 /\ map (content (run_ops (wo_fs town) (x_ops x))) [wo_place town (str "out"); 5] = [None; None]) /\
  (x_code (cli_encrypt toy toyE town sf1 (enc_to [str "nokey"] (str "out") [] false)) = 1) /\
  (x_code (cli_encrypt toy toyE town sf1 (enc_to [str "plain"] (str "out") [] false)) = 1) /\
  (x_code (cli_encrypt toy toyE town sf_full enc1) = 1) /\
  (let x := cli_encrypt toy toyE town sf1 (enc_to [str "a.pub"] (str "s.pub") [] false) in x_code x = 1 /\ x_ops x = []).
Proof.
  split; [apply town_fresh; vm_compute; congruence|]. split; [split; discriminate|]. split.
  { constructor; [|constructor; [|constructor]].
    - right. split; [|exact town_pub]. intros X. apply is_user_iff in X. discriminate X.
    - left. split; [apply is_user_iff; reflexivity|]. exists [], []. split; [exact town_auth|]. split; [reflexivity|constructor]. }
  split; [cbv zeta; split; [vm_compute; reflexivity|]; eexists; split; [vm_compute; reflexivity|split; vm_compute; reflexivity]|].
  split; [split; vm_compute; reflexivity|]. split; [vm_compute; reflexivity|]. split; [vm_compute; reflexivity|]. split; [vm_compute; reflexivity|split; vm_compute; reflexivity].
Qed.

(** ** C45: decrypt *)
Lemma cli_decrypt_any C E W v o : do_test o = false -> let x := cli_decrypt C E W v o in
  (x_code x <> 0 /\ x_ops x = [] /\ x_stdout x = wo_stdout W /\
    ~ exists keyfile more sk pk rd, do_args o = keyfile :: more /\ private_in C E W (do_nopw o) (do_envpw o) keyfile sk /\
        opt_arg (public_in C E W) (do_pubkey o) pk /\ input_is W (hd (str "-") more) rd) \/
  exists keyfile more sk pk rd, do_args o = keyfile :: more /\ private_in C E W (do_nopw o) (do_envpw o) keyfile sk /\
    opt_arg (public_in C E W) (do_pubkey o) pk /\ input_is W (hd (str "-") more) rd /\
    x = with_output W v (oct 6 0 0) (do_outfile o) (names_file (do_outfile o)) (do_force o) (dec_body C sk pk rd).
Proof.
  intros Ht. cbv zeta. unfold cli_decrypt. destruct (do_args o) as [|keyfile more].
  { left. split; [discriminate|]. split; [reflexivity|]. split; [reflexivity|]. intros (k & m & sk & pk & rd & X & _). discriminate X. }
  destruct (read_private_key _ _ _ _) as [sk|e|p] eqn:R.
  2,3: left; split; [discriminate|]; split; [reflexivity|]; split; [reflexivity|]; intros (k & m & sk & pk & rd & X & Y & _); injection X as <- <-; apply private_ok in Y; congruence.
  apply private_ok in R.
  assert (PK : forall r, (if 0 <? len (do_pubkey o) then pk <- read_public_key C E (slurp W (do_pubkey o)) ;; Ok (Some pk) else Ok None) = r -> forall pk, r = Ok pk <-> opt_arg (public_in C E W) (do_pubkey o) pk).
  { intros r <- pk. destruct (0 <? len (do_pubkey o)) eqn:L.
    - apply len_pos in L. split.
      + destruct (read_public_key _ _ _) as [s| |] eqn:P; cbn [bind]; intros Ek; try discriminate Ek. injection Ek as <-. split; [exact L|apply public_ok; exact P].
      + destruct pk as [k|]; [|intros X; contradiction]. intros (_ & X). apply public_ok in X. rewrite X. reflexivity.
    - assert (do_pubkey o = []) as Z by (destruct (do_pubkey o) as [|b k]; [reflexivity|]; pose proof (proj2 (len_pos (b :: k)) ltac:(discriminate)); congruence). rewrite Z. split.
      + intros Ek. injection Ek as <-. reflexivity.
      + destruct pk; [intros (X & _); contradiction|reflexivity]. }
  match goal with |- context [match ?r with Ok pk => _ | _ => _ end] => specialize (PK r eq_refl); destruct r as [pk|e|p] end.
  2,3: left; split; [discriminate|]; split; [reflexivity|]; split; [reflexivity|]; intros (k & m & sk' & pk & rd & X & _ & Y & _); apply PK in Y; discriminate Y.
  assert (Hk : opt_arg (public_in C E W) (do_pubkey o) pk) by (apply PK; reflexivity).
  assert (Ei : forall r, (match more with infile :: _ => if beq infile (str "-") then Ok (wo_stdin W) else open_in W infile | [] => Ok (wo_stdin W) end) = r ->
    (if beq (hd (str "-") more) (str "-") then Ok (wo_stdin W) else open_in W (hd (str "-") more)) = r) by (intros r <-; destruct more; reflexivity).
  destruct (match more with infile :: _ => if beq infile (str "-") then Ok (wo_stdin W) else open_in W infile | [] => Ok (wo_stdin W) end) as [rd|e|p]; specialize (Ei _ eq_refl).
  2,3: left; split; [discriminate|]; split; [reflexivity|]; split; [reflexivity|]; intros (k & m & sk' & pk' & rd & X & _ & _ & Y); injection X as <- <-; apply input_ok in Y; congruence.
  apply input_ok in Ei. rewrite Ht. right. exists keyfile, more, sk, pk, rd. auto.
Qed.
Lemma cli_decrypt_inv C E W v o : a_file (do_outfile o) -> do_test o = false -> let x := cli_decrypt C E W v o in
  (x_code x <> 0 /\ x_ops x = []) \/
  exists keyfile more sk pk rd, do_args o = keyfile :: more /\ private_in C E W (do_nopw o) (do_envpw o) keyfile sk /\
    opt_arg (public_in C E W) (do_pubkey o) pk /\ input_is W (hd (str "-") more) rd /\
    x = with_output W v (oct 6 0 0) (do_outfile o) true (do_force o) (dec_body C sk pk rd).
Proof. intros Ho Ht. pose proof (cli_decrypt_any C E W v o Ht) as H. cbv zeta in H. rewrite (proj2 (names_ok _) Ho) in H. destruct H as [(H1 & H2 & _)|H]; [left; auto|right; exact H]. Qed.
(** If decrypt -o F exits non-zero, nothing has changed, not even for a moment.  If it exits 0, the private key, the
    expected sender's key and the input could be read and the Decryptor made from them decrypted the whole input without
    error; F was replaced at once by this complete plaintext - unless the final fsync, close or rename failed, and then nothing
    has changed (see C45_close_refuted). *)
Theorem C45_decrypt_to_file_partial :
  forall C E W v o, a_file (do_outfile o) -> do_test o = false -> let f := wo_fs W in let F := wo_place W (do_outfile o) in fresh v f F ->
  let x := cli_decrypt C E W v o in
  (x_code x <> 0 -> always f (x_ops x) (unchanged v f)) /\
  (x_code x = 0 -> exists keyfile more sk pk rd d d' out,
     do_args o = keyfile :: more /\ private_in C E W (do_nopw o) (do_envpw o) keyfile sk /\ opt_arg (public_in C E W) (do_pubkey o) pk /\
     input_is W (hd (str "-") more) rd /\ opened_by C rd sk pk d /\ decrypt C d sink = (d', out, Ok tt) /\
     (close_err v = None -> always f (x_ops x) (fun f' => unchanged v f f' \/ replaced v F (w_out out) f f') /\
                            replaced v F (w_out out) f (run_ops f (x_ops x))) /\
     (close_err v <> None -> always f (x_ops x) (unchanged v f))).
Proof.
  intros C E W v o Ho Ht f F Hf x. destruct (cli_decrypt_inv C E W v o Ho Ht) as [[H1 H2]|(keyfile & more & sk & pk & rd & Ha & Hk & Hp & Hi & Hx)].
  - fold x in H1, H2. split; [|intros H; contradiction]. intros _. rewrite H2. eapply always_nil; exact Hf.
  - fold x in Hx. destruct (with_output_file W v (oct 6 0 0) (do_outfile o) (do_force o) (dec_body C sk pk rd)) as [(H1 & H2 & _)|(c & w & Hb & Hw & _)]; cbv zeta in *.
    + rewrite <- Hx in H1, H2. split; [|intros H; contradiction]. intros _. rewrite H2. eapply always_nil; exact Hf.
    + rewrite <- Hx in Hw. rewrite Hw. cbn [x_code x_ops]. apply dec_body_spec in Hb. destruct Hb as [[Hc Hn]|(Hc & Hcl & Hn & d & d' & out & Hop & Hde & Hout)].
      * split; [|intros H; contradiction]. intros _. apply always_abort; [exact Hf|]. apply not_closed. exact Hn.
      * split; [intros H; contradiction|]. intros _. exists keyfile, more, sk, pk, rd, d, d', out. repeat (split; [assumption|]). pose proof (committed_iff v w Hcl Hn) as Hco.
        rewrite Hout. split; [intros Hcv; rewrite Hcv in Hco; apply always_commit; assumption|]. intros Hcv. apply always_abort; [exact Hf|]. destruct (close_err v); [exact Hco|contradiction].
Qed.
Print Assumptions C45_decrypt_to_file_partial.
Definition dec_from (infile outfile pub : bytes) (force : bool) : dec_opts := mkDo outfile pub [] true false force [str "a.key"; infile].
(** decrypt --no-password -v s.pub -o out a.key signed *)
Definition dec1 : dec_opts := dec_from (str "signed") (str "out") (str "s.pub") false.
(** Refuted as stated: when the final fsync, close or rename fails, decrypt exits 0 all the same, and F does not have the
    plaintext. *)
Theorem C45_close_refuted :
  ~ (forall C E W v o, crypto_ok C -> ext_ok E -> read_whole W -> a_file (do_outfile o) -> do_test o = false ->
       let f := wo_fs W in let F := wo_place W (do_outfile o) in fresh v f F -> let x := cli_decrypt C E W v o in
       x_code x = 0 -> exists plain, content (run_ops f (x_ops x)) F = Some plain).
Proof.
  intros H. destruct (H toy toyE town sf_noren dec1) as (plain & Hp).
  - exact toy_ok.
  - exact toyE_ok.
  - intros p b. split.
    + pose proof (take_drop 7 b) as T. cbn [town mk_world wo_pieces]. rewrite <- T at 3. apply dl_data. rewrite <- (app_nil_r (drop 7 b)) at 2. apply dl_data. constructor.
    + exists [take 4 b; drop 4 b]. split; [reflexivity|]. cbn. rewrite app_nil_r. apply take_drop.
  - split; discriminate.
  - reflexivity.
  - apply town_fresh; vm_compute; congruence.
  - vm_compute. reflexivity.
  - revert Hp. vm_compute. discriminate.
Qed.
Print Assumptions C45_close_refuted.
(** decrypt --test: nothing is written, and the exit status is 0 exactly if the whole input decrypts without error. *)
Theorem C45_test_mode :
  forall C E W v o, do_test o = true -> let x := cli_decrypt C E W v o in
  x_ops x = [] /\ x_stdout x = wo_stdout W /\
  (x_code x = 0 <-> exists keyfile more sk pk rd d d' out,
     do_args o = keyfile :: more /\ private_in C E W (do_nopw o) (do_envpw o) keyfile sk /\ opt_arg (public_in C E W) (do_pubkey o) pk /\
     input_is W (hd (str "-") more) rd /\ opened_by C rd sk pk d /\ decrypt C d sink = (d', out, Ok tt)).
Proof.
  intros C E W v o Ht. cbv zeta.
  assert (X : cli_decrypt C E W v o = mkOut (x_code (cli_decrypt C E W v (mkDo (do_outfile o) (do_pubkey o) (do_envpw o) (do_nopw o) true (do_force o) (do_args o)))) [] (wo_stdout W)).
  { unfold cli_decrypt. cbn [do_outfile do_pubkey do_envpw do_nopw do_test do_force do_args]. rewrite Ht. destruct (do_args o) as [|k m]; [reflexivity|].
    destruct (read_private_key _ _ _ _); [|reflexivity..]. match goal with |- context [match ?r with Ok pk => _ | _ => _ end] => destruct r end; [|reflexivity..].
    destruct (match m with infile :: _ => if beq infile (str "-") then Ok (wo_stdin W) else open_in W infile | [] => Ok (wo_stdin W) end); reflexivity. }
  rewrite X. cbn [x_ops x_stdout x_code]. split; [reflexivity|]. split; [reflexivity|]. clear X. split; cycle 1.
  { intros (keyfile & more & sk & pk & rd & d & d' & out & Ha & Hk & Hp & Hi & (d0 & rd' & sk' & En & Es) & Ed). unfold cli_decrypt. cbn [do_outfile do_pubkey do_envpw do_nopw do_test do_force do_args].
    rewrite Ha. apply private_ok in Hk. rewrite Hk.
    assert (Ek : (if 0 <? len (do_pubkey o) then pk0 <- read_public_key C E (slurp W (do_pubkey o)) ;; Ok (Some pk0) else Ok None) = Ok pk).
    { destruct pk as [k|]; [|rewrite Hp; reflexivity]. destruct Hp as (Hne & Hp). rewrite (proj2 (len_pos _) Hne). apply public_ok in Hp. rewrite Hp. reflexivity. }
    rewrite Ek. assert (Ei : (match more with infile :: _ => if beq infile (str "-") then Ok (wo_stdin W) else open_in W infile | [] => Ok (wo_stdin W) end) = Ok rd).
    { apply input_ok in Hi. destruct more; exact Hi. }
    rewrite Ei. cbn [x_code]. unfold dec_body. rewrite En, Es. fold sink. rewrite Ed. reflexivity. }
  unfold cli_decrypt. cbn [do_outfile do_pubkey do_envpw do_nopw do_test do_force do_args]. destruct (do_args o) as [|keyfile more]; [discriminate|].
  destruct (read_private_key _ _ _ _) as [sk|e|p] eqn:R; [|discriminate..]. apply private_ok in R.
  match goal with |- context [match ?r with Ok pk => _ | _ => _ end] => destruct r as [pk|e|p] eqn:Ek end; [|discriminate..].
  assert (Hk : opt_arg (public_in C E W) (do_pubkey o) pk).
  { destruct (0 <? len (do_pubkey o)) eqn:L.
    - destruct (read_public_key _ _ _) as [s| |] eqn:P; cbn [bind] in Ek; try discriminate Ek. injection Ek as <-. split; [apply len_pos; exact L|apply public_ok; exact P].
    - injection Ek as <-. cbn. destruct (do_pubkey o) as [|b k]; [reflexivity|]. pose proof (proj2 (len_pos (b :: k)) ltac:(discriminate)). congruence. }
  assert (Ei : forall r, (match more with infile :: _ => if beq infile (str "-") then Ok (wo_stdin W) else open_in W infile | [] => Ok (wo_stdin W) end) = r ->
    r = (if beq (hd (str "-") more) (str "-") then Ok (wo_stdin W) else open_in W (hd (str "-") more))) by (intros r <-; destruct more; reflexivity).
  destruct (match more with infile :: _ => if beq infile (str "-") then Ok (wo_stdin W) else open_in W infile | [] => Ok (wo_stdin W) end) as [rd|e|p]; [|discriminate..].
  specialize (Ei _ eq_refl). symmetry in Ei. apply input_ok in Ei. cbn [x_code]. unfold dec_body. destruct (new_decryptor C rd) as [[d0|e|p] rd'] eqn:En; [|discriminate..].
  destruct (set_private_key C d0 sk pk) as [[d sk'] [[]|e|p]] eqn:Es; [|discriminate..]. fold sink. destruct (decrypt C d sink) as [[d' out] [[]|e|p]] eqn:Ed; [|discriminate..].
  intros _. exists keyfile, more, sk, pk, rd, d, d', out. repeat (split; [assumption || reflexivity|]). split; [|exact Ed]. exists d0, rd', sk'. auto.
Qed.
Print Assumptions C45_test_mode.
(** decrypt does succeed when everything is in order. *)
Lemma dec_body_total C sk pk rd d d' out v : opened_by C rd sk pk d -> decrypt C d (sf_sink v) = (d', out, Ok tt) -> exists w, dec_body C sk pk rd (sf_sink v) = (0, w).
Proof. intros (d0 & rd' & sk' & En & Es) Ed. unfold dec_body. rewrite En, Es, Ed. eauto. Qed.
Theorem C45_decrypt_succeeds :
  forall C E W v o keyfile more sk pk rd d, a_file (do_outfile o) -> do_test o = false -> do_args o = keyfile :: more ->
  private_in C E W (do_nopw o) (do_envpw o) keyfile sk ->
  opt_arg (public_in C E W) (do_pubkey o) pk -> input_is W (hd (str "-") more) rd -> opened_by C rd sk pk d ->
  (exists d' out, decrypt C d sink = (d', out, Ok tt)) -> Forall (fun p => snd p = None) (se_writes v) ->
  (do_force o = true \/ content (wo_fs W) (wo_place W (do_outfile o)) = None) -> se_open v = None -> x_code (cli_decrypt C E W v o) = 0.
Proof.
  intros C E W v o keyfile more sk pk rd d Ho Ht Ha Hk Hp Hi Hop (d' & out & Hd) Hwr Hov Hse. unfold cli_decrypt. rewrite Ha.
  apply private_ok in Hk. rewrite Hk.
  assert (Ek : (if 0 <? len (do_pubkey o) then pk0 <- read_public_key C E (slurp W (do_pubkey o)) ;; Ok (Some pk0) else Ok None) = Ok pk).
  { destruct pk as [k|]; [|rewrite Hp; reflexivity]. destruct Hp as (Hne & Hp). rewrite (proj2 (len_pos _) Hne). apply public_ok in Hp. rewrite Hp. reflexivity. }
  rewrite Ek. assert (Ei : (match more with infile :: _ => if beq infile (str "-") then Ok (wo_stdin W) else open_in W infile | [] => Ok (wo_stdin W) end) = Ok rd).
  { apply input_ok in Hi. destruct more; exact Hi. }
  rewrite Ei, Ht, (proj2 (names_ok _) Ho). destruct (with_output_file W v (oct 6 0 0) (do_outfile o) (do_force o) (dec_body C sk pk rd)) as [(H1 & _ & H3)|(c & w & Hbd & -> & _)].
  { exfalso. apply H3; [tauto|exact Hse]. }
  cbn [x_code]. assert (Hd2 : exists d2 out2, decrypt C d (sf_sink v) = (d2, out2, Ok tt)).
  { destruct (decrypt_willing C d sink d' out (sf_sink v) Hwr Hd) as (w' & H). eauto. }
  destruct Hd2 as (d2 & out2 & Hd2). destruct (dec_body_total C sk pk rd d d2 out2 v Hop Hd2) as (w' & Hw). congruence.
Qed.
Print Assumptions C45_decrypt_succeeds.
(** decrypt -o out with the key of a.key: the plaintext of the signed file; disk full; with s.key, which is no recipient's key *)
Example C45_instance :
  fresh sf1 (wo_fs town) (wo_place town (str "out")) /\ a_file (str "out") /\ content (wo_fs town) (wo_place town (str "out")) = None /\
  (let x := cli_decrypt toy toyE town sf1 dec1 in x_code x = 0 /\ content (run_ops (wo_fs town) (x_ops x)) (wo_place town (str "out")) = Some text) /\
  (let x := cli_decrypt toy toyE town sf_full dec1 in x_code x = 1 /\ content (run_ops (wo_fs town) (x_ops x)) (wo_place town (str "out")) = None) /\
  (x_code (cli_decrypt toy toyE town sf1 (mkDo (str "out") [] (str "PW") false false false [str "s.key"; str "signed"])) = 1) /\
  (x_code (cli_decrypt toy toyE town sf1 (mkDo [] (str "s.pub") [] true true false [str "a.key"; str "signed"])) = 0) /\
  (x_code (cli_decrypt toy toyE town sf1 (mkDo [] [] [] true true false [str "a.key"; str "plain"])) = 1).
Proof.
  split; [apply town_fresh; vm_compute; congruence|]. split; [split; discriminate|]. split; [vm_compute; reflexivity|].
  split; [split; vm_compute; reflexivity|]. split; [split; vm_compute; reflexivity|]. split; [vm_compute; reflexivity|]. split; vm_compute; reflexivity.
Qed.
