(** Commands that write to standard output: verify (C62), decrypt (C63), encrypt | decrypt (C64). *)
From Verif Require Import Bytes BytesLemmas GoErr GoIO SpecIO IOProofs Pb SpecPb Crypto CryptoLaws Keys Sign SpecSign Encrypt Decrypt Stream Spec SpecStream Support EncryptProofs DecryptProofs OpenProofs Hostile
  KeyFiles ExtLaws Base64 GoText Ssh SpecSsh SshProofs SpecBase64 Base64Proofs FreeProofs Fs SpecFs FsProofs Store Cli SpecCli CliProofs Thm_Encrypt Thm_Decrypt Thm_Sign Thm_Ssh Toy Scene ToyExt Thm_KeyFiles CliScene Thm_Cli Thm_Commands Thm_Chain.
Require Import ZifyBool.
Ltac Zify.zify_post_hook ::= Z.div_mod_to_equations.
Local Notation length := List.length.
Local Notation concat := List.concat.

(** ** Specification *)
(** A text was printed on standard output: all of it if standard output takes it, in any case nothing else. *)
Definition printed (W : world) (x : outcome) (text : bytes) : Prop :=
  exists part, wrote (wo_stdout W) (x_stdout x) part /\ prefix_of part text /\
    (Forall (fun p => snd p = None) (w_sched (wo_stdout W)) -> part = text).

(** ** C62: what verify reports *)
Lemma print_printed W c ops text : printed W (mkOut c ops (snd (fullwrite text (wo_stdout W)))) text.
Proof.
  unfold printed, wrote. cbn [x_stdout]. destruct (fullwrite text (wo_stdout W)) as [[x|] w] eqn:F; cbn [snd].
  - destruct (fullwrite_Some _ _ _ _ F) as ((k & Ho) & (m & Hm) & _). exists (take k text). split; [exact Ho|]. split; [exists (drop k text); symmetry; apply take_drop|].
    intros H. rewrite Forall_forall in H. specialize (H _ Hm). discriminate H.
  - destruct (fullwrite_None _ _ _ F) as (Ho & _). exists text. split; [exact Ho|]. split; [exists []; rewrite app_nil_r; reflexivity|reflexivity].
Qed.
Definition verdict (C : crypto) (E : ext) (W : world) (args : list bytes) : Z + bytes * bytes * bool :=
  verify_with inl (fun fn sn ok => inr (fn, sn, ok)) C E W args.
Lemma verify_with_verdict {A} (die : Z -> A) say C E W args :
  verify_with die say C E W args = match verdict C E W args with inl c => die c | inr (fn, sn, ok) => say fn sn ok end.
Proof.
  unfold verdict, verify_with. destruct args as [|K [|S [|F more]]]; try reflexivity.
  destruct (match make_public_from_string C K with Ok r => Ok r | Panic p => Panic p | Fail _ => pk <- read_public_key C E (slurp W K) ;; Ok (Some pk) end) as [[pk|]|e|p]; try reflexivity;
  destruct (read_signature E (slurp W S)); try reflexivity. destruct (negb _); [reflexivity|]. destruct (verify_file C pk (map_in W F) a) as [[|]| |]; reflexivity.
Qed.
(** the key, the signature and the file that verify compares *)
Definition compared (C : crypto) (E : ext) (W : world) (args : list bytes) (S F : bytes) (pk : pubkey) (s : signature) (c : bytes) : Prop :=
  exists K more, args = K :: S :: F :: more /\ key_arg C E W K pk /\ signature_in E W S s /\ hashed_as W F c /\ sig_pkhash s = pk_hash pk.
Lemma verdict_spec C E W args : match verdict C E W args with
  | inl n => n <> 0 /\ forall S F pk s c, ~ compared C E W args S F pk s c
  | inr (fn, sn, ok) => exists pk s c, compared C E W args sn fn pk s c /\ (ok = true <-> signed_by C (pk_Pk pk) (sha512 C (file_hash_input c)) (sig_Sig s))
  end.
Proof.
  unfold verdict, verify_with. destruct args as [|K [|S [|F more]]]; try (split; [discriminate|]; intros S' F' pk s c (K' & m & X & _); discriminate X).
  destruct (match make_public_from_string C K with Ok r => Ok r | Panic p => Panic p | Fail _ => pk <- read_public_key C E (slurp W K) ;; Ok (Some pk) end) as [[pk|]|e|p] eqn:EK.
  - assert (HK : forall k, key_arg C E W K k <-> k = pk).
    { intros k. unfold key_arg. destruct (make_public_from_string C K) as [r|e|p] eqn:M; [|destruct (read_public_key C E (slurp W K)) as [q| |] eqn:R; cbn [bind] in EK; try discriminate EK|discriminate EK].
      - split; [intros [H|((e & H) & _)]; congruence|intros ->; left; congruence].
      - split; [intros [H|(_ & H)]; [discriminate H|]; apply public_ok in H; congruence|intros ->; right; split; [eauto|]; apply public_ok; congruence]. }
    assert (HKp : key_arg C E W K pk) by (apply HK; reflexivity). pose proof (key_len _ _ _ _ _ HKp) as HL.
    destruct (read_signature E (slurp W S)) as [s|e|p] eqn:ES.
    2,3: split; [discriminate|]; intros S' F' k s c (K' & m & X & _ & Y & _); injection X as <- <- <- <-; apply read_sig_ok in Y; congruence.
    destruct (is_pk_match s pk) eqn:EM; cbn [negb].
    2:{ split; [discriminate|]. intros S' F' k s' c (K' & m & X & Y1 & Y & _ & Z); injection X as <- <- <- <-. apply read_sig_ok in Y. apply HK in Y1. subst k. assert (s' = s) as -> by congruence.
        unfold is_pk_match in EM. rewrite (proj2 (beq_iff _ _)) in EM; [discriminate EM|congruence]. }
    assert (EM' : sig_pkhash s = pk_hash pk) by (unfold is_pk_match in EM; apply beq_iff in EM; congruence).
    destruct (file_in_cases (map_in W F)) as [(c & Hc)|Hu].
    + pose proof (verify_file_exact C pk _ s c HL Hc) as V. destruct (verify_file C pk (map_in W F) s) as [b|e|p] eqn:EV.
      * assert (Q : exists pk s c, compared C E W (K :: S :: F :: more) S F pk s c /\ (b = true <-> signed_by C (pk_Pk pk) (sha512 C (file_hash_input c)) (sig_Sig s))).
        { exists pk, s, c. split.
          - exists K, more. split; [reflexivity|]. split; [exact HKp|]. split; [apply read_sig_ok; exact ES|]. split; [apply map_in_holds; exact Hc|exact EM'].
          - rewrite <- V. split; [intros ->; reflexivity|congruence]. }
        destruct b; exact Q.
      * exfalso. revert EV. unfold verify_file. rewrite (file_cksum_holds C _ _ Hc). cbn [bind]. unfold verify_message, Ed_Verify. rewrite HL. cbn [Z.eqb Pos.eqb negb bind]. discriminate.
      * exfalso. revert EV. unfold verify_file. rewrite (file_cksum_holds C _ _ Hc). cbn [bind]. unfold verify_message, Ed_Verify. rewrite HL. cbn [Z.eqb Pos.eqb negb bind]. discriminate.
    + assert (Q : forall c, ~ hashed_as W F c). { intros c X. apply map_in_holds in X. destruct X as (ws & X & _). rewrite X in Hu. apply Hu. reflexivity. }
      unfold verify_file, file_cksum. destruct (map_in W F) as [e|ws [e|]] eqn:EMI; cbn [bind code_of]; [..|contradiction Hu; reflexivity];
      (split; [discriminate|]; intros S' F' k s' c (K' & m & X & _ & _ & Y & _); injection X as <- <- <- <-; exact (Q c Y)).
  - assert (Q : forall k, ~ key_arg C E W K k).
    { intros k [H|((e & H) & _)]; rewrite H in EK; [discriminate EK|]. destruct (read_public_key C E (slurp W K)); discriminate EK. }
    destruct (read_signature E (slurp W S)) eqn:RS.
    1,2: split; [discriminate|]; intros S' F' k s' c (K' & m & X & Y & _); injection X as <- <- <- <-; exact (Q k Y).
    split; [discriminate|]. intros S' F' k s' c (K' & m & X & Y & _); injection X as <- <- <- <-; exact (Q k Y).
  - split; [discriminate|]. intros S' F' k s' c (K' & m & X & [Y|(_ & Y)] & _); injection X as <- <- <- <-; [rewrite Y in EK; discriminate EK|].
    apply public_ok in Y. rewrite Y in EK. destruct (make_public_from_string C K); discriminate EK.
  - split; [discriminate|]. intros S' F' k s' c (K' & m & X & [Y|((e & Z) & Y)] & _); injection X as <- <- <- <-; [rewrite Y in EK; discriminate EK|].
    apply public_ok in Y. rewrite Z, Y in EK. discriminate EK.
Qed.

(** verify touches no file, and its message is the exit status in words: " verified" exactly for status 0; " verification
    failure" exactly if the key, the signature and the file can be read and belong together but the signature is wrong;
    nothing in all other cases, and nothing ever with --quiet. *)
Theorem C62_verify_report :
  forall C E W quiet args, let x := cli_verify_cmd C E W quiet args in
  x_ops x = [] /\ x_code x = cli_verify C E W args /\
  (quiet = true -> x_stdout x = wo_stdout W) /\
  (x_code x = 0 -> quiet = false ->
     exists K sn fn more, args = K :: sn :: fn :: more /\ printed W x (fn ++ str ": Signature " ++ sn ++ str " verified" ++ [x0a])) /\
  (forall K sn fn more pk s c, args = K :: sn :: fn :: more -> key_arg C E W K pk -> signature_in E W sn s -> hashed_as W fn c -> sig_pkhash s = pk_hash pk ->
     ~ signed_by C (pk_Pk pk) (sha512 C (file_hash_input c)) (sig_Sig s) ->
     x_code x = 1 /\ (quiet = false -> printed W x (fn ++ str ": Signature " ++ sn ++ str " verification failure" ++ [x0a]))) /\
  (x_code x <> 0 -> (forall K sn fn more pk s c, args = K :: sn :: fn :: more -> key_arg C E W K pk -> signature_in E W sn s -> hashed_as W fn c -> sig_pkhash s <> pk_hash pk) ->
     x_stdout x = wo_stdout W).
Proof.
  intros C E W quiet args x. unfold x, cli_verify_cmd, cli_verify. rewrite !verify_with_verdict. pose proof (verdict_spec C E W args) as V.
  assert (U : forall sn fn pk s c sn' fn' pk' s' c', compared C E W args sn fn pk s c -> compared C E W args sn' fn' pk' s' c' -> sn' = sn /\ fn' = fn /\ pk' = pk /\ s' = s /\ c' = c).
  { intros sn fn pk s c sn' fn' pk' s' c' (K & m & -> & K1 & S1 & F1 & _) (K' & m' & X & K2 & S2 & F2 & _). injection X as <- <- <- <-. split; [reflexivity|]. split; [reflexivity|]. split; [|split].
    - destruct K1 as [K1|((e & K1) & K1')], K2 as [K2|((e2 & K2) & K2')]; try congruence. apply public_ok in K1', K2'. congruence.
    - apply read_sig_ok in S1, S2. congruence.
    - destruct F1 as (b & (F1 & _) & ws & Fm & <-), F2 as (b2 & (F2 & _) & ws2 & Fm2 & <-). assert (b2 = b) as -> by congruence. congruence. }
  destruct (verdict C E W args) as [n|[[fn sn] ok]].
  - destruct V as (Hn & Hc). cbn [x_ops x_code x_stdout]. split; [reflexivity|]. split; [reflexivity|]. split; [reflexivity|]. split; [intros X; contradiction|]. split; [|reflexivity].
    intros K sn fn more pk s c Ha HK HS HF HM _. exfalso. apply (Hc sn fn pk s c). exists K, more. auto.
  - destruct V as (pk & s & c & HC & Hok). cbn [x_ops x_code x_stdout]. split; [reflexivity|]. split; [reflexivity|]. split; [intros ->; reflexivity|]. split; [|split].
    + destruct ok; [|discriminate]. intros _ ->. destruct HC as (K & more & Ha & _). exists K, sn, fn, more. split; [exact Ha|]. apply (print_printed W 0 []).
    + intros K sn' fn' more pk' s' c' Ha HK HS HF HM Hns. destruct (U _ _ _ _ _ sn' fn' pk' s' c' HC) as (-> & -> & -> & -> & ->); [exists K, more; auto|].
      destruct ok; [exfalso; apply Hns, Hok; reflexivity|]. split; [reflexivity|]. intros ->. apply (print_printed W 1 []).
    + intros _ H. exfalso. destruct HC as (K & more & Ha & HK & HS & HF & HM). exact (H K sn fn more pk s c Ha HK HS HF HM).
Qed.
Print Assumptions C62_verify_report.
Example C62_instance :
  let v q K := cli_verify_cmd toy toyE signed_town q [K; str "plain.sig"; str "plain"] in
  (x_code (v false (str "s.pub")), w_out (x_stdout (v false (str "s.pub")))) = (0, str "plain: Signature plain.sig verified" ++ [x0a]) /\
  (x_code (v true (str "s.pub")), w_out (x_stdout (v true (str "s.pub")))) = (0, []) /\
  (let x := cli_verify_cmd toy toyE signed_town false [str "s.pub"; str "plain.sig"; str "anon"] in
   (x_code x, w_out (x_stdout x)) = (1, str "anon: Signature plain.sig verification failure" ++ [x0a])) /\
  (x_code (v false (str "a.pub")), w_out (x_stdout (v false (str "a.pub")))) = (1, []).
Proof. cbv zeta. split; [vm_compute; reflexivity|]. split; [vm_compute; reflexivity|]. split; vm_compute; reflexivity. Qed.

(** ** C63: decrypt to standard output *)
Lemma not_named o : ~ a_file o -> names_file o = false.
Proof. intros H. destruct (names_file o) eqn:E; [apply names_ok in E; contradiction|reflexivity]. Qed.
(** what decrypt reads: the private key, the sender's public key if one is given, the input *)
Definition decrypts (C : crypto) (E : ext) (W : world) (o : dec_opts) (sk : privkey) (pk : option pubkey) (rd : reader) : Prop :=
  exists keyfile more, do_args o = keyfile :: more /\ private_in C E W (do_nopw o) (do_envpw o) keyfile sk /\
    opt_arg (public_in C E W) (do_pubkey o) pk /\ input_is W (hd (str "-") more) rd.
(** Without -o (or with -o -), no file is touched.  Exit 0 means that the whole input was decrypted and all of the plaintext was
    written to standard output, and that is what happens if everything can be read and the output takes it.  On a failure, what
    was written is what Decrypt wrote until then. *)
Theorem C63_decrypt_to_stdout :
  forall C E W v o, ~ a_file (do_outfile o) -> do_test o = false -> let x := cli_decrypt C E W v o in
  x_ops x = [] /\
  (x_code x = 0 -> exists sk pk rd d d' out, decrypts C E W o sk pk rd /\ opened_by C rd sk pk d /\ decrypt C d sink = (d', out, Ok tt) /\
     wrote (wo_stdout W) (x_stdout x) (w_out out)) /\
  (forall sk pk rd d d' out, decrypts C E W o sk pk rd -> opened_by C rd sk pk d -> decrypt C d sink = (d', out, Ok tt) ->
     Forall (fun p => snd p = None) (w_sched (wo_stdout W)) -> x_code x = 0) /\
  (x_code x <> 0 -> x_stdout x = wo_stdout W \/
     exists sk pk rd d d' r, decrypts C E W o sk pk rd /\ opened_by C rd sk pk d /\ decrypt C d (wo_stdout W) = (d', x_stdout x, r) /\ r <> Ok tt).
Proof.
  intros C E W v o Hf Ht x. pose proof (cli_decrypt_any C E W v o Ht) as HX. cbv zeta in HX. rewrite (not_named _ Hf) in HX. fold x in HX.
  destruct HX as [(H1 & H2 & H3 & H4)|(keyfile & more & sk & pk & rd & Ha & Hk & Hp & Hi & Hx)].
  { split; [exact H2|]. split; [intros X; contradiction|]. split; [|intros _; left; exact H3].
    intros sk pk rd d d' out (keyfile & more & A & B & C' & D) _ _ _. exfalso. apply H4. exists keyfile, more, sk, pk, rd. auto. }
  assert (HD : decrypts C E W o sk pk rd) by (exists keyfile, more; auto).
  assert (U : forall sk' pk' rd', decrypts C E W o sk' pk' rd' -> sk' = sk /\ pk' = pk /\ rd' = rd).
  { intros sk' pk' rd' (k' & m' & A & B & P & D). rewrite Ha in A. injection A as <- <-. apply private_ok in B, Hk. apply input_ok in D, Hi. split; [congruence|]. split; [|congruence].
    destruct pk as [a|], pk' as [b|]; cbn in Hp, P; [|destruct Hp; contradiction|destruct P; contradiction|reflexivity]. destruct Hp as (_ & Y). destruct P as (_ & Z). apply public_ok in Y, Z. congruence. }
  unfold with_output in Hx. unfold dec_body in Hx. destruct (new_decryptor C rd) as [[d0|e|p] rd'] eqn:En.
  2,3: rewrite Hx; cbn [x_ops x_code x_stdout]; (split; [reflexivity|]); (split; [discriminate|]); (split; [|intros _; left; reflexivity]);
    intros sk' pk' rd1 d d' out D (d1 & r1 & s1 & N & _); exfalso; destruct (U _ _ _ D) as (-> & -> & ->); congruence.
  destruct (set_private_key C d0 sk pk) as [[d sk'] [[]|e|p]] eqn:Es.
  2,3: rewrite Hx; cbn [x_ops x_code x_stdout]; (split; [reflexivity|]); (split; [discriminate|]); (split; [|intros _; left; reflexivity]);
    intros sk1 pk' rd1 d1 d' out D (d2 & r1 & s1 & N & S1); exfalso; destruct (U _ _ _ D) as (-> & -> & ->); congruence.
  assert (Ho : opened_by C rd sk pk d) by (exists d0, rd', sk'; auto).
  assert (U2 : forall d1, opened_by C rd sk pk d1 -> d1 = d) by (intros d1 (a & b & c & N & S); congruence).
  destruct (decrypt C d (wo_stdout W)) as [[d' w] r] eqn:Ed. pose proof (decrypt_free _ _ _ _ _ _ Ed) as (_ & F).
  destruct r as [[]|e|p].
  - destruct (F eq_refl) as (_ & s & Hs & Hfr). pose proof (w_close_more w) as (_ & M2 & _). rewrite Hx. cbn [x_ops x_code x_stdout]. split; [reflexivity|]. split; [|split; [reflexivity|intros X; contradiction]].
    intros _. exists sk, pk, rd, d, d', (free s [] 0). split; [exact HD|]. split; [exact Ho|]. split; [exact (Hfr [] [] 0)|]. unfold wrote. rewrite M2, Hs. reflexivity.
  - rewrite Hx. cbn [x_ops x_code x_stdout]. split; [reflexivity|]. split; [discriminate|]. split.
    + intros sk1 pk1 rd1 d1 d2 out D O2 D2 Hw. exfalso. destruct (U _ _ _ D) as (-> & -> & ->). rewrite (U2 _ O2) in D2. destruct (decrypt_willing _ _ _ _ _ (wo_stdout W) Hw D2) as (w' & X). congruence.
    + intros _. right. exists sk, pk, rd, d, d', (Fail e). split; [exact HD|]. split; [exact Ho|]. split; [exact Ed|discriminate].
  - rewrite Hx. cbn [x_ops x_code x_stdout]. split; [reflexivity|]. split; [discriminate|]. split.
    + intros sk1 pk1 rd1 d1 d2 out D O2 D2 Hw. exfalso. destruct (U _ _ _ D) as (-> & -> & ->). rewrite (U2 _ O2) in D2. destruct (decrypt_willing _ _ _ _ _ (wo_stdout W) Hw D2) as (w' & X). congruence.
    + intros _. right. exists sk, pk, rd, d, d', (Panic p). split; [exact HD|]. split; [exact Ho|]. split; [exact Ed|discriminate].
Qed.
Print Assumptions C63_decrypt_to_stdout.
(** Whatever the exit status: if the input begins like a file made by Encrypt or by a stream and continues in any way that does not
    forge its chunks, the bytes that decrypt has put on standard output are a beginning of the original plaintext. *)
Theorem C63_output_genuine :
  forall C, crypto_ok C ->
  forall sender blksize pks e s file0, made C sender blksize pks e s file0 -> len s < (2^32 - 1) * h_chunk (e_hdr e) ->
  exists head cs, let fk := keys_of C (e_hdr e) (e_key e) in
    concat cs = s /\ prefix_of (head ++ frames C (fk_data fk) (fk_base fk) 0 cs) file0 /\
    forall E W v o body', no_forgery C fk cs body' -> ~ a_file (do_outfile o) -> do_test o = false ->
    (forall sk pk rd, decrypts C E W o sk pk rd ->
       (exists ef, delivers rd (head ++ body') ef) /\ exists seed, keypair C seed sk /\ no_accident C (e_hdr e) seed (e_key e)) ->
    exists part, wrote (wo_stdout W) (x_stdout (cli_decrypt C E W v o)) part /\ prefix_of part s.
Proof.
  intros C HC sender blk pks e s file0 Hmade Hlen. destruct (C11_released_data_genuine C HC sender blk pks e s file0 Hmade Hlen) as (head & cs & H1 & H2 & H3).
  exists head, cs. cbv zeta in *. split; [exact H1|]. split; [exact H2|]. intros E W v o body' Hnf Ho Ht Hd.
  destruct (C63_decrypt_to_stdout C E W v o Ho Ht) as (_ & A & _ & B).
  destruct (Z.eqb_spec (x_code (cli_decrypt C E W v o)) 0) as [Z|Z].
  - destruct (A Z) as (sk & pk & rd & d & d' & out & D & O & Dec & Wr). destruct (Hd _ _ _ D) as ((ef & De) & seed & Kp & Na).
    destruct (H3 _ _ _ _ _ _ _ Hnf De Kp Na O) as (P & _). destruct (P _ _ _ _ Dec) as (part & Wp & Pp). exists part. split; [|exact Pp]. unfold wrote in *. cbn [sink w_out app] in Wp. congruence.
  - destruct (B Z) as [X|(sk & pk & rd & d & d' & r & D & O & Dec & _)].
    + exists []. split; [unfold wrote; rewrite X, app_nil_r; reflexivity|exists s; reflexivity].
    + destruct (Hd _ _ _ D) as ((ef & De) & seed & Kp & Na). destruct (H3 _ _ _ _ _ _ _ Hnf De Kp Na O) as (P & _). exact (P _ _ _ _ Dec).
Qed.
Print Assumptions C63_output_genuine.
(** decrypt -v s.pub a.key signed; the same with a file that was cut in its third chunk: exit 1, and two chunks are out *)
Definition cut_town : world := mk_world (files ++ [(str "cut", 19, take (len file1 - 70) file1)]).
Definition to_stdout (infile : bytes) : dec_opts := mkDo [] (str "s.pub") [] true false false [str "a.key"; infile].
Example C63_instance :
  ~ a_file (do_outfile (to_stdout (str "cut"))) /\
  (let x := cli_decrypt toy toyE town sf1 (to_stdout (str "signed")) in (x_code x, w_out (x_stdout x)) = (0, text)) /\
  (let x := cli_decrypt toy toyE cut_town sf1 (to_stdout (str "cut")) in (x_code x, w_out (x_stdout x)) = (1, str "hello wo")).
Proof. split; [intros (H & _); apply H; reflexivity|]. split; vm_compute; reflexivity. Qed.

(** ** C64: encrypt | decrypt *)
(** encrypt without -o writes what Encrypt writes in such a session, and exits 0 only if all of it was taken. *)
Lemma enc_body_any C E W pka sk blk fns rd w0 c w : authorized C W pka -> enc_body C E W pka sk blk fns rd w0 = (c, w) -> c = 0 ->
  exists pks e g' e2 rd2 out g2, Forall2 (recipient C E W) fns pks /\ session C sk blk pks (wo_rng W) e g' /\
     encrypt C e rd sink g' = (e2, rd2, out, g2, Ok tt) /\ w_out w = w_out w0 ++ w_out out.
Proof.
  intros Ha. unfold enc_body. destruct (new_encryptor C sk blk (wo_rng W)) as [[e0|x|p] g0] eqn:En; [|intros H Hc; injection H as <- <-; discriminate Hc..].
  destruct (enc_recipients C E W pka fns e0 g0 0) as [[[e g] errs]|x|p] eqn:Er; [|intros H Hc; injection H as <- <-; discriminate Hc..].
  apply enc_recipients_spec in Er. destruct Er as (H0 & Hr). destruct (Z.ltb_spec 0 errs) as [Hp|Hz]; [intros H Hc; injection H as <- <-; discriminate Hc|].
  destruct (Hr ltac:(lia)) as (pks & F & A). assert (F' : Forall2 (recipient C E W) fns pks).
  { clear -F Ha. induction F; constructor; [|assumption]. apply (lookup_ok C E W pka); assumption. }
  destruct (encrypt C e rd w0 g) as [[[[e2 rd2] w1] g2] rs] eqn:Ec. apply encrypt_free in Ec.
  destruct rs as [[]|x|p]; [|intros H Hc; injection H as <- <-; discriminate Hc..]. destruct Ec as (_ & _ & _ & s & Hs & Hf). pose proof (w_close_more w1) as (_ & M2 & _).
  intros H _. apply (f_equal snd) in H. cbn [snd] in H. subst w. exists pks, e, g, e2, rd2, (free s [] 1), g2. split; [exact F'|]. split; [exists e0, g0; auto|]. split; [exact (Hf [] 0)|]. rewrite M2, Hs. reflexivity.
Qed.
Theorem C64_encrypt_to_stdout :
  forall C E W v o, ~ a_file (eo_outfile o) -> let x := cli_encrypt C E W v o in
  x_ops x = [] /\
  (x_code x = 0 -> exists to infile blk sk pks rd e g' e2 rd2 out g2,
     eo_args o = to ++ [infile] /\ wo_size W (eo_size o) = Ok blk /\ opt_arg (private_in C E W (eo_nopw o) (eo_envpw o)) (eo_keyfile o) sk /\
     Forall2 (recipient C E W) to pks /\ pks <> [] /\ input_is W infile rd /\
     session C sk blk pks (wo_rng W) e g' /\ encrypt C e rd sink g' = (e2, rd2, out, g2, Ok tt) /\ wrote (wo_stdout W) (x_stdout x) (w_out out)).
Proof.
  intros C E W v o Ho x. pose proof (cli_encrypt_any C E W v o) as HX. cbv zeta in HX. rewrite (not_named _ Ho) in HX. fold x in HX.
  destruct HX as [(H1 & H2 & H3)|(blk & sk & rd & pka & Hs & Hk & Hl & Hi & Ha & Hx)]; [split; [exact H2|intros X; contradiction]|].
  unfold with_output in Hx. destruct (enc_body C E W pka sk blk (removelast (eo_args o)) rd (wo_stdout W)) as [c w] eqn:Eb. rewrite Hx. cbn [x_ops x_code x_stdout]. split; [reflexivity|].
  intros Hc. destruct (enc_body_any _ _ _ _ _ _ _ _ _ _ _ Ha Eb Hc) as (pks & e & g' & e2 & rd2 & out & g2 & Hr & Hss & He & Hw).
  assert (Hne : eo_args o <> []) by (intros Z; rewrite Z in Hl; cbv in Hl; contradiction). pose proof (app_removelast_last [] Hne) as El.
  exists (removelast (eo_args o)), (last (eo_args o) []), blk, sk, pks, rd, e, g', e2, rd2, out, g2. split; [exact El|]. split; [exact Hs|]. split; [exact Hk|]. split; [exact Hr|]. split.
  { intros ->. inversion Hr as [Z|]. rewrite <- Z in El. rewrite El in Hl. cbv in Hl. apply Hl. reflexivity. }
  split; [exact Hi|]. split; [exact Hss|]. split; [exact He|]. exact Hw.
Qed.
Print Assumptions C64_encrypt_to_stdout.
(** encrypt TO... INPUT | decrypt KEY: the bytes that encrypt wrote arrive, in any pieces, on the standard input of decrypt, which runs
    anywhere - another directory, another home, another machine.  If encrypt exited 0 and KEY belongs to one of the recipients, decrypt
    writes exactly the input of encrypt and exits 0. *)
Theorem C64_pipeline :
  forall C E, crypto_ok C -> forall W v o to infile rd s, eo_args o = to ++ [infile] -> input_is W infile rd -> delivers rd s IoEOF ->
  ~ a_file (eo_outfile o) -> w_out (wo_stdout W) = [] -> len to <= 15885 -> (forall blk, wo_size W (eo_size o) = Ok blk -> 0 <= blk < 2^30) ->
  let x := cli_encrypt C E W v o in x_code x = 0 ->
  forall W' v' o' keyfile more fn seed sk spk,
  delivers (wo_stdin W') (w_out (x_stdout x)) IoEOF -> do_args o' = keyfile :: more -> hd (str "-") more = str "-" ->
  do_test o' = false -> ~ a_file (do_outfile o') -> Forall (fun p => snd p = None) (w_sched (wo_stdout W')) ->
  private_in C E W' (do_nopw o') (do_envpw o') keyfile sk -> keypair C seed sk -> opt_arg (public_in C E W') (do_pubkey o') spk ->
  (forall ssk, opt_arg (private_in C E W (eo_nopw o) (eo_envpw o)) (eo_keyfile o) ssk -> sender_matches C ssk spk) ->
  In fn to -> (forall pk, recipient C E W fn pk -> pubof C seed pk) ->
  (forall ssk blk pks e g, opt_arg (private_in C E W (eo_nopw o) (eo_envpw o)) (eo_keyfile o) ssk -> wo_size W (eo_size o) = Ok blk ->
     Forall2 (recipient C E W) to pks -> session C ssk blk pks (wo_rng W) e g -> no_accident C (e_hdr e) seed (e_key e)) ->
  let y := cli_decrypt C E W' v' o' in x_code y = 0 /\ wrote (wo_stdout W') (x_stdout y) s.
Proof.
  intros C E HC W v o to infile rd s Ha Hi Hd Ho Hemp Hto Hblk x Hx W' v' o' keyfile more fn seed sk spk Hin Ha' Hmore Ht' Ho' Hwill Hk Hkp Hspk Hsm Hfn Hrc Hna y.
  destruct (C64_encrypt_to_stdout C E W v o Ho) as (_ & H). destruct (H Hx) as (to2 & in2 & blk & ssk & pks & rd0 & e & g' & e2 & rd2 & out & g2 & Ea & Eb & Hsk & Hr & Hne & Hi2 & Hss & Henc & Hw).
  rewrite Ha in Ea. apply app_inj_tail in Ea. destruct Ea as (<- & <-). assert (rd0 = rd) as -> by (apply input_ok in Hi, Hi2; congruence).
  assert (Hout : w_out (x_stdout x) = w_out out) by (unfold wrote in Hw; rewrite Hemp in Hw; exact Hw).
  assert (Hp : exists pk, In pk pks /\ recipient C E W fn pk). { clear -Hr Hfn. induction Hr as [|a pk to pks R Hr IH]; [contradiction|]. destruct Hfn as [->|Hfn]; [exists pk; split; [left; reflexivity|exact R]|]. destruct (IH Hfn) as (q & A & B). exists q. split; [right; exact A|exact B]. }
  destruct Hp as (pk & Hpin & Hprc).
  assert (Hlen : len pks <= 15885). { replace (len pks) with (len to); [exact Hto|]. clear -Hr. induction Hr; [reflexivity|]. rewrite !len_cons, IHHr. reflexivity. }
  fold x in Hin. rewrite Hout in Hin.
  destruct (C01_encrypt_decrypt_round_trip C HC ssk blk pks (wo_rng W) e g' (Hblk _ Eb) Hlen Hss rd s sink e2 rd2 out g2 Hd eq_refl Henc seed pk sk spk Hpin (Hrc _ Hprc) Hkp (Hsm _ Hsk) (Hna _ _ _ _ _ Hsk Eb Hr Hss) (wo_stdin W') sink Hin)
    as (d & Hod & _ & d' & out' & Hdec & Hout'); [split; constructor|].
  assert (HD : decrypts C E W' o' sk spk (wo_stdin W')). { exists keyfile, more. split; [exact Ha'|]. split; [exact Hk|]. split; [exact Hspk|]. rewrite Hmore. left. auto. }
  destruct (C63_decrypt_to_stdout C E W' v' o' Ho' Ht') as (_ & A & B & _).
  assert (Hy : x_code y = 0) by exact (B _ _ _ _ _ _ HD Hod Hdec Hwill). split; [exact Hy|].
  destruct (A Hy) as (sk2 & pk2 & rd3 & d3 & d4 & out3 & (k2 & m2 & Q1 & Q2 & Q3 & Q4) & Hod3 & Hdec3 & R3). fold y in R3.
  rewrite Ha' in Q1. injection Q1 as <- <-. rewrite Hmore in Q4.
  assert (sk2 = sk) as -> by (apply private_ok in Hk; apply private_ok in Q2; congruence).
  assert (pk2 = spk) as ->. { destruct spk as [a|], pk2 as [b|]; cbn in Hspk, Q3; [|destruct Hspk; contradiction|destruct Q3; contradiction|reflexivity]. destruct Hspk as (_ & X). destruct Q3 as (_ & Z). apply public_ok in X, Z. congruence. }
  assert (rd3 = wo_stdin W') as -> by (destruct Q4 as [(_ & ->)|(Q4 & _)]; [reflexivity|contradiction]).
  assert (d3 = d) as ->. { destruct Hod as (a & b & c & A1 & A2). destruct Hod3 as (a' & b' & c' & B1 & B2). congruence. }
  assert (w_out out3 = s) as E3 by (cbn [app w_out sink] in Hout'; congruence). rewrite E3 in R3. exact R3.
Qed.
Print Assumptions C64_pipeline.
(** encrypt -s s.key -B 4 a.pub bob@host plain | decrypt --no-password -v s.pub a.key, byte by byte *)
Definition enc_out : enc_opts := mkEo [] (eo_keyfile enc1) (eo_size enc1) (eo_envpw enc1) (eo_nopw enc1) false (eo_args enc1).
Definition sent : bytes := w_out (x_stdout (cli_encrypt toy toyE town sf1 enc_out)).
Definition fed_town : world := mkWorld (wo_fs town) (wo_place town) (wo_clean town) (wo_refused town) (wo_pieces town) (wo_mapped town) (wo_getenv town) (wo_ask town) (wo_home town)
    (map (fun c => ([c], None)) sent) (wo_stdout town) (wo_rng town) (wo_size town).
Definition dec_in : dec_opts := mkDo [] (str "s.pub") [] true false false [str "a.key"].
Lemma delivers_bytewise s : delivers (map (fun c => ([c], None)) s) s IoEOF.
Proof. induction s as [|c s IH]; [constructor|]. cbn [map]. change (c :: s) with ([c] ++ s). constructor. exact IH. Qed.
Lemma c64_code : x_code (cli_encrypt toy toyE town sf1 enc_out) = 0. Proof. vm_compute. reflexivity. Qed.
Lemma c64_akey : private_in toy toyE fed_town true [] (str "a.key") (private_key_of toy (sk_Sk skA)).
Proof. apply private_ok. vm_compute. reflexivity. Qed.
Lemma c64_spub : opt_arg (public_in toy toyE fed_town) (do_pubkey dec_in) (Some (mkPub (pk_Pk pkS) [] None (pk_hash pkS))).
Proof. split; [discriminate|]. apply public_ok. vm_compute. reflexivity. Qed.
Lemma c64_input : exists rd, input_is town (str "plain") rd /\ delivers rd text IoEOF.
Proof. eexists. split; [right; split; [exact c51_nostdin|]; exists text; split; [exact c51_input|reflexivity]|]. apply town_whole. Qed.
Lemma c64_fed : delivers (wo_stdin fed_town) (w_out (x_stdout (cli_encrypt toy toyE town sf1 enc_out))) IoEOF.
Proof. unfold fed_town. cbn [wo_stdin]. unfold sent. generalize (w_out (x_stdout (cli_encrypt toy toyE town sf1 enc_out))). exact delivers_bytewise. Qed.
Lemma c64_nofile : ~ a_file (eo_outfile enc_out). Proof. intros (X & _). apply X. reflexivity. Qed.
Lemma c64_nofile2 : ~ a_file (do_outfile dec_in). Proof. intros (X & _). apply X. reflexivity. Qed.
Lemma c64_args : eo_args enc_out = [str "a.pub"; str "bob@host"] ++ [str "plain"]. Proof. reflexivity. Qed.
Lemma c64_empty : w_out (wo_stdout town) = []. Proof. reflexivity. Qed.
Lemma c64_blk : forall blk, wo_size town (eo_size enc_out) = Ok blk -> 0 <= blk < 2^30. Proof. exact c51_blk. Qed.
Lemma c64_will : Forall (fun p : Z * option goerr => snd p = None) (w_sched (wo_stdout fed_town)). Proof. constructor. Qed.
Lemma c64_sender ssk : opt_arg (private_in toy toyE town (eo_nopw enc_out) (eo_envpw enc_out)) (eo_keyfile enc_out) ssk -> sender_matches toy ssk (Some (mkPub (pk_Pk pkS) [] None (pk_hash pkS))).
Proof. exact (c51_sender ssk). Qed.
Lemma c64_na ssk blk pks e g : opt_arg (private_in toy toyE town (eo_nopw enc_out) (eo_envpw enc_out)) (eo_keyfile enc_out) ssk -> wo_size town (eo_size enc_out) = Ok blk ->
  Forall2 (recipient toy toyE town) [str "a.pub"; str "bob@host"] pks -> session toy ssk blk pks (wo_rng town) e g -> no_accident toy (e_hdr e) seedA (e_key e).
Proof. exact (town_na ssk blk pks e g). Qed.
Lemma c64_dargs : do_args dec_in = str "a.key" :: []. Proof. reflexivity. Qed.
Lemma c64_rcp_in : In (str "a.pub") [str "a.pub"; str "bob@host"]. Proof. left. reflexivity. Qed.
Example C64_instance :
  (80 <? len sent) = true /\
  let y := cli_decrypt toy toyE fed_town sf1 dec_in in x_code y = 0 /\ wrote (wo_stdout fed_town) (x_stdout y) text.
Proof.
  split; [vm_compute; reflexivity|]. destruct c64_input as (rd & Hi & Hd).
  exact (C64_pipeline toy toyE toy_ok town sf1 enc_out [str "a.pub"; str "bob@host"] (str "plain") rd text c64_args Hi Hd c64_nofile c64_empty c51_two c64_blk c64_code
    fed_town sf1 dec_in (str "a.key") [] (str "a.pub") seedA (private_key_of toy (sk_Sk skA)) (Some (mkPub (pk_Pk pkS) [] None (pk_hash pkS)))
    c64_fed c64_dargs eq_refl eq_refl c64_nofile2 c64_will c64_akey akey_pair c64_spub c64_sender c64_rcp_in c51_rcp c64_na).
Qed.
