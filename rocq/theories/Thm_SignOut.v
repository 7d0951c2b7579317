(** C92: `sign` to standard output; and exactly when `sign` exits 0. *)
From Verif Require Import Bytes BytesLemmas GoErr GoIO SpecIO IOProofs Pb SpecPb Crypto CryptoLaws Keys Sign SpecSign Encrypt Decrypt Spec
  KeyFiles ExtLaws Base64 GoText Ssh SpecSsh Fs SpecFs FsProofs Store Cli SpecCli CliProofs Thm_Sign Toy Scene ToyExt Thm_KeyFiles CliScene Thm_Cli Thm_Commands Thm_Chain Thm_Pipe Thm_Texts.
Local Notation length := List.length.
Local Notation concat := List.concat.

(** the key can be read, and so can the file *)
Definition can_sign (C : crypto) (E : ext) (W : world) (o : sign_opts) (kn fn : bytes) : Prop :=
  exists sk c, private_in C E W (so_nopw o) (so_envpw o) kn sk /\ hashed_as W fn c.
(** the text of the signature of content [c] by [sk] *)
Definition sign_text (C : crypto) (E : ext) (fn : bytes) (sk : privkey) (c : bytes) : bytes :=
  signature_text C E (str "input=" ++ fn) (drop 32 (sk_Sk sk)) (ed_sign C (sk_Sk sk) (sha512 C (msg_hash_input (sha512 C (file_hash_input c))))).

Lemma sign_body_any C E W o kn fn w : crypto_ok C -> ext_ok E ->
  (exists sk c, private_in C E W (so_nopw o) (so_envpw o) kn sk /\ hashed_as W fn c /\
     sign_body C E W o kn fn w = (0, snd (w_close (snd (fullwrite (sign_text C E fn sk c) w))))) \/
  (~ can_sign C E W o kn fn /\ exists n, n <> 0 /\ sign_body C E W o kn fn w = (n, w)).
Proof.
  intros HC HE. unfold sign_body. destruct (read_private_key _ _ _ _) as [sk|e|p] eqn:R.
  - pose proof R as R'. apply private_ok in R. destruct (sign_file C sk (map_in W fn)) as [s|e|p] eqn:S.
    + apply sign_file_exact in S. destruct S as (L & c & Hc & Hs). apply map_in_holds in Hc. left. exists sk, c. split; [exact R|]. split; [exact Hc|].
      destruct Hs as [H1 H2]. rewrite (proj2 (proj2 (C80_marshal C E HC HE)) s (str "input=" ++ fn) (drop 32 (sk_Sk sk))).
      * unfold sign_text. rewrite <- H1. destruct (fullwrite _ w) as [x w1]. reflexivity.
      * rewrite H1. apply (ok_sign_len C HC).
      * rewrite H2. apply read_private_loaded in R'. destruct R' as (skb & L' & ->). reflexivity.
    + right. split; [|exists 1; split; [lia|reflexivity]]. intros (sk2 & c & H1 & H2). apply private_ok in H1. rewrite R' in H1. injection H1 as <-.
      apply map_in_holds in H2. apply read_private_loaded in R'. destruct R' as (skb & L' & ->).
      assert (exists s, sign_file C (private_key_of C skb) (map_in W fn) = Ok s) as [s Hs]; [|congruence].
      eexists (mkSig _ _). apply sign_file_exact. split; [exact L'|]. exists c. split; [exact H2|]. split; reflexivity.
    + right. split; [|exists 2; split; [lia|reflexivity]]. intros (sk2 & c & H1 & H2). apply private_ok in H1. rewrite R' in H1. injection H1 as <-.
      apply map_in_holds in H2. apply read_private_loaded in R'. destruct R' as (skb & L' & ->).
      assert (exists s, sign_file C (private_key_of C skb) (map_in W fn) = Ok s) as [s Hs]; [|congruence].
      eexists (mkSig _ _). apply sign_file_exact. split; [exact L'|]. exists c. split; [exact H2|]. split; reflexivity.
  - right. split; [|exists 1; split; [lia|reflexivity]]. intros (sk2 & c & H1 & H2). apply private_ok in H1. congruence.
  - right. split; [|exists 2; split; [lia|reflexivity]]. intros (sk2 & c & H1 & H2). apply private_ok in H1. congruence.
Qed.
Lemma dash_out o fn : so_output o = str "-" -> (if 0 <? len (so_output o) then so_output o else fn ++ str ".sig") = str "-".
Proof. intros ->. reflexivity. Qed.

(** With -o - no file is touched; the exit status is 0 exactly if the key and the file can be read, and then the signature text is printed
    (all of it unless standard output fails); otherwise nothing is. *)
Theorem C92_sign_to_stdout :
  forall C E, crypto_ok C -> ext_ok E -> forall W v o kn fn more, so_args o = kn :: fn :: more -> so_output o = str "-" ->
  let x := cli_sign C E W v o in
  x_ops x = [] /\ (x_code x = 0 <-> can_sign C E W o kn fn) /\ (x_code x <> 0 -> x_stdout x = wo_stdout W) /\
  (x_code x = 0 -> exists sk c, private_in C E W (so_nopw o) (so_envpw o) kn sk /\ hashed_as W fn c /\ printed W x (sign_text C E fn sk c)).
Proof.
  intros C E HC HE W v o kn fn more Ha Ho x. unfold x, cli_sign. rewrite Ha, (dash_out o fn Ho). cbv zeta. change (negb (beq (str "-") (str "-"))) with false. unfold with_output.
  destruct (sign_body_any C E W o kn fn (wo_stdout W) HC HE) as [(sk & c & H1 & H2 & ->)|(H & n & Hn & ->)]; cbn [x_ops x_code x_stdout].
  - split; [reflexivity|]. split; [split; [intros _; exists sk, c; auto|reflexivity]|]. split; [intros Z; contradiction|]. intros _. exists sk, c. split; [exact H1|]. split; [exact H2|].
    destruct (print_printed W 0 [] (sign_text C E fn sk c)) as (part & P1 & P2 & P3). exists part. split; [|split; assumption]. unfold wrote in *. cbn [x_stdout] in *.
    rewrite <- P1. destruct (w_close_more (snd (fullwrite (sign_text C E fn sk c) (wo_stdout W)))) as (_ & Hout & _). exact Hout.
  - split; [reflexivity|]. split; [split; [intros Z; contradiction|intros Z; contradiction]|]. split; [reflexivity|intros Z; contradiction].
Qed.
Print Assumptions C92_sign_to_stdout.

(** What was printed, saved in a file anywhere, is a signature which verify accepts with the matching public key (file or string) for every
    file with the same content, whatever its name there. *)
Theorem C92_printed_signature_verifies :
  forall C E, crypto_ok C -> ext_ok E -> forall W v o kn fn more seed c, so_args o = kn :: fn :: more -> so_output o = str "-" ->
  w_out (wo_stdout W) = [] -> Forall (fun p => snd p = None) (w_sched (wo_stdout W)) -> yaml_keeps E (str "input=" ++ fn) ->
  (forall sk, private_in C E W (so_nopw o) (so_envpw o) kn sk -> keypair C seed sk) -> hashed_as W fn c ->
  let x := cli_sign C E W v o in x_code x = 0 ->
  forall W' K S F pk, file_holds W' S (w_out (x_stdout x)) -> hashed_as W' F c -> key_arg C E W' K pk -> pubof C seed pk ->
  cli_verify C E W' [K; S; F] = 0.
Proof.
  intros C E HC HE W v o kn fn more seed c Ha Ho Hs0 Hs HY Hkp Hc x Hx W' K S F pk HS HF HK Hpk.
  assert (HX : x = cli_sign C E W v o) by reflexivity. clearbody x. unfold cli_sign in HX. rewrite Ha, (dash_out o fn Ho) in HX. cbv zeta in HX.
  change (negb (beq (str "-") (str "-"))) with false in HX. unfold with_output, sign_body in HX.
  destruct (read_private_key _ _ _ _) as [sk|e|p] eqn:R; [|subst x; discriminate Hx..]. apply private_ok in R.
  destruct (sign_file C sk (map_in W fn)) as [s|e|p] eqn:Sf; [|subst x; discriminate Hx..]. apply sign_file_exact in Sf. destruct Sf as (L & c' & Hc' & Hs1 & Hs2). apply map_in_holds in Hc'.
  assert (c' = c) as ->.
  { apply map_in_holds in Hc. apply map_in_holds in Hc'. clear - Hc Hc'. destruct Hc as (w1 & A1 & A2). destruct Hc' as (w2 & B1 & B2). rewrite A1 in B1. injection B1 as <-. rewrite <- A2. symmetry. exact B2. }
  destruct (fullwrite (marshal_signature E s (str "input=" ++ fn)) (wo_stdout W)) as [e w1] eqn:Fw. subst x. cbn [x_stdout] in HS.
  destruct (w_close_more w1) as (_ & Hout & _). rewrite Hout in HS.
  destruct e as [e|]; [destruct (fullwrite_Some _ _ _ _ Fw) as (_ & (m & Hm) & _); rewrite Forall_forall in Hs; specialize (Hs _ Hm); discriminate Hs|].
  apply fullwrite_None in Fw. destruct Fw as (Fw & _). rewrite Fw, Hs0 in HS. cbn [app] in HS.
  apply C47_verify_exact. exists K, S, F, [], pk, s, c. split; [reflexivity|]. split; [exact HK|]. split; [|split; [exact HF|]].
  - exists (marshal_signature E s (str "input=" ++ fn)), zero_sig. split; [exact HS|]. apply C32_signature_round_trip. exact HY.
  - pose proof (key_named _ _ _ _ _ HK) as N1. pose proof (private_named _ _ _ _ _ _ _ R) as N2. specialize (Hkp _ R). destruct Hkp as [Ks Ksk Kpk _]. destruct Hpk as [_ Ppk _].
    split; [rewrite Hs2, N1, N2, Kpk, Ppk; reflexivity|]. split; [rewrite Hs1; apply (ok_sign_len C HC)|]. rewrite Hs1, Ppk, Ksk. apply (ok_verify_sign C HC). exact Ks.
Qed.
Print Assumptions C92_printed_signature_verifies.

(** `sign` to a file exits 0 exactly if the key and the file can be read, and the signature file may be made (what is said about its content:
    C49, C80) *)
Theorem C92_sign_exit_status :
  forall C E, crypto_ok C -> ext_ok E -> forall W v o kn fn more, so_args o = kn :: fn :: more -> sig_file o fn <> str "-" ->
  (x_code (cli_sign C E W v o) = 0 <->
   can_sign C E W o kn fn /\ se_open v = None /\ (so_force o = true \/ content (wo_fs W) (wo_place W (sig_file o fn)) = None)).
Proof.
  intros C E HC HE W v o kn fn more Ha Hout. unfold cli_sign. rewrite Ha. cbv zeta. rewrite sig_out.
  assert (beq (sig_file o fn) (str "-") = false) as -> by (destruct (beq (sig_file o fn) (str "-")) eqn:B; [apply beq_iff in B; contradiction|reflexivity]). cbn [negb]. unfold with_output.
  assert (safe_open v (wo_fs W) (wo_place W (sig_file o fn)) (so_force o) = Ok tt /\ se_open v = None /\ (so_force o = true \/ content (wo_fs W) (wo_place W (sig_file o fn)) = None) \/
    (exists e, safe_open v (wo_fs W) (wo_place W (sig_file o fn)) (so_force o) = Fail e) /\ ~ (se_open v = None /\ (so_force o = true \/ content (wo_fs W) (wo_place W (sig_file o fn)) = None))) as [(-> & H1 & H2)|((e & ->) & H)].
  { unfold safe_open. destruct (content _ _) as [b|]; [destruct (so_force o)|]; destruct (se_open v) as [e|]; try (left; split; [reflexivity|]; split; [reflexivity|auto]);
      right; (split; [eexists; reflexivity|]); intros [A B]; try discriminate A; destruct B; discriminate. }
  - destruct (sign_body_any C E W o kn fn (sf_sink v) HC HE) as [(sk & c & K1 & K2 & ->)|(K & n & Hn & ->)]; cbn [x_code].
    + split; [intros _; split; [exists sk, c; auto|auto]|reflexivity].
    + split; [intros Z; contradiction|intros [Z _]; contradiction].
  - cbn [x_code code_of]. split; [discriminate|intros [_ Z]; contradiction].
Qed.
Print Assumptions C92_sign_exit_status.

(** sign -E PW -o - s.key plain; the text is saved as mail.sig on another machine, where the file is called copy *)
Definition sign_out : sign_opts := mkSo (str "-") (str "PW") false false [str "s.key"; str "plain"].
Definition mail : bytes := Eval vm_compute in w_out (x_stdout (cli_sign toy toyE town sf1 sign_out)).
Definition village : world := mk_world [(str "mail.sig", 21, mail); (str "copy", 22, text)].
Example C92_instance :
  x_code (cli_sign toy toyE town sf1 sign_out) = 0 /\ (80 <? len mail) = true /\ cli_verify toy toyE village [b64_encode (pk_Pk pkS); str "mail.sig"; str "copy"] = 0 /\
  (* another key, another file; a wrong passphrase *)
  cli_verify toy toyE village [b64_encode (pk_Pk pkA); str "mail.sig"; str "copy"] = 1 /\ cli_verify toy toyE village [b64_encode (pk_Pk pkS); str "mail.sig"; str "mail.sig"] = 1 /\
  x_code (cli_sign toy toyE town sf1 (mkSo (str "-") (str "NOPW") false false [str "s.key"; str "plain"])) = 1 /\
  x_code (cli_sign toy toyE town sf1 sign1) = 0.
Proof.
  assert (H0 : x_code (cli_sign toy toyE town sf1 sign_out) = 0) by (vm_compute; reflexivity).
  split; [exact H0|]. split; [vm_compute; reflexivity|]. split.
  - apply (C92_printed_signature_verifies toy toyE toy_ok toyE_ok town sf1 sign_out (str "s.key") (str "plain") [] seedS text eq_refl eq_refl) with (pk := keyS).
    + reflexivity.
    + constructor.
    + apply toyE_keeps.
    + exact town_skeyS.
    + apply map_in_holds. eexists. split; [vm_compute; reflexivity|vm_compute; reflexivity].
    + exact H0.
    + split; vm_compute; reflexivity.
    + apply map_in_holds. eexists. split; [vm_compute; reflexivity|vm_compute; reflexivity].
    + left. vm_compute. reflexivity.
    + exact keyS_of.
  - split; [vm_compute; reflexivity|]. split; [vm_compute; reflexivity|]. split; vm_compute; reflexivity.
Qed.
Print Assumptions C92_instance.
