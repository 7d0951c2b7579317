(** C74: a command that fails changes no file. *)
From Verif Require Import Bytes BytesLemmas GoErr GoIO SpecIO IOProofs Support Pb SpecPb Crypto CryptoLaws Keys Sign SpecSign Encrypt Decrypt Spec
  KeyFiles ExtLaws Base64 GoText TextProofs Ssh SpecSsh Fs SpecFs FsProofs Store Cli Main SpecCli CliProofs Toy Scene ToyExt Thm_Files CliScene Thm_Cli Thm_Commands Thm_Main Thm_Pipe Thm_Touch.
Require Import ZifyBool.
Ltac Zify.zify_post_hook ::= Z.div_mod_to_equations.

(** Full property: if the exit status is not 0, no file was changed, at any moment of the run.  Missing: generate, which writes two files one
    after the other (C74_generate_refuted; what it can leave behind is C50). *)
Theorem C74_failure_changes_nothing_partial :
  forall C E W P v1 v2 argv, let f := wo_fs W in
  (exists d0, fresh v1 f d0) -> (forall n, asked W P argv n -> wo_place W n <> se_tmp v1) ->
  let x := main C E W P v1 v2 argv in
  (forall args, ~ runs P argv Generate args) -> x_code x <> 0 -> always f (x_ops x) (unchanged v1 f).
Proof.
  intros C E W P v1 v2 argv f (d0 & F0) Hp x NG. unfold x. clear x.
  assert (FR : forall n, asked W P argv n -> fresh v1 f (wo_place W n)) by (intros n A; split; [apply not_eq_sym, (Hp n A)|exact (proj2 F0)]).
  assert (N : forall c, x_code c <> 0 -> x_ops c = [] -> always f (x_ops c) (unchanged v1 f)) by (intros c _ ->; exact (always_nil v1 f d0 F0)).
  destruct (fl_main P argv) as [code|o] eqn:Em; [intros H; apply N; [exact H|]; unfold main; rewrite Em; reflexivity|].
  destruct (C55_dispatch C E W P v1 v2 argv o Em) as (H1 & H2). destruct (mo_version o) eqn:Ev; [rewrite H1 by auto; intros H; apply N; [exact H|reflexivity]|].
  destruct (mo_help o) eqn:Eh; [rewrite H1 by auto; intros H; apply N; [exact H|reflexivity]|].
  specialize (H2 eq_refl eq_refl). destruct (mo_args o) as [|a args] eqn:Ea; [rewrite H2; intros H; apply N; [exact H|reflexivity]|]. destruct H2 as (H2 & H3).
  destruct (stands_dec a) as [(c & Hc)|X]; [|rewrite (H3 X); intros H; apply N; [exact H|reflexivity]]. destruct (H2 _ Hc) as (-> & _).
  assert (R : runs P argv c args) by (exists o, a; auto 8). clear H1 H2 H3. unfold run_command. destruct c.
  - exfalso. exact (NG _ R).
  - destruct (fl_sign P args) as [code|os] eqn:Eg; [intros H; apply N; [exact H|reflexivity]|].
    destruct (so_args os) as [|kn [|fn more]] eqn:Es; [intros H; apply N; [exact H|]; unfold cli_sign; rewrite Es; reflexivity..|].
    destruct (beq (sig_file os fn) (str "-")) eqn:Ed.
    + intros H. apply N; [exact H|]. unfold cli_sign. rewrite Es, !sig_out, Ed. cbn [negb]. unfold with_output. destruct (sign_body _ _ _ _ _ _ _). reflexivity.
    + assert (Nd : sig_file os fn <> str "-") by (intros Z; rewrite Z in Ed; discriminate Ed).
      destruct (C49_sign_partial C E W v1 os kn fn more Es Nd (FR _ (as_sig W P argv args os kn fn more R Eg Es Nd))) as (_ & X & _). exact X.
  - intros H. apply N; [exact H|]. destruct (fl_verify P args) as [code|[q av]]; [reflexivity|]. exact (proj1 (C62_verify_report C E W q av)).
  - destruct (fl_enc P args) as [code|oe] eqn:Eg; [intros H; apply N; [exact H|reflexivity]|]. destruct (names_file (eo_outfile oe)) eqn:En.
    + apply names_ok in En. exact (proj1 (C48_encrypt_exact C E W v1 oe En (FR _ (as_enc W P argv args oe R Eg En)))).
    + intros H. apply N; [exact H|]. destruct (cli_encrypt_any C E W v1 oe) as [(_ & X & _)|(blk & sk & rd & pka & _ & _ & _ & _ & _ & X)]; [exact X|]. rewrite X, En. unfold with_output. destruct (enc_body _ _ _ _ _ _ _ _ _). reflexivity.
  - destruct (fl_dec P args) as [code|od] eqn:Eg; [intros H; apply N; [exact H|reflexivity]|]. destruct (do_test od) eqn:Et.
    { intros H. apply N; [exact H|]. apply (C45_test_mode C E W v1 od Et). }
    destruct (names_file (do_outfile od)) eqn:En.
    + apply names_ok in En. exact (proj1 (C45_decrypt_to_file_partial C E W v1 od En Et (FR _ (as_dec W P argv args od R Eg En Et)))).
    + intros H. apply N; [exact H|]. destruct (cli_decrypt_any C E W v1 od Et) as [(_ & X & _)|(kf & more & sk & pk & rd & _ & _ & _ & _ & X)]; [exact X|]. rewrite X, En. unfold with_output. destruct (dec_body _ _ _ _ _). reflexivity.
  - intros H. apply N; [exact H|reflexivity].
Qed.
Print Assumptions C74_failure_changes_nothing_partial.

(** a disk that is full: encrypt fails, and leaves the old output file as it was *)
Lemma enc_only c args : runs any_flags [str "enc"] c args -> c = Encrypt_.
Proof.
  intros (o & a & X & _ & _ & Y & Z). injection X as <-. cbn [mo_args] in Y. injection Y as <- _. apply stands_iff in Z. destruct Z as (_ & r & H). destruct c; try discriminate H. reflexivity.
Qed.
Example C74_instance :
  let x := main toy toyE town any_flags sf_full sf2 [str "enc"] in
  x_code x = 1 /\ x_ops x <> [] /\ asked town any_flags [str "enc"] (eo_outfile enc1) /\ always (wo_fs town) (x_ops x) (unchanged sf_full (wo_fs town)).
Proof.
  cbv zeta. assert (X : x_code (main toy toyE town any_flags sf_full sf2 [str "enc"]) = 1) by (vm_compute; reflexivity). split; [exact X|].
  split; [vm_compute; discriminate|]. split.
  - apply (as_enc town any_flags [str "enc"] [] enc1); [|reflexivity|split; vm_compute; discriminate].
    exists (mkMain false false [str "enc"]), (str "enc"). split; [reflexivity|]. split; [reflexivity|]. split; [reflexivity|]. split; [reflexivity|]. apply stands_iff. split; [discriminate|]. exists (str "rypt"). reflexivity.
  - apply C74_failure_changes_nothing_partial.
    + exists (wo_place town (eo_outfile enc1)). apply town_fresh; vm_compute; congruence.
    + intros n Hn. destruct Hn as [args o bn rest R|args o bn rest R|args o kn fn rest R|args o R G|args o R]; try (apply enc_only in R; discriminate R). injection G as <-. vm_compute. congruence.
    + intros args R. apply enc_only in R. discriminate R.
    + rewrite X. discriminate.
Qed.

(** generate is the exception: the private key is in place when the public key cannot be written *)
Theorem C74_generate_refuted :
  ~ (forall C E W P v1 v2 argv, crypto_ok C -> ext_ok E -> let f := wo_fs W in
     (forall n, asked W P argv n -> fresh v1 f (wo_place W n) /\ fresh v2 f (wo_place W n)) -> se_tmp v1 <> se_tmp v2 -> se_ino v1 <> se_ino v2 ->
     let x := main C E W P v1 v2 argv in x_code x <> 0 -> forall q, q <> se_tmp v1 -> q <> se_tmp v2 -> content (run_ops f (x_ops x)) q = content f q).
Proof.
  intros H. specialize (H toy toyE town any_flags sf2 sf_full [str "gen"] toy_ok toyE_ok).
  assert (Z : content (run_ops (wo_fs town) (x_ops (main toy toyE town any_flags sf2 sf_full [str "gen"]))) (wo_place town (str "id.key")) = content (wo_fs town) (wo_place town (str "id.key"))).
  { apply H; [|discriminate|discriminate|vm_compute; discriminate|vm_compute; discriminate|vm_compute; discriminate].
    intros n Hn. apply gen_asked in Hn. destruct Hn as [->| ->]; (split; apply town_fresh; vm_compute; congruence). }
  revert Z. vm_compute. discriminate.
Qed.
Print Assumptions C74_generate_refuted.
