(** C90: a command writes either to its output file or to standard output, never to both. *)
From Verif Require Import Bytes BytesLemmas GoErr GoIO SpecIO Crypto CryptoLaws Keys KeyFiles Sign SpecSign Ssh Encrypt Decrypt Fs SpecFs Store Cli SpecCli CliProofs
  Spec Toy ToyExt Scene CliScene Thm_Cli Thm_Commands Thm_Files.
Require Import ZifyBool.

Lemma with_output_one W v m out tofile force body :
  let x := with_output W v m out tofile force body in (tofile = true -> x_stdout x = wo_stdout W) /\ (tofile = false -> x_ops x = []).
Proof.
  cbv zeta. unfold with_output. destruct tofile.
  - split; [intros _|discriminate]. destruct (safe_open _ _ _ _) as [u|e|w]; [|reflexivity|reflexivity]. destruct (body (sf_sink v)) as [c w]. reflexivity.
  - split; [discriminate|intros _]. destruct (body (wo_stdout W)) as [c w]. reflexivity.
Qed.

(** In every world, with all options and arguments, and whether the command succeeds, fails or panics: generate prints nothing; encrypt,
    decrypt and sign print nothing if the output is a file, and make no change to any file if it is not (no -o, or "-" );
    decrypt --test does neither. *)
Theorem C90_one_destination :
  forall C E W v v2,
  (forall o, x_stdout (cli_generate C E W v v2 o) = wo_stdout W) /\
  (forall o, (a_file (eo_outfile o) -> x_stdout (cli_encrypt C E W v o) = wo_stdout W) /\
             (~ a_file (eo_outfile o) -> x_ops (cli_encrypt C E W v o) = [])) /\
  (forall o, (a_file (do_outfile o) \/ do_test o = true -> x_stdout (cli_decrypt C E W v o) = wo_stdout W) /\
             (~ a_file (do_outfile o) \/ do_test o = true -> x_ops (cli_decrypt C E W v o) = [])) /\
  (forall o, (so_output o <> str "-" -> x_stdout (cli_sign C E W v o) = wo_stdout W) /\
             (so_output o = str "-" -> x_ops (cli_sign C E W v o) = [])).
Proof.
  intros C E W v v2. split; [|split; [|split]].
  - intros o. unfold cli_generate. destruct (ge_args o) as [|bn ?]; [reflexivity|]. cbv zeta. destruct (_ && _); [reflexivity|].
    destruct (get_pass W _ _) as [pw|e|w]; [|reflexivity|reflexivity]. destruct (rand_buf 32 _) as [seed g].
    destruct (serialize_private _ _ _ _ _ _ _ _ _ _) as [[ops1 [u|e|w]] g2]; [|reflexivity|reflexivity].
    destruct (serialize_public _ _ _ _ _ _ _) as [ops2 r]. reflexivity.
  - intros o.
    assert (H : let x := cli_encrypt C E W v o in (names_file (eo_outfile o) = true -> x_stdout x = wo_stdout W) /\ (names_file (eo_outfile o) = false -> x_ops x = [])).
    { cbv zeta. unfold cli_encrypt. destruct (wo_size W _) as [blk|e|w]; [|split; reflexivity|split; reflexivity].
      destruct (if 0 <? len (eo_keyfile o) then _ else _) as [sk|e|w]; [|split; reflexivity|split; reflexivity].
      destruct (_ <? 2); [split; reflexivity|]. cbv zeta. destruct (if beq _ _ then _ else _) as [rd|e|w]; [|split; reflexivity|split; reflexivity].
      destruct (wo_home W) as [home|]; [|split; reflexivity].
      destruct (slurp W _) as [a|e|w]; [| |split; reflexivity].
      - destruct (parse_authorized_keys C a); [|apply with_output_one|split; reflexivity]. apply with_output_one.
      - destruct (not_exist e); [|split; reflexivity]. destruct (parse_authorized_keys C []); [|apply with_output_one|split; reflexivity]. apply with_output_one. }
    destruct H as [H1 H2]. split; [rewrite <- names_ok; exact H1|]. rewrite <- names_ok. intros N. apply H2. destruct (names_file (eo_outfile o)); [contradiction N; reflexivity|reflexivity].
  - intros o.
    assert (H : let x := cli_decrypt C E W v o in (names_file (do_outfile o) = true \/ do_test o = true -> x_stdout x = wo_stdout W) /\
      (names_file (do_outfile o) = false \/ do_test o = true -> x_ops x = [])).
    { cbv zeta. unfold cli_decrypt. destruct (do_args o) as [|kf more]; [split; reflexivity|].
      destruct (read_private_key _ _ _ _) as [sk|e|w]; [|split; reflexivity|split; reflexivity].
      destruct (if 0 <? len (do_pubkey o) then _ else _) as [pk|e|w]; [|split; reflexivity|split; reflexivity].
      destruct (match more with [] => _ | _ => _ end) as [rd|e|w]; [|split; reflexivity|split; reflexivity].
      destruct (do_test o); [split; reflexivity|]. destruct (with_output_one W v (oct 6 0 0) (do_outfile o) (names_file (do_outfile o)) (do_force o) (dec_body C sk pk rd)) as [A B].
      split; intros [X|X]; try discriminate X; auto. }
    destruct H as [H1 H2]. rewrite <- names_ok. split; [exact H1|]. intros [N|N]; apply H2; [left|right; exact N]. destruct (names_file (do_outfile o)); [contradiction N; reflexivity|reflexivity].
  - intros o. unfold cli_sign. destruct (so_args o) as [|kn [|fn more]]; [split; reflexivity|split; reflexivity|]. cbv zeta.
    set (outf := if 0 <? len (so_output o) then _ else _).
    destruct (with_output_one W v (oct 6 4 4) outf (negb (beq outf (str "-"))) (so_force o) (sign_body C E W o kn fn)) as [A B].
    split; intros H; [apply A|apply B].
    + apply negb_true_iff. destruct (beq outf (str "-")) eqn:Q; [|reflexivity]. apply beq_eq in Q. exfalso. unfold outf in Q.
      destruct (0 <? len (so_output o)); [contradiction|]. apply (f_equal len) in Q. rewrite len_app in Q. pose proof (len_nonneg fn). change (len (str ".sig")) with 4 in Q. change (len (str "-")) with 1 in Q. lia.
    + apply negb_false_iff. unfold outf. rewrite H. reflexivity.
Qed.
Print Assumptions C90_one_destination.

(** encryption to a file and to standard output: both put something somewhere *)
Example C90_instance :
  a_file (eo_outfile enc1) /\ x_code (cli_encrypt toy toyE town sf1 enc1) = 0 /\ x_ops (cli_encrypt toy toyE town sf1 enc1) <> [] /\
  let o := mkEo (str "-") (eo_keyfile enc1) (eo_size enc1) (eo_envpw enc1) (eo_nopw enc1) (eo_force enc1) (eo_args enc1) in
  ~ a_file (eo_outfile o) /\ x_code (cli_encrypt toy toyE town sf1 o) = 0 /\ w_out (x_stdout (cli_encrypt toy toyE town sf1 o)) <> [].
Proof.
  split; [split; vm_compute; discriminate|]. split; [vm_compute; reflexivity|]. split; [vm_compute; discriminate|]. cbv zeta.
  split; [intros [_ H]; apply H; reflexivity|]. split; [vm_compute; reflexivity|]. vm_compute. discriminate.
Qed.
