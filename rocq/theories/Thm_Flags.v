(** C71: what the words of a command line mean.  C72: the command lines shown in README.md. *)
From Verif Require Import Bytes BytesLemmas GoErr GoIO GoText TextProofs Crypto Keys Sign KeyFiles Ssh Encrypt Decrypt Fs Store Cli Main SpecCli CliProofs
  Flags SpecFlags FlagsProofs Thm_Commands Thm_Main Toy ToyExt CliScene Thm_Cli.
Local Notation length := List.length.

(** ** The tables have no clashes *)
Ltac nodup := repeat constructor; cbn; intuition congruence.
Ltac table := split; [nodup | split; [nodup | repeat constructor; eexists _, _; (split; [reflexivity|]); (split; [discriminate|]); vm_compute; intuition discriminate]].
Lemma main_table : good_table main_flags. Proof. table. Qed.
Lemma gen_table : good_table gen_flags. Proof. table. Qed.
Lemma sign_table : good_table sign_flags. Proof. table. Qed.
Lemma verify_table : good_table verify_flags. Proof. table. Qed.
Lemma enc_table : good_table enc_flags. Proof. table. Qed.
Lemma dec_table : good_table dec_flags. Proof. table. Qed.
Lemma main_same : main_options = main_flags. Proof. reflexivity. Qed.
Lemma gen_same : generate_options = gen_flags. Proof. reflexivity. Qed.
Lemma sign_same : sign_options = sign_flags. Proof. reflexivity. Qed.
Lemma verify_same : verify_options = verify_flags. Proof. reflexivity. Qed.
Lemma enc_same : encrypt_options = enc_flags. Proof. reflexivity. Qed.
Lemma dec_same : decrypt_options = dec_flags. Proof. reflexivity. Qed.

Ltac in_table := cbn [In gen_flags main_flags sign_flags verify_flags enc_flags dec_flags]; auto 10.
(** the type of an option of a table *)
Ltac ty T CL n := let H := fresh "Y" in
  match type of CL with command_line ?fs _ _ ?items =>
    let fnd := eval vm_compute in (by_name fs (str n)) in
    match fnd with Some ?f => assert (H : typed items n (fg_bool f)) by (apply (line_typed _ _ _ _ f n T CL); [in_table | reflexivity]); cbn [fg_bool] in H end
  end.

(** pflag's own handling of --help and -h: only where they are not declared *)
Lemma short_help fs s f : by_short fs x68 = Some f -> parse_short fs s <> SHelp.
Proof.
  intros B. induction s as [|c s IH]; cbn [parse_short]; destruct (is_prefix _ _); try discriminate.
  destruct (by_short fs c) as [g|] eqn:E.
  - unfold set_value. destruct s as [|e t]; [destruct (fg_bool g); discriminate|].
    destruct (_ && _); [destruct (fg_bool g); [destruct (parse_bool _)|]; discriminate|]. destruct (fg_bool g) eqn:Hg; [|discriminate].
    destruct (parse_short fs (e :: t)); cbn [s_set]; [exfalso; apply IH; reflexivity|discriminate|discriminate].
  - destruct (Byte.eqb c x68) eqn:H; [|discriminate]. apply Byte.byte_dec_bl in H. subst. rewrite B in E. discriminate.
Qed.
Lemma p_sets_help l p : p_sets l p = PHelp -> p = PHelp.
Proof. induction l as [|[n v] l IH]; cbn [p_sets]; [auto|]. destruct (p_sets l p); cbn [p_set]; auto; discriminate. Qed.
Lemma no_undeclared_help fs f g mixed argv : by_short fs x68 = Some f -> by_name fs (str "help") = Some g -> parse_args fs mixed argv <> PHelp.
Proof.
  intros B N. remember (List.length argv) as n eqn:L. revert argv L. induction n as [n IH] using lt_wf_ind. intros argv ->.
  assert (R : forall l, (List.length l < List.length argv)%nat -> parse_args fs mixed l <> PHelp) by (intros l H; apply (IH _ H l); reflexivity). clear IH.
  destruct argv as [|s rest]; [discriminate|]. cbn [List.length] in R.
  assert (Rr : parse_args fs mixed rest <> PHelp) by (apply R; lia).
  assert (Pa : forall a p, p <> PHelp -> p_arg a p <> PHelp) by (intros a [| |? ?] H; cbn [p_arg]; try discriminate; exact H).
  assert (Ps : forall a v p, p <> PHelp -> p_set a v p <> PHelp) by (intros a v [| |? ?] H; cbn [p_set]; try discriminate; exact H).
  cbn [parse_args]. destruct s as [|c [|c2 name]]; try (destruct mixed; [apply Pa; exact Rr|discriminate]).
  destruct (Byte.eqb c x2d); cbn [negb]; [|destruct mixed; [apply Pa; exact Rr|discriminate]].
  destruct (Byte.eqb c2 x2d).
  - destruct name as [|n0 nm]; [discriminate|]. destruct (_ || _); [discriminate|]. destruct (split_eq (n0 :: nm)) as [nme text]. destruct (by_name fs nme) as [h|] eqn:E.
    + destruct text as [t|].
      * destruct (set_value h t); [apply Ps; exact Rr|discriminate].
      * destruct (fg_bool h); [apply Ps; exact Rr|]. destruct rest as [|t rest']; [discriminate|]. destruct (set_value h t); [|discriminate]. apply Ps, R. cbn [List.length]. lia.
    + destruct (beq nme (str "help")) eqn:H; [|discriminate]. apply beq_eq in H. subst. rewrite N in E. discriminate.
  - destruct (parse_short fs (c2 :: name)) as [| |sets need] eqn:E; [exfalso; exact (short_help _ _ _ B E)|discriminate|]. destruct need as [h|].
    + destruct rest as [|t rest']; [discriminate|]. intros H. apply p_sets_help in H. destruct (set_value h t); [|discriminate]. revert H. apply Ps, R. cbn [List.length]. lia.
    + intros H. apply p_sets_help in H. contradiction.
Qed.
Theorem C71_own_help : forall mixed argv fs, In fs [main_flags; gen_flags; sign_flags; verify_flags] -> parse_args fs mixed argv <> PHelp.
Proof. intros mixed argv fs H. cbn [In] in H. destruct H as [<- | [<- | [<- | [<- | []]]]]; (eapply no_undeclared_help; [reflexivity | reflexivity]). Qed.

(** ** C71.  Which option values and arguments the commands get from the words of a command line: exactly what they spell.
    An option may be given by its long name or its letter; its text may follow after "=", as the next word, or (for letters)
    without a blank; letters may be combined; the last of several values counts; options and arguments may be mixed, everything
    after "--" is an argument; options not given have their defaults.  (For the program itself everything from the command word
    on belongs to the command.) *)
Theorem C71_options : forall argv,
  (forall o, fl_main declared argv = Options o <->
     exists items, command_line main_options false argv items /\
       switch items "version" (mo_version o) /\ switch items "help" (mo_help o) /\ mo_args o = words items) /\
  (forall o, fl_gen declared argv = Options o <->
     exists items, command_line generate_options true argv items /\ switch items "help" false /\ generate_means items o) /\
  (forall o, fl_sign declared argv = Options o <->
     exists items, command_line sign_options true argv items /\ switch items "help" false /\ sign_means items o) /\
  (forall quiet args, fl_verify declared argv = Options (quiet, args) <->
     exists items, command_line verify_options true argv items /\ switch items "help" false /\ switch items "quiet" quiet /\ args = words items) /\
  (forall o, fl_enc declared argv = Options o <-> exists items, command_line encrypt_options true argv items /\ encrypt_means items o) /\
  (forall o, fl_dec declared argv = Options o <-> exists items, command_line decrypt_options true argv items /\ decrypt_means items o).
Proof.
  intros argv. rewrite main_same, gen_same, sign_same, verify_same, enc_same, dec_same.
  unfold declared. cbn [fl_main fl_gen fl_sign fl_verify fl_enc fl_dec]. split; [|split; [|split; [|split; [|split]]]].
  - intros [ov oh oa]. split.
    + destruct (parse_args main_flags false argv) as [| |s a] eqn:P; try discriminate. cbn [ended mo_version mo_help mo_args]. intros [= <- <- <-].
      apply (parse_iff _ _ _ _ _ main_table) in P. destruct P as (items & CL & -> & ->). exists items. split; [exact CL|].
      ty main_table CL "version"%string. ty main_table CL "help"%string. split; [apply switch_iff; auto|]. split; [apply switch_iff; auto|reflexivity].
    + intros (items & CL & A & B & E). cbn [mo_version mo_help mo_args] in *. rewrite (command_line_parse _ _ _ _ main_table CL). cbn [ended].
      ty main_table CL "version"%string. ty main_table CL "help"%string. apply (switch_iff _ _ _ Y) in A. apply (switch_iff _ _ _ Y0) in B. rewrite A, B, E. reflexivity.
  - intros [a1 a2 a3 a4 a5]. split.
    + destruct (parse_args gen_flags true argv) as [| |s a] eqn:P; try discriminate. cbn [ended]. destruct (get_bool s (str "help") false) eqn:Hh; [discriminate|]. intros [= <- <- <- <- <-].
      apply (parse_iff _ _ _ _ _ gen_table) in P. destruct P as (items & CL & -> & ->). exists items. split; [exact CL|]. unfold generate_means. cbn [ge_nopw ge_comment ge_envpw ge_force ge_args].
      ty gen_table CL "help"%string. ty gen_table CL "no-password"%string. ty gen_table CL "comment"%string. ty gen_table CL "env-password"%string. ty gen_table CL "overwrite"%string.
      repeat (split; [first [apply switch_iff; auto; fail | apply text_iff; auto]|]). reflexivity.
    + intros (items & CL & H & A1 & A2 & A3 & A4 & A5). cbn [ge_nopw ge_comment ge_envpw ge_force ge_args] in *. rewrite (command_line_parse _ _ _ _ gen_table CL). cbn [ended].
      ty gen_table CL "help"%string. ty gen_table CL "no-password"%string. ty gen_table CL "comment"%string. ty gen_table CL "env-password"%string. ty gen_table CL "overwrite"%string.
      apply (switch_iff _ _ _ Y) in H. apply (switch_iff _ _ _ Y0) in A1. apply (text_iff _ _ _ _ Y1) in A2. apply (text_iff _ _ _ _ Y2) in A3. apply (switch_iff _ _ _ Y3) in A4.
      rewrite H, A1, A2, A3, A4, A5. reflexivity.
  - intros [a1 a2 a3 a4 a5]. split.
    + destruct (parse_args sign_flags true argv) as [| |s a] eqn:P; try discriminate. cbn [ended]. destruct (get_bool s (str "help") false) eqn:Hh; [discriminate|]. intros [= <- <- <- <- <-].
      apply (parse_iff _ _ _ _ _ sign_table) in P. destruct P as (items & CL & -> & ->). exists items. split; [exact CL|]. unfold sign_means. cbn [so_output so_envpw so_nopw so_force so_args].
      ty sign_table CL "help"%string. ty sign_table CL "no-password"%string. ty sign_table CL "output"%string. ty sign_table CL "env-password"%string. ty sign_table CL "overwrite"%string.
      repeat (split; [first [apply switch_iff; auto; fail | apply text_iff; auto]|]). reflexivity.
    + intros (items & CL & H & A1 & A2 & A3 & A4 & A5). cbn [so_output so_envpw so_nopw so_force so_args] in *. rewrite (command_line_parse _ _ _ _ sign_table CL). cbn [ended].
      ty sign_table CL "help"%string. ty sign_table CL "output"%string. ty sign_table CL "env-password"%string. ty sign_table CL "no-password"%string. ty sign_table CL "overwrite"%string.
      apply (switch_iff _ _ _ Y) in H. apply (text_iff _ _ _ _ Y0) in A1. apply (text_iff _ _ _ _ Y1) in A2. apply (switch_iff _ _ _ Y2) in A3. apply (switch_iff _ _ _ Y3) in A4.
      rewrite H, A1, A2, A3, A4, A5. reflexivity.
  - intros q args. split.
    + destruct (parse_args verify_flags true argv) as [| |s a] eqn:P; try discriminate. cbn [ended]. destruct (get_bool s (str "help") false) eqn:Hh; [discriminate|]. intros [= <- <-].
      apply (parse_iff _ _ _ _ _ verify_table) in P. destruct P as (items & CL & -> & ->). exists items. split; [exact CL|].
      ty verify_table CL "help"%string. ty verify_table CL "quiet"%string. repeat (split; [apply switch_iff; auto|]). reflexivity.
    + intros (items & CL & H & A1 & A5). rewrite (command_line_parse _ _ _ _ verify_table CL). cbn [ended].
      ty verify_table CL "help"%string. ty verify_table CL "quiet"%string. apply (switch_iff _ _ _ Y) in H. apply (switch_iff _ _ _ Y0) in A1. rewrite H, A1, A5. reflexivity.
  - intros [a1 a2 a3 a4 a5 a6 a7]. split.
    + destruct (parse_args enc_flags true argv) as [| |s a] eqn:P; try discriminate. cbn [ended]. intros [= <- <- <- <- <- <- <-].
      apply (parse_iff _ _ _ _ _ enc_table) in P. destruct P as (items & CL & -> & ->). exists items. split; [exact CL|]. unfold encrypt_means. cbn [eo_outfile eo_keyfile eo_size eo_envpw eo_nopw eo_force eo_args].
      ty enc_table CL "outfile"%string. ty enc_table CL "sign"%string. ty enc_table CL "block-size"%string. ty enc_table CL "env-password"%string. ty enc_table CL "no-password"%string. ty enc_table CL "overwrite"%string.
      repeat (split; [first [apply switch_iff; auto; fail | apply text_iff; auto]|]). reflexivity.
    + intros (items & CL & A1 & A2 & A3 & A4 & A5 & A6 & A7). cbn [eo_outfile eo_keyfile eo_size eo_envpw eo_nopw eo_force eo_args] in *. rewrite (command_line_parse _ _ _ _ enc_table CL). cbn [ended].
      ty enc_table CL "outfile"%string. ty enc_table CL "sign"%string. ty enc_table CL "block-size"%string. ty enc_table CL "env-password"%string. ty enc_table CL "no-password"%string. ty enc_table CL "overwrite"%string.
      apply (text_iff _ _ _ _ Y) in A1. apply (text_iff _ _ _ _ Y0) in A2. apply (text_iff _ _ _ _ Y1) in A3. apply (text_iff _ _ _ _ Y2) in A4. apply (switch_iff _ _ _ Y3) in A5. apply (switch_iff _ _ _ Y4) in A6.
      rewrite A1, A2, A3, A4, A5, A6, A7. reflexivity.
  - intros [a1 a2 a3 a4 a5 a6 a7]. split.
    + destruct (parse_args dec_flags true argv) as [| |s a] eqn:P; try discriminate. cbn [ended]. intros [= <- <- <- <- <- <- <-].
      apply (parse_iff _ _ _ _ _ dec_table) in P. destruct P as (items & CL & -> & ->). exists items. split; [exact CL|]. unfold decrypt_means. cbn [do_outfile do_pubkey do_envpw do_nopw do_test do_force do_args].
      ty dec_table CL "outfile"%string. ty dec_table CL "verify-sender"%string. ty dec_table CL "env-password"%string. ty dec_table CL "no-password"%string. ty dec_table CL "test"%string. ty dec_table CL "overwrite"%string.
      repeat (split; [first [apply switch_iff; auto; fail | apply text_iff; auto]|]). reflexivity.
    + intros (items & CL & A1 & A2 & A3 & A4 & A5 & A6 & A7). cbn [do_outfile do_pubkey do_envpw do_nopw do_test do_force do_args] in *. rewrite (command_line_parse _ _ _ _ dec_table CL). cbn [ended].
      ty dec_table CL "outfile"%string. ty dec_table CL "verify-sender"%string. ty dec_table CL "env-password"%string. ty dec_table CL "no-password"%string. ty dec_table CL "test"%string. ty dec_table CL "overwrite"%string.
      apply (text_iff _ _ _ _ Y) in A1. apply (text_iff _ _ _ _ Y0) in A2. apply (text_iff _ _ _ _ Y1) in A3. apply (switch_iff _ _ _ Y2) in A4. apply (switch_iff _ _ _ Y3) in A5. apply (switch_iff _ _ _ Y4) in A6.
      rewrite A1, A2, A3, A4, A5, A6, A7. reflexivity.
Qed.

(** The words of [argv] call command [c] with the words [args]. *)
Definition calls (argv : list bytes) (c : command) (args : list bytes) : Prop :=
  exists items a, command_line main_options false argv items /\ switch items "version" false /\ switch items "help" false /\
    words items = a :: args /\ stands_for a c.
(** The program runs that command with the options and arguments that the words spell; with --help (generate, sign, verify)
    it exits with 0 and does nothing else; words that spell no options and arguments make it exit without having touched a file: with 2 for
    generate, sign and verify, with 0 for encrypt and decrypt (C99).  Usage texts on standard output: C100. *)
Theorem C71_command : forall C E W v1 v2 argv c args, calls argv c args ->
  let run := main C E W declared v1 v2 argv in
  let quits code := run = mkOut code [] (wo_stdout W) in
  match c with
  | Generate => (forall items, command_line generate_options true args items ->
        (switch items "help" true -> quits 0) /\ (switch items "help" false -> forall o, generate_means items o -> run = cli_generate C E W v1 v2 o)) /\
      ((forall items, ~ command_line generate_options true args items) -> quits 2)
  | Sign => (forall items, command_line sign_options true args items ->
        (switch items "help" true -> quits 0) /\ (switch items "help" false -> forall o, sign_means items o -> run = cli_sign C E W v1 o)) /\
      ((forall items, ~ command_line sign_options true args items) -> quits 2)
  | Verify => (forall items, command_line verify_options true args items ->
        (switch items "help" true -> quits 0) /\
        (switch items "help" false -> forall quiet, switch items "quiet" quiet -> run = cli_verify_cmd C E W quiet (words items))) /\
      ((forall items, ~ command_line verify_options true args items) -> quits 2)
  | Encrypt_ => (forall items, command_line encrypt_options true args items -> forall o, encrypt_means items o -> run = cli_encrypt C E W v1 o) /\
      ((forall items, ~ command_line encrypt_options true args items) -> quits 0)
  | Decrypt_ => (forall items, command_line decrypt_options true args items -> forall o, decrypt_means items o -> run = cli_decrypt C E W v1 o) /\
      ((forall items, ~ command_line decrypt_options true args items) -> quits 0)
  | Help => quits 0
  end.
Proof.
  intros C E W v1 v2 argv c args (items0 & a & CL0 & Hv & Hh & Wd & St). cbv zeta.
  destruct (C71_options argv) as (HM & _).
  assert (M : fl_main declared argv = Options (mkMain false false (a :: args))) by (apply HM; exists items0; auto).
  destruct (C55_dispatch C E W declared v1 v2 argv _ M) as (_ & D). cbn [mo_version mo_help mo_args] in D. specialize (D eq_refl eq_refl). destruct D as (D & _).
  destruct (D c St) as [-> _]. clear D HM M. destruct (C71_options args) as (_ & HG & HS & HV & HE & HD).
  destruct c; cbn [run_command].
  - split.
    + intros items CL. split.
      * intros Hq. rewrite gen_same in CL. unfold declared. cbn [fl_gen]. rewrite (command_line_parse _ _ _ _ gen_table CL). cbn [ended]. ty gen_table CL "help"%string. apply (switch_iff _ _ _ Y) in Hq. rewrite Hq. reflexivity.
      * intros Hq o Ho. rewrite (proj2 (HG o)); [reflexivity|]. exists items. auto.
    + intros N. unfold declared. cbn [fl_gen]. destruct (parse_args gen_flags true args) as [| |s l] eqn:P; cbn [ended]; auto.
      apply (parse_iff _ _ _ _ _ gen_table) in P. destruct P as (items & CL & _). exfalso. apply (N items). rewrite gen_same. exact CL.
  - split.
    + intros items CL. split.
      * intros Hq. rewrite sign_same in CL. unfold declared. cbn [fl_sign]. rewrite (command_line_parse _ _ _ _ sign_table CL). cbn [ended]. ty sign_table CL "help"%string. apply (switch_iff _ _ _ Y) in Hq. rewrite Hq. reflexivity.
      * intros Hq o Ho. rewrite (proj2 (HS o)); [reflexivity|]. exists items. auto.
    + intros N. unfold declared. cbn [fl_sign]. destruct (parse_args sign_flags true args) as [| |s l] eqn:P; cbn [ended]; auto.
      apply (parse_iff _ _ _ _ _ sign_table) in P. destruct P as (items & CL & _). exfalso. apply (N items). rewrite sign_same. exact CL.
  - split.
    + intros items CL. split.
      * intros Hq. rewrite verify_same in CL. unfold declared. cbn [fl_verify]. rewrite (command_line_parse _ _ _ _ verify_table CL). cbn [ended]. ty verify_table CL "help"%string. apply (switch_iff _ _ _ Y) in Hq. rewrite Hq. reflexivity.
      * intros Hq q Hquiet. rewrite (proj2 (HV q (words items))); [reflexivity|]. exists items. auto.
    + intros N. unfold declared. cbn [fl_verify]. destruct (parse_args verify_flags true args) as [| |s l] eqn:P; cbn [ended]; auto.
      apply (parse_iff _ _ _ _ _ verify_table) in P. destruct P as (items & CL & _). exfalso. apply (N items). rewrite verify_same. exact CL.
  - split.
    + intros items CL o Ho. rewrite (proj2 (HE o)); [reflexivity|]. exists items. auto.
    + intros N. unfold declared. cbn [fl_enc]. destruct (parse_args enc_flags true args) as [| |s l] eqn:P; cbn [ended]; auto.
      apply (parse_iff _ _ _ _ _ enc_table) in P. destruct P as (items & CL & _). exfalso. apply (N items). rewrite enc_same. exact CL.
  - split.
    + intros items CL o Ho. rewrite (proj2 (HD o)); [reflexivity|]. exists items. auto.
    + intros N. unfold declared. cbn [fl_dec]. destruct (parse_args dec_flags true args) as [| |s l] eqn:P; cbn [ended]; auto.
      apply (parse_iff _ _ _ _ _ dec_table) in P. destruct P as (items & CL & _). exfalso. apply (N items). rewrite dec_same. exact CL.
  - reflexivity.
Qed.

(** Instances: combined letters, glued and separate texts, later values, "--" *)
Example C71_instance : exists items,
  command_line decrypt_options true
    [str "-tv"; str "s.pub"; str "--outfile=a"; str "to.key"; str "-ob"; str "--no-password"; str "--test=F"; str "--"; str "-x"] items /\
  decrypt_means items (mkDo (str "b") (str "s.pub") [] true false false [str "to.key"; str "-x"]).
Proof.
  destruct (C71_options [str "-tv"; str "s.pub"; str "--outfile=a"; str "to.key"; str "-ob"; str "--no-password"; str "--test=F"; str "--"; str "-x"]) as (_ & _ & _ & _ & _ & H).
  apply (proj1 (H (mkDo (str "b") (str "s.pub") [] true false false [str "to.key"; str "-x"]))). vm_compute. reflexivity.
Qed.
Example C71_calls : calls [str "--debug"; str "D"; str "-t"; str "k"] Decrypt_ [str "-t"; str "k"].
Proof.
  destruct (proj1 (proj1 (C71_options [str "--debug"; str "D"; str "-t"; str "k"]) (mkMain false false [str "D"; str "-t"; str "k"]))) as (items & CL & A & B & Wd); [vm_compute; reflexivity|].
  exists items, (str "D"). cbn [mo_version mo_help mo_args] in *. split; [exact CL|]. split; [exact A|]. split; [exact B|]. split; [symmetry; exact Wd|].
  exists (str "d"), (str "ecrypt"). split; [discriminate|]. split; [|reflexivity]. apply sp_upper; [vm_compute; intuition congruence | reflexivity | constructor].
Qed.

(** ** C72: the README's command lines, for any file names *)
Lemma plain_word fs w rest : ~ dashed w -> parse_args fs true (w :: rest) = p_arg w (parse_args fs true rest).
Proof.
  intros ND. cbn [parse_args]. destruct w as [|c [|c2 r]]; try reflexivity. destruct (Byte.eqb c x2d) eqn:D; [|reflexivity].
  exfalso. apply ND. apply Byte.byte_dec_bl in D. subst. eexists _, _. reflexivity.
Qed.
Lemma plain_end fs : parse_args fs true [] = PGood [] []. Proof. reflexivity. Qed.
Lemma opt_o_enc t rest : parse_args enc_flags true (str "-o" :: t :: rest) = p_set (str "outfile") (VText t) (parse_args enc_flags true rest). Proof. reflexivity. Qed.
Lemma opt_s_enc t rest : parse_args enc_flags true (str "-s" :: t :: rest) = p_set (str "sign") (VText t) (parse_args enc_flags true rest). Proof. reflexivity. Qed.
Lemma opt_o_dec t rest : parse_args dec_flags true (str "-o" :: t :: rest) = p_set (str "outfile") (VText t) (parse_args dec_flags true rest). Proof. reflexivity. Qed.
Lemma opt_v_dec t rest : parse_args dec_flags true (str "-v" :: t :: rest) = p_set (str "verify-sender") (VText t) (parse_args dec_flags true rest). Proof. reflexivity. Qed.
Lemma opt_o_sign t rest : parse_args sign_flags true (str "-o" :: t :: rest) = p_set (str "output") (VText t) (parse_args sign_flags true rest). Proof. reflexivity. Qed.
Lemma opt_nopw_sign rest : parse_args sign_flags true (str "--no-password" :: rest) = p_set (str "no-password") (VBool true) (parse_args sign_flags true rest). Proof. reflexivity. Qed.
Lemma main_gen C E W v1 v2 args : main C E W declared v1 v2 (str "gen" :: args) = run_command C E W declared v1 v2 Generate args. Proof. reflexivity. Qed.
Lemma main_sign C E W v1 v2 args : main C E W declared v1 v2 (str "sign" :: args) = run_command C E W declared v1 v2 Sign args. Proof. reflexivity. Qed.
Lemma main_verify C E W v1 v2 args : main C E W declared v1 v2 (str "verify" :: args) = run_command C E W declared v1 v2 Verify args. Proof. reflexivity. Qed.
Lemma main_encrypt C E W v1 v2 args : main C E W declared v1 v2 (str "encrypt" :: args) = run_command C E W declared v1 v2 Encrypt_ args. Proof. reflexivity. Qed.
Lemma main_decrypt C E W v1 v2 args : main C E W declared v1 v2 (str "decrypt" :: args) = run_command C E W declared v1 v2 Decrypt_ args. Proof. reflexivity. Qed.

(** These lines of README.md do what they are said to do (the theorems about the command functions say what that is).
    Missing: [gen -p], and that sign without -o writes to standard output: see below. *)
Theorem C72_readme_partial : forall C E W v1 v2,
  let sigtool argv := main C E W declared v1 v2 argv in
  forall F K P S O, ~ dashed F -> ~ dashed K -> ~ dashed P -> ~ dashed S ->
  sigtool [str "gen"; F] = cli_generate C E W v1 v2 (mkGen false [] [] false [F]) /\
  sigtool [str "sign"; str "--no-password"; K; F] = cli_sign C E W v1 (mkSo [] [] true false [K; F]) /\
  sigtool [str "sign"; str "-o"; O; K; F] = cli_sign C E W v1 (mkSo O [] false false [K; F]) /\
  sigtool [str "verify"; P; S; F] = cli_verify_cmd C E W false [P; S; F] /\
  sigtool [str "encrypt"; str "-s"; K; P; str "-o"; O; F] = cli_encrypt C E W v1 (mkEo O K (str "128k") [] false false [P; F]) /\
  sigtool [str "decrypt"; str "-o"; O; str "-v"; P; K; F] = cli_decrypt C E W v1 (mkDo O P [] false false false [K; F]) /\
  sigtool [str "encrypt"; P; str "-o"; O; F] = cli_encrypt C E W v1 (mkEo O [] (str "128k") [] false false [P; F]).
Proof.
  intros C E W v1 v2 sigtool F K P S O HF HK HP HS. subst sigtool. cbv beta. rewrite main_gen, !main_sign, main_verify, !main_encrypt, main_decrypt.
  cbn [run_command]. unfold declared. cbn [fl_gen fl_sign fl_verify fl_enc fl_dec].
  rewrite ?opt_s_enc, ?opt_o_sign, ?opt_nopw_sign, ?opt_o_dec, ?opt_v_dec.
  repeat (rewrite ?plain_end; rewrite ?(plain_word _ F), ?(plain_word _ K), ?(plain_word _ P), ?(plain_word _ S), ?opt_o_enc by assumption).
  cbn [p_arg p_set ended]. repeat split; reflexivity.
Qed.

(** README.md: "sigtool gen -p /tmp/testkey" asks for a pass phrase.  There is no option -p: exit status 2, nothing is generated. *)
Theorem C72_gen_p_refuted : forall C E W v1 v2 F, main C E W declared v1 v2 [str "gen"; str "-p"; F] = mkOut 2 [] (wo_stdout W).
Proof. reflexivity. Qed.
(** README.md: without -o "the signature (YAML) is written to STDOUT".  It never is: it goes to the file FILE.sig. *)
Theorem C72_sign_stdout_refuted : forall C E W v1 v2 K F, ~ dashed K -> ~ dashed F ->
  let x := main C E W declared v1 v2 [str "sign"; K; F] in
  x = cli_sign C E W v1 (mkSo [] [] false false [K; F]) /\ sig_file (mkSo [] [] false false [K; F]) F = F ++ str ".sig" /\ x_stdout x = wo_stdout W.
Proof.
  intros C E W v1 v2 K F HK HF x. subst x. rewrite main_sign. cbn [run_command]. unfold declared. cbn [fl_sign]. rewrite !plain_word by assumption. rewrite plain_end. cbn [p_arg ended].
  split; [reflexivity|]. split; [reflexivity|]. unfold cli_sign. change (get_bool [] (str "help") false) with false. cbv iota. cbn [so_args so_output len length so_force get_text get_bool]. change (0 <? Z.of_nat 0) with false. cbv iota.
  assert (N : beq (F ++ str ".sig") (str "-") = false).
  { apply beq_neq. intros H. apply (f_equal (@List.length byte)) in H. rewrite app_length in H. change (length (str ".sig")) with 4%nat in H. change (length (str "-")) with 1%nat in H. lia. }
  unfold with_output. change (if 0 <? len ([] : bytes) then [] else F ++ str ".sig") with (F ++ str ".sig"). rewrite N. cbn [negb].
  destruct (safe_open _ _ _ _) as [?|?|?]; try reflexivity. destruct (sign_body _ _ _ _ _ _ _) as [? ?]. reflexivity.
Qed.
Example C72_instance : ~ dashed (str "archive.tar.gz") /\ ~ dashed (str "/tmp/testkey.key") /\ ~ dashed (str "-") /\ dashed (str "-x").
Proof. repeat split; try (intros (c & r & H); discriminate H). eexists _, _. reflexivity. Qed.
Print Assumptions C71_options.
Print Assumptions C71_command.
Print Assumptions C72_readme_partial.
Print Assumptions C72_sign_stdout_refuted.
