(** C99: what exit status 0 of sigtool means, for every command line. *)
From Verif Require Import Bytes BytesLemmas GoErr GoIO GoText TextProofs Crypto Keys Sign KeyFiles Ssh Encrypt Decrypt Fs Store Cli Main SpecCli CliProofs
  Flags SpecFlags FlagsProofs Thm_Commands Thm_Main Toy ToyExt CliScene Thm_Cli Thm_Flags Thm_Words Thm_Files.
Local Notation length := List.length.
Local Notation concat := List.concat.

(** ** Specification *)
(** The words ask for the version, or for a text about the program or about one of its commands. *)
Definition asks_about (argv : list bytes) : Prop :=
  (exists items, command_line main_options false argv items /\ (switch items "version" true \/ switch items "help" true)) \/
  (exists args, calls argv Help args) \/
  (exists args items, calls argv Generate args /\ command_line generate_options true args items /\ switch items "help" true) \/
  (exists args items, calls argv Sign args /\ command_line sign_options true args items /\ switch items "help" true) \/
  (exists args items, calls argv Verify args /\ command_line verify_options true args items /\ switch items "help" true).
(** The words call a command with options that the command does not have, or without the text of an option. *)
Definition misspelt (argv : list bytes) (c : command) : Prop :=
  exists args, calls argv c args /\
    match c with
    | Generate => forall items, ~ command_line generate_options true args items
    | Sign => forall items, ~ command_line sign_options true args items
    | Verify => forall items, ~ command_line verify_options true args items
    | Encrypt_ => forall items, ~ command_line encrypt_options true args items
    | Decrypt_ => forall items, ~ command_line decrypt_options true args items
    | Help => False
    end.
(** [x] is the outcome of a command that was run with the options and arguments the words spell. *)
Definition did (C : crypto) (E : ext) (W : world) (v1 v2 : sf_env) (argv : list bytes) (x : outcome) : Prop :=
  (exists o, asks_generate argv o /\ x = cli_generate C E W v1 v2 o) \/
  (exists o, asks_sign argv o /\ x = cli_sign C E W v1 o) \/
  (exists l quiet, asks_verify argv l /\ x = cli_verify_cmd C E W quiet l) \/
  (exists o, asks_encrypt argv o /\ x = cli_encrypt C E W v1 o) \/
  (exists o, asks_decrypt argv o /\ x = cli_decrypt C E W v1 o).

(** ** Every command line *)
Lemma stands_dec a : (exists c, stands_for a c) \/ (forall c, ~ stands_for a c).
Proof.
  destruct (to_lower a) as [|x t] eqn:L.
  - right. intros c H. apply stands_iff in H. destruct H as [H _]. rewrite L in H. contradiction.
  - assert (D : forall c, stands_for a c <-> is_prefix (to_lower a) (called c) = true).
    { intros c. rewrite stands_iff, is_prefix_iff. rewrite L. split; [intros (_ & r & H); exists r; exact H | intros (r & H); split; [discriminate | exists r; exact H]]. }
    assert (E : (exists c, is_prefix (to_lower a) (called c) = true) \/ forall c, is_prefix (to_lower a) (called c) <> true).
    { destruct (existsb (fun c => is_prefix (to_lower a) (called c)) [Generate; Sign; Verify; Encrypt_; Decrypt_; Help]) eqn:X.
      - apply existsb_exists in X. destruct X as (c & _ & X). left. exists c. exact X.
      - right. intros c H. assert (Y : existsb (fun c => is_prefix (to_lower a) (called c)) [Generate; Sign; Verify; Encrypt_; Decrypt_; Help] = true).
        { apply existsb_exists. exists c. split; [destruct c; cbn [In]; auto 10 | exact H]. }
        congruence. }
    destruct E as [(c & H)|H]; [left; exists c; apply D; exact H | right; intros c Hc; apply (H c); apply D; exact Hc].
Qed.

(** what a list of words is to a table of options *)
Lemma line_dec fs mixed argv : good_table fs ->
  (exists items, command_line fs mixed argv items) \/ (forall items, ~ command_line fs mixed argv items).
Proof.
  intros G. destruct (parse_args fs mixed argv) as [| |s a] eqn:P.
  - right. intros items CL. rewrite (command_line_parse _ _ _ _ G CL) in P. discriminate.
  - right. intros items CL. rewrite (command_line_parse _ _ _ _ G CL) in P. discriminate.
  - left. apply (parse_iff _ _ _ _ _ G) in P. destruct P as (items & CL & _). exists items. exact CL.
Qed.

(** *** C99.  Every command line, in every world: it asks about the program; or a command is run as the words say; or it is misspelt, and
    then nothing is done; or no command is named, and then nothing is done and the status is 1 or 2. *)
Theorem C99_every_command_line : forall C E W v1 v2 argv,
  let x := main C E W declared v1 v2 argv in
  let nothing code := x = mkOut code [] (wo_stdout W) in
  (asks_about argv /\ nothing 0) \/
  did C E W v1 v2 argv x \/
  (misspelt argv Generate \/ misspelt argv Sign \/ misspelt argv Verify) /\ nothing 2 \/
  (misspelt argv Encrypt_ \/ misspelt argv Decrypt_) /\ nothing 0 \/
  (forall c args, ~ calls argv c args) /\ (nothing 1 \/ nothing 2).
Proof.
  intros C E W v1 v2 argv x nothing. subst x nothing. cbv beta.
  destruct (line_dec main_flags false argv main_table) as [(items & CL)|N].
  - destruct (fl_main declared argv) as [c|o] eqn:M.
    { exfalso. cbn [declared fl_main] in M. rewrite (command_line_parse _ _ _ _ main_table CL) in M. discriminate. }
    destruct (proj1 (proj1 (C71_options argv) o) M) as (items1 & CL1 & V & H & Wd).
    pose proof (C55_dispatch C E W declared v1 v2 argv o M) as (D1 & D2).
    destruct (mo_version o) eqn:Ev; [left; split; [left; exists items1; auto|apply D1; auto]|].
    destruct (mo_help o) eqn:Eh; [left; split; [left; exists items1; auto|apply D1; auto]|]. specialize (D2 eq_refl eq_refl). clear D1.
    assert (U : forall c args, calls argv c args -> exists a, mo_args o = a :: args /\ stands_for a c).
    { intros c args (it & a & CLi & Vi & Hi & Wi & St). exists a. split; [|exact St]. rewrite Wd.
      assert (P1 := command_line_parse _ _ _ _ main_table CL1). assert (P2 := command_line_parse _ _ _ _ main_table CLi). rewrite P1 in P2. injection P2 as _ ->. exact Wi. }
    destruct (mo_args o) as [|a args] eqn:Ea.
    { right. right. right. right. split; [|left; exact D2]. intros c args Hc. destruct (U _ _ Hc) as (a & X & _). discriminate. }
    destruct (stands_dec a) as [(c & St)|Ns].
    2:{ right. right. right. right. split; [|left; apply D2; exact Ns]. intros c args' Hc. destruct (U _ _ Hc) as (a' & X & St). injection X as <- <-. exact (Ns _ St). }
    assert (Hc : calls argv c args). { exists items1, a. split; [exact CL1|]. split; [exact V|]. split; [exact H|]. split; [symmetry; exact Wd|exact St]. }
    pose proof (C71_command C E W v1 v2 argv c args Hc) as X. cbv zeta in X. destruct (C71_options args) as (_ & HG & HS & HV & HE & HD).
    destruct c.
    + destruct (line_dec gen_flags true args gen_table) as [(its & L)|Nl]; [|right; right; left; split; [left; exists args; auto | apply X; exact Nl]].
      destruct (proj1 X its L) as [Xh Xo]. destruct (fl_gen declared args) as [q|og] eqn:F.
      * left. assert (Hh : switch its "help" true). { cbn [declared fl_gen] in F. rewrite (command_line_parse _ _ _ _ gen_table L) in F. cbn [ended] in F. ty gen_table L "help"%string. apply (switch_iff _ _ _ Y). destruct (get_bool _ _ _); [reflexivity|discriminate F]. }
        split; [right; right; left; exists args, its; auto | apply Xh; exact Hh].
      * right. left. left. exists og. destruct (proj1 (HG og) eq_refl) as (its2 & L2 & Hh2 & Mn). split; [exists args, its2; auto|]. apply (proj2 (proj1 X its2 L2) Hh2 og Mn).
    + destruct (line_dec sign_flags true args sign_table) as [(its & L)|Nl]; [|right; right; left; split; [right; left; exists args; auto | apply X; exact Nl]].
      destruct (proj1 X its L) as [Xh Xo]. destruct (fl_sign declared args) as [q|og] eqn:F.
      * left. assert (Hh : switch its "help" true). { cbn [declared fl_sign] in F. rewrite (command_line_parse _ _ _ _ sign_table L) in F. cbn [ended] in F. ty sign_table L "help"%string. apply (switch_iff _ _ _ Y). destruct (get_bool _ _ _); [reflexivity|discriminate F]. }
        split; [right; right; right; left; exists args, its; auto | apply Xh; exact Hh].
      * right. left. right. left. exists og. destruct (proj1 (HS og) eq_refl) as (its2 & L2 & Hh2 & Mn). split; [exists args, its2; auto|]. apply (proj2 (proj1 X its2 L2) Hh2 og Mn).
    + destruct (line_dec verify_flags true args verify_table) as [(its & L)|Nl]; [|right; right; left; split; [right; right; exists args; auto | apply X; exact Nl]].
      destruct (proj1 X its L) as [Xh Xo]. destruct (fl_verify declared args) as [q|[q l]] eqn:F.
      * left. assert (Hh : switch its "help" true). { cbn [declared fl_verify] in F. rewrite (command_line_parse _ _ _ _ verify_table L) in F. cbn [ended] in F. ty verify_table L "help"%string. apply (switch_iff _ _ _ Y). destruct (get_bool _ _ _); [reflexivity|discriminate F]. }
        split; [right; right; right; right; exists args, its; auto | apply Xh; exact Hh].
      * right. left. right. right. left. destruct (proj1 (HV q l) eq_refl) as (its2 & L2 & Hh2 & Hq & ->). exists (words its2), q. split; [exists args, its2; auto|].
        apply (proj2 (proj1 X its2 L2) Hh2 q Hq).
    + destruct (line_dec enc_flags true args enc_table) as [(its & L)|Nl]; [|right; right; right; left; split; [left; exists args; auto | apply X; exact Nl]].
      destruct (fl_enc declared args) as [q|oe] eqn:F.
      { exfalso. cbn [declared fl_enc] in F. rewrite (command_line_parse _ _ _ _ enc_table L) in F. discriminate. }
      right. left. right. right. right. left. exists oe. destruct (proj1 (HE oe) eq_refl) as (its2 & L2 & Mn). split; [exists args, its2; auto|]. apply (proj1 X its2 L2 oe Mn).
    + destruct (line_dec dec_flags true args dec_table) as [(its & L)|Nl]; [|right; right; right; left; split; [right; exists args; auto | apply X; exact Nl]].
      destruct (fl_dec declared args) as [q|od] eqn:F.
      { exfalso. cbn [declared fl_dec] in F. rewrite (command_line_parse _ _ _ _ dec_table L) in F. discriminate. }
      right. left. right. right. right. right. exists od. destruct (proj1 (HD od) eq_refl) as (its2 & L2 & Mn). split; [exists args, its2; auto|]. apply (proj1 X its2 L2 od Mn).
    + left. split; [right; left; exists args; exact Hc | exact X].
  - right. right. right. right. split.
    + intros c args (it & a & CL & _). exact (N it CL).
    + right. unfold main. cbn [declared fl_main]. destruct (parse_args main_flags false argv) as [| |s a] eqn:P; try reflexivity.
      exfalso. apply (parse_iff _ _ _ _ _ main_table) in P. destruct P as (items & CL & _). exact (N items CL).
Qed.

(** *** C99.  Exit status 0: the words asked about the program, or a command did what they say and ended with 0 - what that means is the
    subject of C43 to C48, C62 to C66.  Missing: encrypt and decrypt with misspelt options, which end with 0 too (refuted below). *)
Theorem C99_zero_partial : forall C E W v1 v2 argv,
  (forall c, In c [Encrypt_; Decrypt_] -> ~ misspelt argv c) ->
  let x := main C E W declared v1 v2 argv in
  x_code x = 0 -> asks_about argv /\ x = mkOut 0 [] (wo_stdout W) \/ did C E W v1 v2 argv x.
Proof.
  intros C E W v1 v2 argv N x Hx. destruct (C99_every_command_line C E W v1 v2 argv) as [H|[H|[[_ H]|[[H _]|[_ H]]]]]; fold x in H.
  - left. exact H.
  - right. exact H.
  - rewrite H in Hx. discriminate.
  - destruct H as [H|H]; exfalso; [apply (N Encrypt_) | apply (N Decrypt_)]; cbn [In]; auto.
  - destruct H as [H|H]; rewrite H in Hx; discriminate.
Qed.

(** A word that is no option of encrypt: with any words after it, any files, any keys: exit status 0 and nothing is encrypted.  (The option of
    sign, --output, is one: encrypt has --outfile.) *)
Theorem C99_misspelt_refuted : forall C E W v1 v2 rest,
  (forall t, misspelt (str "encrypt" :: (str "--output=" ++ t) :: rest) Encrypt_ /\
     main C E W declared v1 v2 (str "encrypt" :: (str "--output=" ++ t) :: rest) = mkOut 0 [] (wo_stdout W)) /\
  (forall t, misspelt (str "decrypt" :: (str "--output=" ++ t) :: rest) Decrypt_ /\
     main C E W declared v1 v2 (str "decrypt" :: (str "--output=" ++ t) :: rest) = mkOut 0 [] (wo_stdout W)) /\
  misspelt [str "decrypt"; str "-v"] Decrypt_ /\ main C E W declared v1 v2 [str "decrypt"; str "-v"] = mkOut 0 [] (wo_stdout W).
Proof.
  intros C E W v1 v2 rest.
  assert (Cl : forall w c args, stands_for w c -> fl_main declared (w :: args) = Options (mkMain false false (w :: args)) -> calls (w :: args) c args).
  { intros w c args St M. destruct (proj1 (proj1 (C71_options _) _) M) as (items & CL & V & H & Wd). exists items, w. auto. }
  assert (Se : stands_for (str "encrypt") Encrypt_) by (apply stands_iff; split; [discriminate | exists []; reflexivity]).
  assert (Sd : stands_for (str "decrypt") Decrypt_) by (apply stands_iff; split; [discriminate | exists []; reflexivity]).
  assert (Bad : forall fs t, by_name fs (str "output") = None -> parse_args fs true ((str "--output=" ++ t) :: rest) = PBad).
  { intros fs t H. change (str "--output=" ++ t) with (x2d :: x2d :: (str "output" ++ x3d :: t)).
    cbn [parse_args]. change (negb (Byte.eqb x2d x2d)) with false. change (Byte.eqb x2d x2d) with true. cbv iota.
    change (str "output" ++ x3d :: t) with (x6f :: (str "utput" ++ x3d :: t)) at 1. cbv iota. change (Byte.eqb x6f x2d || Byte.eqb x6f x3d) with false. cbv iota.
    rewrite split_eq_some by (vm_compute; intuition discriminate). rewrite H. reflexivity. }
  split; [|split].
  - intros t. split.
    + exists ((str "--output=" ++ t) :: rest). split; [apply Cl; [exact Se|reflexivity]|]. intros items CL. rewrite enc_same in CL.
      assert (P := command_line_parse _ _ _ _ enc_table CL). rewrite (Bad enc_flags t eq_refl) in P. discriminate.
    + rewrite main_encrypt. cbn [run_command declared fl_enc]. rewrite (Bad enc_flags t eq_refl). reflexivity.
  - intros t. split.
    + exists ((str "--output=" ++ t) :: rest). split; [apply Cl; [exact Sd|reflexivity]|]. intros items CL. rewrite dec_same in CL.
      assert (P := command_line_parse _ _ _ _ dec_table CL). rewrite (Bad dec_flags t eq_refl) in P. discriminate.
    + rewrite main_decrypt. cbn [run_command declared fl_dec]. rewrite (Bad dec_flags t eq_refl). reflexivity.
  - split; [|reflexivity]. exists [str "-v"]. split; [apply Cl; [exact Sd|reflexivity]|]. intros items CL. rewrite dec_same in CL.
    assert (P := command_line_parse _ _ _ _ dec_table CL). discriminate P.
Qed.

(** Instances: the five kinds of command lines *)
Example C99_instance :
  asks_about [str "sign"; str "k"; str "-h"] /\
  did toy toyE town sf1 sf2 [str "g"; str "-cme"; str "-E"; str "PW"; str "id"] (cli_generate toy toyE town sf1 sf2 gen1) /\
  misspelt [str "sign"; str "--outfile=x"; str "k"; str "f"] Sign /\ (forall c args, ~ calls [str "x"; str "f"] c args).
Proof.
  assert (Cl : forall w c args, stands_for w c -> fl_main declared (w :: args) = Options (mkMain false false (w :: args)) -> calls (w :: args) c args).
  { intros w c args St M. destruct (proj1 (proj1 (C71_options _) _) M) as (items & CL & V & H & Wd). exists items, w. auto. }
  assert (Ss : stands_for (str "sign") Sign) by (apply stands_iff; split; [discriminate | exists []; reflexivity]).
  split; [|split; [|split]].
  - right. right. right. left. destruct (line_dec sign_flags true [str "k"; str "-h"] sign_table) as [(items & CL)|N].
    + exists [str "k"; str "-h"], items. split; [apply Cl; [exact Ss|reflexivity]|]. split; [exact CL|]. ty sign_table CL "help"%string. apply (switch_iff _ _ _ Y).
      assert (P := command_line_parse _ _ _ _ sign_table CL). assert (Q : parse_args sign_flags true [str "k"; str "-h"] = PGood [(str "help", VBool true)] [str "k"]) by reflexivity.
      rewrite Q in P. injection P as <- _. reflexivity.
    + exfalso. destruct (proj1 (parse_iff _ true [str "k"; str "-h"] [(str "help", VBool true)] [str "k"] sign_table) eq_refl) as (items & CL & _). exact (N items CL).
  - left. exists gen1. split; [exact w_gen|reflexivity].
  - exists [str "--outfile=x"; str "k"; str "f"]. split; [apply Cl; [exact Ss|reflexivity]|]. intros items CL. rewrite sign_same in CL.
    assert (P := command_line_parse _ _ _ _ sign_table CL). discriminate P.
  - intros c args (items & a & CL & _ & _ & Wd & St). assert (P := command_line_parse _ _ _ _ main_table CL).
    assert (Q : parse_args main_flags false [str "x"; str "f"] = PGood [] [str "x"; str "f"]) by reflexivity. rewrite Q in P. injection P as _ P. rewrite Wd in P. injection P as <- _.
    exact (proj1 (c55_none c) St).
Qed.
Print Assumptions C99_every_command_line.
Print Assumptions C99_zero_partial.
Print Assumptions C99_misspelt_refuted.
