(** C100: help, usage and version texts. *)
From Verif Require Import Bytes BytesLemmas GoErr GoIO SpecIO IOProofs GoText TextProofs Crypto Keys Sign KeyFiles Ssh Encrypt Decrypt Fs Store Cli Main SpecCli CliProofs
  Flags SpecFlags FlagsProofs Thm_Commands Thm_Main Told Usage Toy ToyExt CliScene Thm_Cli Thm_Flags Thm_Words Thm_Files Thm_Zero.
Local Notation length := List.length.
Local Notation concat := List.concat.

(** ** Specification *)
(** the text [t] contains [w] *)
Definition mentions (t w : bytes) : Prop := exists a b, t = a ++ w ++ b.
(** the words of the usage texts for the commands: the name, and the short form *)
Definition listed : list (command * string) := [(Generate, "g"); (Sign, "s"); (Verify, "v"); (Encrypt_, "e"); (Decrypt_, "d")]%string.

(** what a command prints about itself, and how its usage line goes on after the name of the program *)
Definition own_text (T : tongue) (B : banner) (c : command) : bytes :=
  match c with
  | Generate => concat (gen_texts T B) | Sign => concat (sign_texts T B) | Verify => concat (verify_texts T B)
  | Encrypt_ => concat (enc_texts T) | Decrypt_ => concat (dec_texts T) | Help => usage_text T
  end.
Definition own_names : list (command * string) :=
  [(Generate, "generate|gen|g [options] file-prefix"); (Sign, "sign|s [options] privkey file"); (Verify, "verify|v [options] pubkey sig file");
   (Encrypt_, "encrypt [options] to [to ...] infile|-"); (Decrypt_, "decrypt [options] key [infile]"); (Help, "[global-options] command [options] arg [args..]")]%string.

(** ** Lemmas *)
Lemma mentions_at t w i : index_sub w t = Some i -> mentions t w.
Proof.
  intros H. pose proof (index_sub_spec w t) as X. rewrite H in X. destruct X as (a & b & -> & _). exists a, b. reflexivity.
Qed.
Lemma mentions_l a t w : mentions t w -> mentions (a ++ t) w.
Proof. intros (x & y & ->). exists (a ++ x), y. rewrite <- app_assoc. reflexivity. Qed.
Lemma mentions_r b t w : mentions t w -> mentions (t ++ b) w.
Proof. intros (x & y & ->). exists x, (y ++ b). rewrite !app_assoc. reflexivity. Qed.

Lemma mentions_cons c t w : mentions t w -> mentions (c :: t) w.
Proof. intros (x & y & ->). exists (c :: x), y. reflexivity. Qed.
Lemma mentions_here w t : mentions (w ++ t) w.
Proof. exists [], t. reflexivity. Qed.

Lemma print_nothing w : print_all [] w = w. Proof. reflexivity. Qed.
(** to a destination that accepts everything the texts are added in order *)
Lemma print_all_accepts l : forall w, accepts w -> w_out (print_all l w) = w_out w ++ concat l /\ accepts (print_all l w).
Proof.
  induction l as [|t l IH]; intros w A; [cbn; rewrite app_nil_r; auto|]. destruct (fullwrite_accepts t w A) as (w' & F & O & A' & _).
  change (print_all (t :: l) w) with (print_all l (snd (fullwrite t w))). rewrite F. cbn [snd]. destruct (IH w' A') as (O2 & A2). split; [|exact A2].
  rewrite O2, O. cbn [List.concat]. rewrite <- app_assoc. reflexivity.
Qed.

Lemma main_line argv items : command_line main_options false argv items -> parse_args main_flags false argv = PGood (gives items) (words items).
Proof. intros CL. apply (command_line_parse _ _ _ _ main_table CL). Qed.
Lemma calls_texts T B argv c args : calls argv c args -> main_texts T B argv = command_texts T B c args.
Proof.
  intros (items & a & CL & V & H & Wd & St). unfold main_texts. rewrite (main_line _ _ CL). rewrite main_same in CL.
  ty main_table CL "version"%string. ty main_table CL "help"%string. apply (switch_iff _ _ _ Y) in V. apply (switch_iff _ _ _ Y0) in H. rewrite V, H, Wd.
  apply stands_iff in St. destruct St as (Hn & rest & Hc). destruct (abbrev_prefix c _ rest Hn Hc) as [A F]. rewrite A, F. reflexivity.
Qed.
Ltac line_in H T := match type of H with command_line _ _ _ _ => let P := fresh "P" in pose proof (command_line_parse _ _ _ _ T H) as P end.

(** *** C100.  What is printed.  A request for the version, for help, or a command with misspelt options of encrypt and decrypt: exit status 0,
    no file touched, and exactly the text on standard output.  A command that runs prints none of these texts. *)
Theorem C100_texts : forall T B C E W v1 v2 argv,
  let y := main_shown T B C E W v1 v2 argv in
  let prints t := x_code y = 0 /\ x_ops y = [] /\ (accepts (wo_stdout W) -> w_out (x_stdout y) = w_out (wo_stdout W) ++ t) in
  (forall items, command_line main_options false argv items ->
     (switch items "version" true -> prints (version_text T B)) /\
     (switch items "version" false -> switch items "help" true -> prints (usage_text T))) /\
  (forall args, calls argv Help args -> prints (usage_text T)) /\
  (forall args items, calls argv Generate args -> command_line generate_options true args items -> switch items "help" true -> prints (concat (gen_texts T B))) /\
  (forall args items, calls argv Sign args -> command_line sign_options true args items -> switch items "help" true -> prints (concat (sign_texts T B))) /\
  (forall args items, calls argv Verify args -> command_line verify_options true args items -> switch items "help" true -> prints (concat (verify_texts T B))) /\
  (misspelt argv Encrypt_ -> prints (concat (enc_texts T))) /\
  (misspelt argv Decrypt_ -> prints (concat (dec_texts T))) /\
  (did C E W v1 v2 argv (main C E W declared v1 v2 argv) -> y = main C E W declared v1 v2 argv).
Proof.
  intros T B C E W v1 v2 argv y prints.
  assert (K : forall l, main C E W declared v1 v2 argv = mkOut 0 [] (wo_stdout W) -> main_texts T B argv = l -> prints (concat l)).
  { intros l M Tx. unfold prints, y, main_shown. rewrite M, Tx. cbn [x_code x_ops x_stdout]. split; [reflexivity|]. split; [reflexivity|]. intros A. apply (print_all_accepts l _ A). }
  assert (K1 : forall t, main C E W declared v1 v2 argv = mkOut 0 [] (wo_stdout W) -> main_texts T B argv = [t] -> prints t).
  { intros t M Tx. replace t with (concat [t]) by (cbn; apply app_nil_r). apply K; assumption. }
  split; [|split; [|split; [|split; [|split; [|split; [|split]]]]]].
  - intros items CL. pose proof (main_line _ _ CL) as P. rewrite main_same in CL. ty main_table CL "version"%string. ty main_table CL "help"%string.
    assert (M : fl_main declared argv = Options (mkMain (get_bool (gives items) (str "version") false) (get_bool (gives items) (str "help") false) (words items))) by (cbn [declared fl_main]; rewrite P; reflexivity).
    destruct (C55_dispatch C E W declared v1 v2 argv _ M) as (D & _). cbn [mo_version mo_help] in D. split.
    + intros V. apply (switch_iff _ _ _ Y) in V. apply K1; [apply D; auto|]. unfold main_texts. rewrite P, V. reflexivity.
    + intros V H. apply (switch_iff _ _ _ Y) in V. apply (switch_iff _ _ _ Y0) in H. apply K1; [apply D; auto|]. unfold main_texts. rewrite P, V, H. reflexivity.
  - intros args Hc. apply K1; [apply (C71_command C E W v1 v2 _ _ _ Hc) | apply (calls_texts _ _ _ _ _ Hc)].
  - intros args items Hc CL H. apply K; [apply (proj1 (proj1 (C71_command C E W v1 v2 _ _ _ Hc) items CL) H)|]. rewrite (calls_texts _ _ _ _ _ Hc). cbn [command_texts].
    rewrite gen_same in CL. rewrite (command_line_parse _ _ _ _ gen_table CL). ty gen_table CL "help"%string. apply (switch_iff _ _ _ Y) in H. rewrite H. reflexivity.
  - intros args items Hc CL H. apply K; [apply (proj1 (proj1 (C71_command C E W v1 v2 _ _ _ Hc) items CL) H)|]. rewrite (calls_texts _ _ _ _ _ Hc). cbn [command_texts].
    rewrite sign_same in CL. rewrite (command_line_parse _ _ _ _ sign_table CL). ty sign_table CL "help"%string. apply (switch_iff _ _ _ Y) in H. rewrite H. reflexivity.
  - intros args items Hc CL H. apply K; [apply (proj1 (proj1 (C71_command C E W v1 v2 _ _ _ Hc) items CL) H)|]. rewrite (calls_texts _ _ _ _ _ Hc). cbn [command_texts].
    rewrite verify_same in CL. rewrite (command_line_parse _ _ _ _ verify_table CL). ty verify_table CL "help"%string. apply (switch_iff _ _ _ Y) in H. rewrite H. reflexivity.
  - intros (args & Hc & N). apply K; [apply (proj2 (C71_command C E W v1 v2 _ _ _ Hc) N)|]. rewrite (calls_texts _ _ _ _ _ Hc). cbn [command_texts].
    destruct (parse_args enc_flags true args) as [| |s l] eqn:P; try reflexivity. exfalso. apply (parse_iff _ _ _ _ _ enc_table) in P. destruct P as (items & CL & _). exact (N items CL).
  - intros (args & Hc & N). apply K; [apply (proj2 (C71_command C E W v1 v2 _ _ _ Hc) N)|]. rewrite (calls_texts _ _ _ _ _ Hc). cbn [command_texts].
    destruct (parse_args dec_flags true args) as [| |s l] eqn:P; try reflexivity. exfalso. apply (parse_iff _ _ _ _ _ dec_table) in P. destruct P as (items & CL & _). exact (N items CL).
  - intros D. assert (N : main_texts T B argv = []).
    { destruct D as [(o & (args & items & Hc & CL & H & _) & _)|[(o & (args & items & Hc & CL & H & _) & _)|[(l & q & (args & items & Hc & CL & H & _) & _)|[(o & (args & items & Hc & CL & _) & _)|(o & (args & items & Hc & CL & _) & _)]]]];
        rewrite (calls_texts _ _ _ _ _ Hc); cbn [command_texts].
      - rewrite gen_same in CL. rewrite (command_line_parse _ _ _ _ gen_table CL). ty gen_table CL "help"%string. apply (switch_iff _ _ _ Y) in H. rewrite H. reflexivity.
      - rewrite sign_same in CL. rewrite (command_line_parse _ _ _ _ sign_table CL). ty sign_table CL "help"%string. apply (switch_iff _ _ _ Y) in H. rewrite H. reflexivity.
      - rewrite verify_same in CL. rewrite (command_line_parse _ _ _ _ verify_table CL). ty verify_table CL "help"%string. apply (switch_iff _ _ _ Y) in H. rewrite H. reflexivity.
      - rewrite (command_line_parse _ _ _ _ enc_table CL). reflexivity.
      - rewrite (command_line_parse _ _ _ _ dec_table CL). reflexivity. }
    unfold y, main_shown. rewrite N, print_nothing. destruct (main C E W declared v1 v2 argv). reflexivity.
Qed.

(** *** C100.  The usage text tells the truth: every command is listed with its name and a short form, both stand for exactly that command; every
    option of the program is listed with its name and its letter, if any. *)
Ltac textual :=
  match goal with |- mentions (fill ?f ?a) ?w =>
    let t := eval lazy -[app tg_base bn_product bn_repo] in (fill f a) in change (mentions t w) end;
  repeat match goal with |- mentions ?t _ => match t with context [tg_base] => first [apply mentions_l | apply mentions_cons] end end;
  eapply mentions_at; vm_compute; reflexivity.
Lemma mentions_all t : mentions t t.
Proof. exists [], []. rewrite app_nil_r. reflexivity. Qed.
Lemma mentions_after z w r : (exists b, r = w ++ b) -> mentions (z ++ r) (z ++ w).
Proof. intros (b & ->). exists [], b. rewrite <- app_assoc. reflexivity. Qed.
Ltac own_line :=
  match goal with |- mentions (fill ?f ?a) ?w =>
    let t := eval lazy -[app tg_base] in (fill f a) in change (mentions t w) end;
  match goal with |- mentions ?t (?z ++ ?w) => let w' := eval vm_compute in w in change (mentions t (z ++ w')) end;
  repeat first [apply mentions_after; eexists; cbn [app]; reflexivity | apply mentions_l | apply mentions_cons].
Theorem C100_usage_is_true : forall T B,
  (forall c s, In (c, s) listed -> mentions (usage_text T) (str "  " ++ called c ++ str ", " ++ str s ++ str " ") /\
     stands_for (called c) c /\ stands_for (str s) c /\ forall c', stands_for (str s) c' \/ stands_for (called c) c' -> c' = c) /\
  (forall f, In f main_options -> mentions (usage_text T) (str "  " ++ match fg_short f with Some b => [x2d; b] ++ str ", " | None => [] end ++ str "--" ++ fg_name f)) /\
  (forall c w, In (c, w) own_names -> mentions (own_text T B c) (tg_base T ++ str " " ++ str w ++ [x0a])) /\
  (forall c, In c [Generate; Sign; Verify] -> mentions (own_text T B c) (bn_options B c)) /\
  stands_for (str "gen") Generate.
Proof.
  intros T B.
  assert (S1 : forall c w rest, w <> [] -> to_lower w = w -> called c = w ++ rest -> stands_for w c) by (intros c w rest Hn Hl Hc; apply stands_iff; rewrite Hl; eauto).
  split; [|split; [|split; [|split]]].
  - intros c s H. cbn [listed In] in H.
    assert (U : forall w r c0, w <> [] -> to_lower w = w -> called c0 = w ++ r -> forall c', stands_for w c' -> c' = c0).
    { intros w r c0 Hn Hl Hc c' Hc'. apply stands_iff in Hc'. destruct Hc' as (_ & r' & Hc'). rewrite Hl in Hc'. exact (called_inj_prefix c' c0 w r' r Hn Hc' Hc). }
    destruct H as [H|[H|[H|[H|[H|[]]]]]]; injection H as <- <-.
    all: split; [unfold usage_text; textual|].
    all: split; [apply (S1 _ _ []); [discriminate|reflexivity|reflexivity]|].
    all: split; [eapply S1; [discriminate|reflexivity|reflexivity]|].
    all: intros c' [Hc'|Hc']; revert c' Hc'; (eapply U; [discriminate|reflexivity|]).
    all: first [reflexivity | (symmetry; apply app_nil_r)].
  - intros f H. cbn [main_options In] in H. destruct H as [<- | [<- | [<- | []]]]; unfold usage_text.
    + textual.
    + textual.
    + textual.
  - intros c w H. cbn [own_names In] in H. destruct H as [H|[H|[H|[H|[H|[H|[]]]]]]]; injection H as <- <-;
      cbn [own_text gen_texts sign_texts verify_texts enc_texts dec_texts List.concat]; [apply mentions_r..|unfold usage_text]; own_line.
  - intros c H. cbn [In] in H. destruct H as [<-|[<-|[<-|[]]]]; cbn [own_text gen_texts sign_texts verify_texts List.concat]; apply mentions_l; rewrite app_nil_r; apply mentions_all.
  - apply (S1 _ _ (str "erate")); [discriminate|reflexivity|reflexivity].
Qed.

(** *** C100.  The version text: the program's name, the product's version, then the repository's version in brackets, on one line. *)
Theorem C100_version : forall T B, version_text T B = tg_base T ++ str " - " ++ bn_product B ++ str " [" ++ bn_repo B ++ str "]" ++ [x0a].
Proof.
  intros T B. unfold version_text. match goal with |- fill ?f ?a = _ => let t := eval lazy -[app tg_base bn_product bn_repo] in (fill f a) in change (t = tg_base T ++ str " - " ++ bn_product B ++ str " [" ++ bn_repo B ++ str "]" ++ [x0a]) end.
  cbn. rewrite <- ?app_assoc. cbn. rewrite ?app_nil_r. rewrite <- ?app_assoc. reflexivity.
Qed.

(** The options of encrypt and decrypt are announced ("Options:") but not on standard output: what is printed there does not depend on them. *)
Theorem C100_options_missing_refuted : forall T B C E W v1 v2 rest, accepts (wo_stdout W) ->
  w_out (x_stdout (main_shown T B C E W v1 v2 (str "encrypt" :: str "--help" :: rest))) = w_out (wo_stdout W) ++ fill enc_format (repeat (tg_base T) 4) /\
  w_out (x_stdout (main_shown T B C E W v1 v2 (str "decrypt" :: str "--help" :: rest))) = w_out (wo_stdout W) ++ fill dec_format (repeat (tg_base T) 4).
Proof.
  intros T B C E W v1 v2 rest A.
  assert (X : forall w, w_out (print_all [w] (wo_stdout W)) = w_out (wo_stdout W) ++ w).
  { intros w. rewrite (proj1 (print_all_accepts [w] _ A)). cbn [List.concat]. rewrite app_nil_r. reflexivity. }
  split; apply X.
Qed.

(** An instance *)
Definition sig_name : tongue := mkTongue (str "./sigtool") (str "sigtool") (fun _ => []).
Definition sig_banner : banner := mkBanner (str "2.1") (str "abc") (fun _ => str "  -h, --help") [].
Example C100_instance :
  accepts (wo_stdout town) /\
  w_out (x_stdout (main_shown sig_name sig_banner toy toyE town sf1 sf1 [str "-v"; str "x"])) = w_out (wo_stdout town) ++ str "sigtool - 2.1 [abc]" ++ [x0a] /\
  mentions (usage_text sig_name) (str "verify, v        Verify a signature against a file and a public key") /\
  did toy toyE town sf1 sf2 [str "g"; str "-cme"; str "-E"; str "PW"; str "id"] (main toy toyE town declared sf1 sf2 [str "g"; str "-cme"; str "-E"; str "PW"; str "id"]).
Proof.
  assert (A : accepts (wo_stdout town)) by (split; constructor).
  split; [exact A|]. split; [|split].
  - unfold main_shown. change (main_texts sig_name sig_banner [str "-v"; str "x"]) with [version_text sig_name sig_banner]. cbn [x_stdout].
    replace (x_stdout (main toy toyE town declared sf1 sf1 [str "-v"; str "x"])) with (wo_stdout town) by reflexivity. rewrite (proj1 (print_all_accepts _ _ A)). f_equal.
  - eapply mentions_at. vm_compute. reflexivity.
  - left. exists gen1. split; [exact w_gen|]. exact (asked_generate toy toyE town sf1 sf2 _ _ w_gen).
Qed.
Print Assumptions C100_texts.
Print Assumptions C100_usage_is_true.
Print Assumptions C100_version.
Print Assumptions C100_options_missing_refuted.
