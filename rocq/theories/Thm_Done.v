(** C103: what exit status 0 says about the files and the output, for whole command lines. *)
From Verif Require Import Bytes BytesLemmas GoErr GoIO SpecIO IOProofs GoText TextProofs Pb Crypto CryptoLaws Keys Sign SpecSign KeyFiles ExtLaws Ssh Encrypt Decrypt Spec Support Fs SpecFs FsProofs Store Cli Main SpecCli CliProofs
  Flags SpecFlags FlagsProofs Thm_Encrypt Thm_Commands Thm_Main Toy Scene ToyExt CliScene Thm_Cli Thm_Flags Thm_Words Thm_Files Thm_Pipe Thm_EndToEnd Thm_Texts Thm_SignOut Thm_Zero.
Local Notation length := List.length.
Local Notation concat := List.concat.

(** ** Specification *)
(** After the command, the named file holds the text; or, if no file is named, the text was written on standard output. *)
Definition goes_to (W : world) (x : outcome) (name text : bytes) : Prop :=
  (a_file name -> content (run_ops (wo_fs W) (x_ops x)) (wo_place W name) = Some text) /\
  (~ a_file name -> wrote (wo_stdout W) (x_stdout x) text).
(** What a command line asked for was done. *)
Inductive done (C : crypto) (E : ext) (W : world) (argv : list bytes) (x : outcome) : Prop :=
| d_generate o bn rest pw keytext pubtext :       (* a new key pair, its private half protected by the given passphrase *)
    asks_generate argv o -> ge_args o = bn :: rest ->
    passphrase W (ge_nopw o) (ge_envpw o) (Ok pw) -> pair_texts C E (ge_comment o) pw keytext pubtext ->
    content (run_ops (wo_fs W) (x_ops x)) (wo_place W (key_name W bn)) = Some keytext ->
    content (run_ops (wo_fs W) (x_ops x)) (wo_place W (pub_name W bn)) = Some pubtext -> done C E W argv x
| d_sign o kn fn more sk c :                      (* the signature of that file's content with that key *)
    asks_sign argv o -> so_args o = kn :: fn :: more ->
    private_in C E W (so_nopw o) (so_envpw o) kn sk -> hashed_as W fn c -> goes_to W x (sig_file o fn) (sign_text C E fn sk c) -> done C E W argv x
| d_verify l K S F more pk s c :                  (* the signature names that key and is its signature of that file's content *)
    asks_verify argv l -> l = K :: S :: F :: more ->
    key_arg C E W K pk -> signature_in E W S s -> hashed_as W F c ->
    sig_pkhash s = pk_hash pk -> signed_by C (pk_Pk pk) (sha512 C (file_hash_input c)) (sig_Sig s) -> done C E W argv x
| d_encrypt o to infile blk sk pks rd e g e2 rd2 out g2 :   (* what Encrypt makes of the input for exactly these recipients *)
    asks_encrypt argv o -> eo_args o = to ++ [infile] -> wo_size W (eo_size o) = Ok blk ->
    opt_arg (private_in C E W (eo_nopw o) (eo_envpw o)) (eo_keyfile o) sk ->
    Forall2 (recipient C E W) to pks -> pks <> [] -> input_is W infile rd ->
    session C sk blk pks (wo_rng W) e g -> encrypt C e rd sink g = (e2, rd2, out, g2, Ok tt) ->
    goes_to W x (eo_outfile o) (w_out out) -> done C E W argv x
| d_decrypt o keyfile more sk pk rd d d' out :    (* what Decrypt makes of the whole input with that key *)
    asks_decrypt argv o -> do_args o = keyfile :: more -> private_in C E W (do_nopw o) (do_envpw o) keyfile sk ->
    opt_arg (public_in C E W) (do_pubkey o) pk -> input_is W (hd (str "-") more) rd ->
    opened_by C rd sk pk d -> decrypt C d sink = (d', out, Ok tt) ->
    (do_test o = false -> goes_to W x (do_outfile o) (w_out out)) -> done C E W argv x.
(** The temporary files' names are new, and the two files of a key pair are two. *)
Definition has_room (W : world) (v1 v2 : sf_env) (argv : list bytes) : Prop :=
  let f := wo_fs W in
  (forall o bn rest, asks_generate argv o -> ge_args o = bn :: rest -> room_for_two v1 v2 f (wo_place W (key_name W bn)) (wo_place W (pub_name W bn))) /\
  (forall o kn fn more, asks_sign argv o -> so_args o = kn :: fn :: more -> sig_file o fn <> str "-" -> fresh v1 f (wo_place W (sig_file o fn))) /\
  (forall o, asks_encrypt argv o -> a_file (eo_outfile o) -> fresh v1 f (wo_place W (eo_outfile o))) /\
  (forall o, asks_decrypt argv o -> a_file (do_outfile o) -> do_test o = false -> fresh v1 f (wo_place W (do_outfile o))).
(** Nothing goes wrong when the output is written and put in its place. *)
Definition output_works (W : world) (v : sf_env) : Prop :=
  Forall (fun p => snd p = None) (se_writes v) /\ close_err v = None /\ Forall (fun p => snd p = None) (w_sched (wo_stdout W)).

(** ** Proofs *)
Lemma sign_dash o fn : sig_file o fn = str "-" -> so_output o = str "-".
Proof.
  unfold sig_file. destruct (so_output o) as [|b r]; [|exact (fun H => H)]. intros H. apply (f_equal (@rev byte)) in H. rewrite rev_app_distr in H. discriminate H.
Qed.
Lemma sig_file_name o fn : sig_file o fn <> [].
Proof. unfold sig_file. destruct (so_output o); [|discriminate]. destruct fn; discriminate. Qed.

Lemma a_file_dec n : a_file n \/ ~ a_file n.
Proof.
  unfold a_file. destruct n as [|b r]; [right; intros (H & _); contradiction|]. destruct (beq (b :: r) (str "-")) eqn:B.
  - apply beq_iff in B. right. intros (_ & H). contradiction.
  - left. split; [discriminate|]. apply beq_neq. exact B.
Qed.

(** ** C103.  Whatever is typed: if sigtool exits with 0, then - provided that the words are spelled as the commands' options are (C99 shows what
    encrypt and decrypt do otherwise), that the temporary files' names are new, and that writing the output works (C45, C49 show what sign and
    decrypt do otherwise) - either it was asked about itself, or what it was asked for is done: the files or the text on standard output are there,
    and are what they should be. *)
Theorem C103_zero_means_done : forall C E, crypto_ok C -> ext_ok E -> forall W v1 v2 argv,
  (forall c, In c [Encrypt_; Decrypt_] -> ~ misspelt argv c) -> has_room W v1 v2 argv -> output_works W v1 ->
  let x := main C E W declared v1 v2 argv in
  x_code x = 0 -> asks_about argv \/ done C E W argv x.
Proof.
  intros C E HC HE W v1 v2 argv N (R1 & R2 & R3 & R4) (O1 & O2 & O3) x Hx.
  destruct (C99_zero_partial C E W v1 v2 argv N Hx) as [[H _]|D]; [left; exact H|right; fold x in D].
  destruct D as [(o & A & X)|[(o & A & X)|[(l & quiet & A & X)|[(o & A & X)|(o & A & X)]]]].
  - destruct (ge_args o) as [|bn rest] eqn:G; [rewrite X in Hx; unfold cli_generate in Hx; rewrite G in Hx; discriminate Hx|].
    destruct (R1 _ _ _ A G) as (K1 & K2 & K3 & K4 & K5 & K6 & K7 & K8).
    destruct (C43_generate C E W v1 v2 o bn rest G K1 K2 K3 K4 K5 K6 K7 K8) as (_ & [[H _]|(pw & kt & pt & P1 & P2 & _ & P3 & _)]); [rewrite X in Hx; contradiction|].
    rewrite X in Hx. destruct (P3 Hx) as (Q1 & Q2). rewrite X. eapply d_generate; [exact A|exact G|exact P1|exact P2|exact Q1|exact Q2].
  - destruct (so_args o) as [|kn [|fn more]] eqn:G; [rewrite X in Hx; unfold cli_sign in Hx; rewrite G in Hx; discriminate Hx..|].
    destruct (beq (sig_file o fn) (str "-")) eqn:B.
    + apply beq_iff in B. destruct (C92_sign_to_stdout C E HC HE W v1 o kn fn more G (sign_dash _ _ B)) as (_ & _ & _ & H). rewrite X in Hx.
      destruct (H Hx) as (sk & c & H1 & H2 & part & H3 & _ & H5). rewrite (H5 O3) in H3. rewrite X. eapply d_sign; [exact A|exact G|exact H1|exact H2|].
      rewrite B. split; [intros (_ & F); contradiction F; reflexivity|]. intros _. exact H3.
    + assert (F : sig_file o fn <> str "-") by (apply beq_neq; exact B). pose proof (R2 _ _ _ _ A G F) as Fr.
      rewrite X in Hx. destruct (C80_sign C E HC HE W v1 o kn fn more G F Fr Hx O1 O2) as (sk & c & H1 & H2 & H3).
      rewrite X. eapply d_sign; [exact A|exact G|exact H1|exact H2|]. split; [intros _; exact H3|]. intros Na. contradiction Na. split; [apply sig_file_name|exact F].
  - rewrite X in Hx. destruct (C62_verify_report C E W quiet l) as (_ & V & _). rewrite V in Hx. apply C47_verify_exact in Hx.
    destruct Hx as (K & S & F & more & pk & s & c & H1 & H2 & H3 & H4 & H5 & H6). eapply d_verify; eassumption.
  - rewrite X in Hx. destruct (a_file_dec (eo_outfile o)) as [Af|Na].
    + destruct (C48_encrypt_exact C E W v1 o Af (R3 _ A Af)) as (_ & H).
      destruct (H Hx) as (to & infile & blk & sk & pks & rd & e & g & e2 & rd2 & out & g2 & H1 & H2 & H3 & H4 & H5 & H6 & H7 & H8 & _ & (H9 & _)).
      rewrite X. eapply d_encrypt; [exact A|exact H1|exact H2|exact H3|exact H4|exact H5|exact H6|exact H7|exact H8|]. split; [intros _; exact H9|intros Na; contradiction].
    + destruct (C64_encrypt_to_stdout C E W v1 o Na) as (_ & H).
      destruct (H Hx) as (to & infile & blk & sk & pks & rd & e & g & e2 & rd2 & out & g2 & H1 & H2 & H3 & H4 & H5 & H6 & H7 & H8 & H9).
      rewrite X. eapply d_encrypt; [exact A|exact H1|exact H2|exact H3|exact H4|exact H5|exact H6|exact H7|exact H8|]. split; [intros Af; contradiction|intros _; exact H9].
  - rewrite X in Hx. destruct (do_test o) eqn:T.
    + destruct (C45_test_mode C E W v1 o T) as (_ & _ & H). destruct (proj1 H Hx) as (kf & more & sk & pk & rd & d & d' & out & H1 & H2 & H3 & H4 & H5 & H6).
      eapply d_decrypt; [exact A|exact H1|exact H2|exact H3|exact H4|exact H5|exact H6|]. rewrite T. discriminate.
    + destruct (a_file_dec (do_outfile o)) as [Af|Na].
      * destruct (C45_decrypt_to_file_partial C E W v1 o Af T (R4 _ A Af T)) as (_ & H). destruct (H Hx) as (kf & more & sk & pk & rd & d & d' & out & H1 & H2 & H3 & H4 & H5 & H6 & H7 & _).
        destruct (H7 O2) as (_ & (H8 & _)). eapply d_decrypt; [exact A|exact H1|exact H2|exact H3|exact H4|exact H5|exact H6|]. intros _. rewrite X. split; [intros _; exact H8|intros Na; contradiction].
      * destruct (C63_decrypt_to_stdout C E W v1 o Na T) as (_ & H & _). destruct (H Hx) as (sk & pk & rd & d & d' & out & (kf & more & H1 & H2 & H3 & H4) & H5 & H6 & H7).
        eapply d_decrypt; [exact A|exact H1|exact H2|exact H3|exact H4|exact H5|exact H6|]. intros _. rewrite X. split; [intros Af; contradiction|intros _; exact H7].
Qed.
Print Assumptions C103_zero_means_done.

(** Instance: sigtool g -cme -E PW id, in the town of CliScene *)
Lemma g_only c : stands_for (str "g") c -> c = Generate.
Proof.
  intros H. apply stands_iff in H. destruct H as (_ & r & H). destruct c; [reflexivity|discriminate H..].
Qed.
Definition g_words : list bytes := [str "g"; str "-cme"; str "-E"; str "PW"; str "id"].
Lemma g_calls c args : calls g_words c args -> c = Generate /\ args = [str "-cme"; str "-E"; str "PW"; str "id"].
Proof.
  intros (items & a & CL & _ & _ & Wd & St). assert (P := command_line_parse _ _ _ _ main_table CL).
  assert (Q : parse_args main_flags false g_words = PGood [] g_words) by (vm_compute; reflexivity). rewrite Q in P. injection P as _ P. rewrite Wd in P. injection P as <- <-.
  split; [apply g_only; exact St|reflexivity].
Qed.
Example C103_instance :
  (forall c, In c [Encrypt_; Decrypt_] -> ~ misspelt g_words c) /\ has_room town sf1 sf2 g_words /\ output_works town sf1 /\
  let x := main toy toyE town declared sf1 sf2 g_words in
  x_code x = 0 /\ content (wo_fs town) (wo_place town (key_name town (str "id"))) = None /\ done toy toyE town g_words x /\
  content (run_ops (wo_fs town) (x_ops x)) (wo_place town (key_name town (str "id"))) <> None.
Proof.
  assert (M : forall c, In c [Encrypt_; Decrypt_] -> ~ misspelt g_words c).
  { intros c Hc (args & H & _). destruct (g_calls c args H) as (-> & _). cbn [In] in Hc. destruct Hc as [Hc|[Hc|[]]]; discriminate Hc. }
  assert (R : has_room town sf1 sf2 g_words).
  { unfold has_room. split; [|split; [|split]].
    - intros o bn rest (args & items & H & CL & Hh & Hm) G. destruct (g_calls _ _ H) as (_ & ->).
      assert (X : fl_gen declared [str "-cme"; str "-E"; str "PW"; str "id"] = Options o) by (apply (proj1 (proj2 (C71_options _))); exists items; auto).
      assert (Y : fl_gen declared [str "-cme"; str "-E"; str "PW"; str "id"] = Options gen1) by (vm_compute; reflexivity).
      rewrite Y in X. injection X as <-. injection G as <- _. exact gen_room.
    - intros o kn fn more (args & items & H & _). destruct (g_calls _ _ H) as (Z & _). discriminate Z.
    - intros o (args & items & H & _). destruct (g_calls _ _ H) as (Z & _). discriminate Z.
    - intros o (args & items & H & _). destruct (g_calls _ _ H) as (Z & _). discriminate Z. }
  assert (O : output_works town sf1) by (split; [repeat constructor|]; split; [reflexivity|repeat constructor]).
  split; [exact M|]. split; [exact R|]. split; [exact O|]. cbv zeta.
  assert (X0 : x_code (main toy toyE town declared sf1 sf2 g_words) = 0) by (rewrite (asked_generate _ _ _ _ _ _ _ w_gen); exact gen_code).
  split; [exact X0|]. split; [vm_compute; reflexivity|].
  destruct (C103_zero_means_done toy toyE toy_ok toyE_ok town sf1 sf2 g_words M R O X0) as [A|D].
  - exfalso. assert (NA : fl_gen declared [str "-cme"; str "-E"; str "PW"; str "id"] = Options gen1) by (vm_compute; reflexivity).
    destruct A as [(items & CL & V)|[(args & H)|[(args & items & H & CL & V)|[(args & items & H & _)|(args & items & H & _)]]]].
    + assert (P := command_line_parse _ _ _ _ main_table CL). assert (Q : parse_args main_flags false g_words = PGood [] g_words) by (vm_compute; reflexivity). rewrite Q in P. injection P as Z1 Z2.
      destruct V as [V|V].
      * ty main_table CL "version"%string. apply (switch_iff _ _ _ Y) in V. rewrite <- Z1 in V. discriminate V.
      * ty main_table CL "help"%string. apply (switch_iff _ _ _ Y) in V. rewrite <- Z1 in V. discriminate V.
    + destruct (g_calls _ _ H) as (Z & _). discriminate Z.
    + destruct (g_calls _ _ H) as (_ & ->). destruct (proj1 (proj1 (proj2 (C71_options _)) gen1) NA) as (it & CL2 & V2 & _).
      assert (P := command_line_parse _ _ _ _ gen_table CL). assert (P2 := command_line_parse _ _ _ _ gen_table CL2). rewrite P2 in P. injection P as Z1 _.
      ty gen_table CL "help"%string. apply (switch_iff _ _ _ Y) in V. clear Y. ty gen_table CL2 "help"%string. apply (switch_iff _ _ _ Y) in V2. rewrite <- Z1, V2 in V. discriminate V.
    + destruct (g_calls _ _ H) as (Z & _). discriminate Z.
    + destruct (g_calls _ _ H) as (Z & _). discriminate Z.
  - split; [exact D|]. rewrite (asked_generate _ _ _ _ _ _ _ w_gen). vm_compute. discriminate.
Qed.
