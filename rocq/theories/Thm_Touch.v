(** C68: which files sigtool can change at all.  C42: when a file write succeeds. *)
From Verif Require Import Bytes BytesLemmas GoErr GoIO SpecIO IOProofs Support Pb SpecPb Crypto CryptoLaws Keys Sign SpecSign Encrypt Decrypt Spec
  KeyFiles ExtLaws Base64 GoText TextProofs Ssh SpecSsh Fs SpecFs FsProofs Store Cli Main SpecCli CliProofs Toy Scene ToyExt Thm_Files CliScene Thm_Cli Thm_Commands Thm_Main Thm_Pipe.
Require Import ZifyBool.
Ltac Zify.zify_post_hook ::= Z.div_mod_to_equations.
Local Notation length := List.length.

(** ** C42, continued: writeFile succeeds exactly as far as the system calls do, and leaves no temporary file *)
Lemma trace_tmp v dst d ops c f : se_tmp v <> dst -> trace v dst d ops c -> f_node (run_ops f ops) (se_tmp v) = None.
Proof.
  intros Hd H. inversion H; subst; cbn [run_ops fold_left do_op f_node]; rewrite ?upd_same, ?upd_other by congruence; rewrite ?upd_same; reflexivity.
Qed.
Lemma trace_other v dst d ops c f s : s <> se_tmp v -> s <> dst -> trace v dst d ops c -> f_node (run_ops f ops) s = f_node f s.
Proof. intros H1 H2 H. inversion H; subst; cbn [run_ops fold_left do_op f_node]; rewrite ?upd_other by assumption; reflexivity. Qed.
Theorem C42_write_outcome :
  forall v m f dst b overwrite ops r, fresh v f dst -> write_file v m f dst b overwrite = (ops, r) ->
  f_node (run_ops f ops) (se_tmp v) = None /\
  (r = Ok tt -> se_open v = None /\ se_sync v = None /\ se_close v = None /\ se_rename v = None /\ (overwrite = true \/ content f dst = None)) /\
  (se_open v = None -> se_sync v = None -> se_close v = None -> se_rename v = None -> Forall (fun p => snd p = None) (se_writes v) ->
     overwrite = true \/ content f dst = None -> r = Ok tt) /\
  (se_open v <> None -> r <> Ok tt /\ ops = []).
Proof.
  intros v m f dst b ov ops r Hf H. split.
  { destruct (write_file_spec _ _ _ _ _ _ _ _ H) as [(_ & Ht & _)|(e & _ & [->|(d & Ht)])].
    - exact (trace_tmp _ _ _ _ _ f (proj1 Hf) Ht).
    - exact (proj1 (proj2 Hf)).
    - exact (trace_tmp _ _ _ _ _ f (proj1 Hf) Ht). }
  unfold write_file in H. split; [|split].
  - intros ->. unfold safe_open in H. assert (Z : se_open v = None /\ (ov = true \/ content f dst = None) /\ exists w, fullwrite b (sf_sink v) = (None, w) /\ fst (w_close w) = None).
    { destruct (content f dst), ov, (se_open v); try discriminate H; (split; [reflexivity|]; split; [auto|]);
        destruct (fullwrite b (sf_sink v)) as [[e|] w]; try discriminate H; exists w; (split; [reflexivity|]); destruct (w_close w) as [[e|] w']; (discriminate H || reflexivity). }
    destruct Z as (Z1 & Z2 & w & Z3 & Z4). split; [exact Z1|]. apply fullwrite_closes in Z3. destruct Z3 as (Z3 & _). unfold w_close in Z4. rewrite Z3 in Z4. cbn [sf_sink w_closes] in Z4. unfold close_err in Z4.
    destruct (se_sync v); [discriminate Z4|]. destruct (se_close v); [discriminate Z4|]. destruct (se_rename v); [discriminate Z4|]. auto.
  - intros H1 H2 H3 H4 H5 H6. assert (Z : safe_open v f dst ov = Ok tt) by (unfold safe_open; rewrite H1; destruct (content f dst), H6; subst; try reflexivity; discriminate). rewrite Z in H.
    destruct (fullwrite b (sf_sink v)) as [[e|] w] eqn:Ew.
    + exfalso. destruct (fullwrite_Some _ _ _ _ Ew) as (_ & (k & X) & _). cbn [sf_sink w_sched] in X. rewrite Forall_forall in H5. specialize (H5 _ X). discriminate H5.
    + pose proof (fullwrite_closes _ _ _ _ Ew) as (Z3 & _). unfold w_close in H. rewrite Z3 in H. cbn [sf_sink w_closes] in H. unfold close_err in H. rewrite H2, H3, H4 in H. congruence.
  - intros Ho. assert (exists e, safe_open v f dst ov = Fail e) as (e & Z) by (unfold safe_open; destruct (content f dst), ov, (se_open v); eauto; contradiction). rewrite Z in H. injection H as <- <-. split; [discriminate|reflexivity].
Qed.
Print Assumptions C42_write_outcome.

(** ** C68: specification *)
(** the command line runs command [c] with the words [args] *)
Definition runs (P : flags) (argv : list bytes) (c : command) (args : list bytes) : Prop :=
  exists o a, fl_main P argv = Options o /\ mo_version o = false /\ mo_help o = false /\ mo_args o = a :: args /\ stands_for a c.
(** the files that a command line asks to be written *)
Inductive asked (W : world) (P : flags) (argv : list bytes) : bytes -> Prop :=
| as_key args o bn rest : runs P argv Generate args -> fl_gen P args = Options o -> ge_args o = bn :: rest -> asked W P argv (wo_clean W bn ++ str ".key")
| as_pub args o bn rest : runs P argv Generate args -> fl_gen P args = Options o -> ge_args o = bn :: rest -> asked W P argv (wo_clean W bn ++ str ".pub")
| as_sig args o kn fn rest : runs P argv Sign args -> fl_sign P args = Options o -> so_args o = kn :: fn :: rest -> sig_file o fn <> str "-" -> asked W P argv (sig_file o fn)
| as_enc args o : runs P argv Encrypt_ args -> fl_enc P args = Options o -> a_file (eo_outfile o) -> asked W P argv (eo_outfile o)
| as_dec args o : runs P argv Decrypt_ args -> fl_dec P args = Options o -> a_file (do_outfile o) -> do_test o = false -> asked W P argv (do_outfile o).

Lemma with_output_ops W v m out tofile force body : let x := with_output W v m out tofile force body in
  x_ops x = [] \/ tofile = true /\ exists d c, trace v (wo_place W out) d (x_ops x) c.
Proof.
  cbv zeta. unfold with_output. destruct tofile; [|destruct (body (wo_stdout W)); left; reflexivity].
  destruct (safe_open v (wo_fs W) (wo_place W out) force); [|left; reflexivity..]. destruct (body (sf_sink v)) as [c w]. right. split; [reflexivity|].
  exists (w_out w), (committed v w). apply sf_ops_trace.
Qed.
Lemma generate_ops C E W v1 v2 o bn rest : ge_args o = bn :: rest -> let K := wo_place W (wo_clean W bn ++ str ".key") in let P := wo_place W (wo_clean W bn ++ str ".pub") in
  let ops := x_ops (cli_generate C E W v1 v2 o) in
  ops = [] \/ (exists d c, trace v1 K d ops c) \/ exists m kt ops2 d c, ops = commit_ops v1 m K kt ++ ops2 /\ trace v2 P d ops2 c.
Proof.
  intros Ha K P ops. unfold ops, cli_generate. rewrite Ha. destruct (negb (ge_force o) && _); [left; reflexivity|].
  destruct (get_pass W (ge_nopw o) (ge_envpw o)) as [pw|e|p]; [|left; reflexivity..]. destruct (rand_buf 32 (wo_rng W)) as [seed g].
  set (sk := new_private_key C seed). unfold serialize_private. destruct (marshal_private C E sk (ge_comment o) pw g) as [[kt|e|p] g']; [|left; reflexivity..].
  destruct (write_file v1 (oct 6 0 0) (wo_fs W) (wo_place W (wo_clean W bn ++ str ".key")) kt (ge_force o)) as [ops1 r1] eqn:E1. fold K in E1.
  destruct (write_file_spec _ _ _ _ _ _ _ _ E1) as [(-> & Ht & _)|(e & -> & Ho)].
  - assert (exists m, ops1 = commit_ops v1 m K kt) as (m & ->) by (inversion Ht; subst; eexists; reflexivity). unfold serialize_public.
    destruct (write_file v2 _ _ _ _ (ge_force o)) as [ops2 r2] eqn:E2. cbn [x_ops]. fold P in E2.
    destruct (write_file_spec _ _ _ _ _ _ _ _ E2) as [(_ & Ht2 & _)|(e & _ & [->|(d & Ht2)])].
    + right. right. exists m, kt, ops2. eauto.
    + rewrite app_nil_r. right. left. exists kt, true. exact Ht.
    + right. right. exists m, kt, ops2. eauto.
  - cbn [x_ops]. destruct Ho as [->|(d & Ht)]; [left; reflexivity|right; left; eauto].
Qed.
Lemma stands_dec a : (exists c, stands_for a c) \/ forall c, ~ stands_for a c.
Proof.
  destruct (to_lower a) as [|x t] eqn:L; [right; intros c Hc; apply stands_iff in Hc; destruct Hc as (Hc & _); contradiction|].
    destruct (existsb (fun c => is_prefix (to_lower a) (called c)) [Generate; Sign; Verify; Encrypt_; Decrypt_; Help]) eqn:Ex.
    - apply existsb_exists in Ex. destruct Ex as (c & _ & Hp). apply is_prefix_iff in Hp. destruct Hp as (r & Hp). left. exists c. apply stands_iff. split; [congruence|]. exists r. exact Hp.
    - right. intros c Hc. apply stands_iff in Hc. destruct Hc as (_ & r & Hc). assert (Y : existsb (fun c => is_prefix (to_lower a) (called c)) [Generate; Sign; Verify; Encrypt_; Decrypt_; Help] = true).
      { apply existsb_exists. exists c. split; [destruct c; cbn; tauto|]. apply is_prefix_iff. exists r. exact Hc. }
      congruence.
Qed.
(** the system calls of a run: none, those of one SafeFile, or those of the two of generate *)
Lemma main_ops C E W P v1 v2 argv : let ops := x_ops (main C E W P v1 v2 argv) in
  ops = [] \/ (exists n d c, asked W P argv n /\ trace v1 (wo_place W n) d ops c) \/
  exists bn n n2 m kt ops2 d c, n = wo_clean W bn ++ str ".key" /\ n2 = wo_clean W bn ++ str ".pub" /\ asked W P argv n /\ asked W P argv n2 /\
    ops = commit_ops v1 m (wo_place W n) kt ++ ops2 /\ trace v2 (wo_place W n2) d ops2 c.
Proof.
  cbv zeta. destruct (fl_main P argv) as [code|o] eqn:Em; [left; unfold main; rewrite Em; reflexivity|].
  destruct (C55_dispatch C E W P v1 v2 argv o Em) as (H1 & H2). destruct (mo_version o) eqn:Ev; [rewrite H1 by auto; left; reflexivity|]. destruct (mo_help o) eqn:Eh; [rewrite H1 by auto; left; reflexivity|].
  specialize (H2 eq_refl eq_refl). destruct (mo_args o) as [|a args] eqn:Ea; [rewrite H2; left; reflexivity|]. destruct H2 as (H2 & H3).
  pose proof (stands_dec a) as D.
  destruct D as [(c & Hc)|N]; [|rewrite (H3 N); left; reflexivity]. destruct (H2 _ Hc) as (-> & _).
  assert (R : runs P argv c args) by (exists o, a; auto 8). clear H1 H2 H3. unfold run_command. destruct c.
  - destruct (fl_gen P args) as [code|og] eqn:Eg; [left; reflexivity|]. destruct (ge_args og) as [|bn rest] eqn:Eb; [left; unfold cli_generate; rewrite Eb; reflexivity|].
    destruct (generate_ops C E W v1 v2 og bn rest Eb) as [X|[(d & c & X)|(m & kt & ops2 & d & c & X & Y)]]; [left; exact X|right; left|right; right].
    + exists (wo_clean W bn ++ str ".key"), d, c. split; [eapply as_key; eauto|exact X].
    + exists bn, (wo_clean W bn ++ str ".key"), (wo_clean W bn ++ str ".pub"), m, kt, ops2, d, c. split; [reflexivity|]. split; [reflexivity|]. split; [eapply as_key; eauto|]. split; [eapply as_pub; eauto|]. split; [exact X|exact Y].
  - destruct (fl_sign P args) as [code|os] eqn:Eg; [left; reflexivity|]. unfold cli_sign. destruct (so_args os) as [|kn [|fn more]] eqn:Es; [left; reflexivity..|].
    rewrite !sig_out. destruct (with_output_ops W v1 (oct 6 4 4) (sig_file os fn) (negb (beq (sig_file os fn) (str "-"))) (so_force os) (sign_body C E W os kn fn)) as [X|(X & d & c & Y)]; [left; exact X|].
    right. left. exists (sig_file os fn), d, c. split; [|exact Y]. eapply as_sig; eauto. intros Z. rewrite Z in X. discriminate X.
  - left. destruct (fl_verify P args) as [code|[q av]]; [reflexivity|]. exact (proj1 (C62_verify_report C E W q av)).
  - destruct (fl_enc P args) as [code|oe] eqn:Eg; [left; reflexivity|]. destruct (cli_encrypt_any C E W v1 oe) as [(_ & X & _)|(blk & sk & rd & pka & _ & _ & _ & _ & _ & X)]; [left; exact X|]. rewrite X.
    destruct (with_output_ops W v1 (oct 6 0 0) (eo_outfile oe) (names_file (eo_outfile oe)) (eo_force oe) (enc_body C E W pka sk blk (removelast (eo_args oe)) rd)) as [Y|(Y & d & c & Z)]; [left; exact Y|].
    right. left. exists (eo_outfile oe), d, c. split; [|exact Z]. eapply as_enc; eauto. apply names_ok. exact Y.
  - destruct (fl_dec P args) as [code|od] eqn:Eg; [left; reflexivity|]. destruct (do_test od) eqn:Et.
    { left. apply (C45_test_mode C E W v1 od Et). }
    destruct (cli_decrypt_any C E W v1 od Et) as [(_ & X & _)|(kf & more & sk & pk & rd & _ & _ & _ & _ & X)]; [left; exact X|]. rewrite X.
    destruct (with_output_ops W v1 (oct 6 0 0) (do_outfile od) (names_file (do_outfile od)) (do_force od) (dec_body C sk pk rd)) as [Y|(Y & d & c & Z)]; [left; exact Y|].
    right. left. exists (do_outfile od), d, c. split; [|exact Z]. eapply as_dec; eauto. apply names_ok. exact Y.
  - left. reflexivity.
Qed.

(** Whatever the command line, whatever the system calls answer, wherever the program is stopped (also by a power failure): no file is
    changed but those the command line asks to be written.  When the program has ended, its temporary files are gone. *)
Theorem C68_only_outputs :
  forall C E W P v1 v2 argv, let f := wo_fs W in
  (forall n, asked W P argv n -> fresh v1 f (wo_place W n) /\ fresh v2 f (wo_place W n)) -> se_tmp v1 <> se_tmp v2 -> se_ino v1 <> se_ino v2 ->
  (forall bn, asked W P argv (wo_clean W bn ++ str ".key") -> asked W P argv (wo_clean W bn ++ str ".pub") ->
     ~ leads f (wo_place W (wo_clean W bn ++ str ".key")) (wo_place W (wo_clean W bn ++ str ".pub"))) ->
  f_node f (se_tmp v1) = None -> f_node f (se_tmp v2) = None ->
  let ops := x_ops (main C E W P v1 v2 argv) in
  (forall dn f', crash ops dn -> f' = run_ops f dn \/ survives f dn f' ->
     forall q, q <> se_tmp v1 -> q <> se_tmp v2 -> (forall n, asked W P argv n -> ~ leads f (wo_place W n) q) -> content f' q = content f q) /\
  f_node (run_ops f ops) (se_tmp v1) = None /\ f_node (run_ops f ops) (se_tmp v2) = None /\
  (forall q, q <> se_tmp v1 -> q <> se_tmp v2 -> (forall n, asked W P argv n -> wo_place W n <> q) -> f_node (run_ops f ops) q = f_node f q).
Proof.
  intros C E W P v1 v2 argv f Hfr T12 I12 HKP N1 N2 ops.
  assert (SV : forall dn f', f' = run_ops f dn \/ survives f dn f' -> survives f dn f') by (intros dn f' [->|X]; [apply survives_run|exact X]).
  destruct (main_ops C E W P v1 v2 argv) as [X|[(n & d & c & An & Ht)|(bn & n & n2 & m & kt & ops2 & d & c & E1 & E2 & A1 & A2 & X & Ht)]].
  - fold ops in X. rewrite X. split; [|cbn; auto]. intros dn f' Hc Hs q _ _ _. apply SV in Hs. apply crash_nil in Hc. subst dn. destruct Hs as ((k & Hn) & Hd & _).
    assert (L : forall n p, follow n f' p = follow n f p).
    { cbn [filter] in Hn. rewrite firstn_nil in Hn. cbn [run_ops fold_left] in Hn. induction n as [|n IH]; intros p; cbn [follow]; rewrite Hn; destruct (f_node f p) as [[i|t]|]; auto. }
    unfold content. rewrite L. assert (D : forall i, f_data f' i = f_data f i) by (intros i; apply Hd; intros a d b Z; destruct a; discriminate Z). destruct (follow _ f q) as [i|]; [rewrite D|]; reflexivity.
  - fold ops in Ht. destruct (Hfr _ An) as (F1 & F2). split; [|split; [exact (trace_tmp _ _ _ _ _ f (proj1 F1) Ht)|split]].
    + intros dn f' Hc Hs q Q1 _ Q. apply SV in Hs. destruct (stage_atomic v1 (wo_place W n) d dn f f' F1 (crash_stage _ _ _ _ _ _ Ht Hc) Hs) as [A|A].
      * exact (like_unchanged _ _ _ _ F1 A q Q1).
      * exact (proj2 (swapped_replaced _ _ _ _ _ F1 A) q Q1 (Q n An)).
    + rewrite (trace_other _ _ _ _ _ f (se_tmp v2) (not_eq_sym T12) (proj1 F2) Ht). exact N2.
    + intros q Q1 _ Q. apply (trace_other v1 (wo_place W n) d ops c f q Q1); [|exact Ht]. intros ->. exact (Q n An eq_refl).
  - fold ops in X. subst n n2. destruct (Hfr _ A1) as (F1 & F1'). destruct (Hfr _ A2) as (F2' & F2). specialize (HKP bn A1 A2).
    set (K := wo_place W (wo_clean W bn ++ str ".key")) in *. set (Q := wo_place W (wo_clean W bn ++ str ".pub")) in *.
    assert (KQ : K <> Q) by (intros Z; apply HKP; rewrite <- Z; constructor).
    assert (Ht1 : trace v1 K kt (commit_ops v1 m K kt) true) by (unfold commit_ops; constructor).
    rewrite X. split; [|rewrite run_app; split; [|split]].
    + intros dn f' Hc Hs q Q1 Q2 Hq. apply SV in Hs. destruct (two_crash v1 v2 f K Q kt d m KQ HKP F1 F2 (proj1 F2') (proj1 F1') T12 I12 ops2 c dn f') as (_ & _ & Z); [right; exists d; split; [exact Ht|reflexivity]|exact Hc|exact Hs|].
      apply Z; [exact Q1|exact Q2|exact (Hq _ A1)|exact (Hq _ A2)].
    + rewrite (trace_other _ _ _ _ _ _ (se_tmp v1) T12 (proj1 F2') Ht). exact (trace_tmp _ _ _ _ _ f (proj1 F1) Ht1).
    + exact (trace_tmp _ _ _ _ _ _ (proj1 F2) Ht).
    + intros q Q1 Q2 Hq. assert (q <> Q) by (intros ->; exact (Hq _ A2 eq_refl)). assert (q <> K) by (intros ->; exact (Hq _ A1 eq_refl)).
      rewrite (trace_other v2 Q d ops2 c _ q Q2) by assumption. apply (trace_other v1 K kt _ true f q Q1); assumption.
Qed.
Print Assumptions C68_only_outputs.

(** "sigtool gen ..." in the town of CliScene: two files are asked for, and written; the hypotheses hold *)
Definition any_flags : flags := mkFlags (fun l => Options (mkMain false false l)) (fun _ => Options gen1) (fun _ => Options sign1) (fun l => Options (false, l)) (fun _ => Options enc1) (fun _ => Quit 2).
Lemma gen_only c : stands_for (str "gen") c -> c = Generate.
Proof. intros H. apply stands_iff in H. destruct H as (_ & r & H). destruct c; try discriminate H. reflexivity. Qed.
Lemma gen_runs c args : runs any_flags [str "gen"] c args -> c = Generate.
Proof. intros (o & a & X & _ & _ & Y & Z). injection X as <-. cbn [mo_args] in Y. injection Y as <- _. exact (gen_only c Z). Qed.
Lemma gen_asked n : asked town any_flags [str "gen"] n <-> n = str "id.key" \/ n = str "id.pub".
Proof.
  split.
  - intros H. destruct H as [args o bn rest R G A|args o bn rest R G A|args o kn fn rest R|args o R|args o R].
    + injection G as <-. injection A as <- _. left. vm_compute. reflexivity.
    + injection G as <-. injection A as <- _. right. vm_compute. reflexivity.
    + apply gen_runs in R. discriminate R.
    + apply gen_runs in R. discriminate R.
    + apply gen_runs in R. discriminate R.
  - assert (R : runs any_flags [str "gen"] Generate []).
    { exists (mkMain false false [str "gen"]), (str "gen"). split; [reflexivity|]. split; [reflexivity|]. split; [reflexivity|]. split; [reflexivity|].
      apply stands_iff. split; [discriminate|]. exists (str "erate"). reflexivity. }
    intros [->| ->]; [exact (as_key town any_flags [str "gen"] [] gen1 (str "id") [] R eq_refl eq_refl)|exact (as_pub town any_flags [str "gen"] [] gen1 (str "id") [] R eq_refl eq_refl)].
Qed.
Example C68_instance :
  let x := main toy toyE town any_flags sf1 sf2 [str "gen"] in
  x_code x = 0 /\ content (run_ops (wo_fs town) (x_ops x)) (wo_place town (str "id.key")) <> None /\
  asked town any_flags [str "gen"] (str "id.key") /\
  (forall dn f', crash (x_ops x) dn -> f' = run_ops (wo_fs town) dn \/ survives (wo_fs town) dn f' -> content f' (wo_place town (str "plain")) = Some text) /\
  f_node (run_ops (wo_fs town) (x_ops x)) (se_tmp sf1) = None.
Proof.
  cbv zeta. split; [vm_compute; reflexivity|]. split; [vm_compute; discriminate|]. split; [apply gen_asked; auto|].
  destruct (C68_only_outputs toy toyE town any_flags sf1 sf2 [str "gen"]) as (H1 & H2 & _).
  - intros n Hn. apply gen_asked in Hn. destruct Hn as [->| ->]; (split; apply town_fresh; vm_compute; congruence).
  - discriminate.
  - discriminate.
  - intros bn A1 A2 L. apply dir_leads in L. revert L. apply gen_asked in A1, A2.
    assert (T : forall s, (s ++ str ".key" = str "id.key" -> s ++ str ".pub" = str "id.pub" -> wo_place town (s ++ str ".pub") <> wo_place town (s ++ str ".key"))).
    { intros s S1 S2. rewrite S1, S2. vm_compute. discriminate. }
    assert (R : forall s t u : bytes, s ++ t = u -> exists r, rev u = rev t ++ r) by (intros s t u <-; exists (rev s); apply rev_app_distr).
    destruct A1 as [A1|A1]; [|apply R in A1; destruct A1 as (r & A1); discriminate A1]. destruct A2 as [A2|A2]; [apply R in A2; destruct A2 as (r & A2); discriminate A2|]. exact (T _ A1 A2).
  - vm_compute. reflexivity.
  - vm_compute. reflexivity.
  - split; [|exact H2]. intros dn f' Hc Hs. rewrite (H1 dn f' Hc Hs).
    + vm_compute. reflexivity.
    + vm_compute. discriminate.
    + vm_compute. discriminate.
    + intros n Hn L. apply dir_leads in L. apply gen_asked in Hn. revert L. destruct Hn as [->| ->]; vm_compute; discriminate.
Qed.
