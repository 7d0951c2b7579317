(** C105: what was done before with other files does not matter. *)
From Verif Require Import Bytes BytesLemmas GoErr GoIO SpecIO Crypto Keys Sign Encrypt KeyFiles GoText Fs Store SpecFs SpecCli Cli Main Flags Told
  TextProofs CliProofs Toy ToyExt Scene CliScene Thm_Commands Thm_Main Thm_Pipe Thm_EndToEnd Thm_Touch Thm_Told Thm_Reads.
Local Notation length := List.length.
Local Notation concat := List.concat.

(** ** Specification *)
(** The same machine - working directory, environment, what the user types, streams, random numbers - with other files on its disk. *)
Definition on_disk (f : fs) (W : world) : world :=
  mkWorld f (wo_place W) (wo_clean W) (wo_refused W) (wo_pieces W) (wo_mapped W) (wo_getenv W) (wo_ask W) (wo_home W)
    (wo_stdin W) (wo_stdout W) (wo_rng W) (wo_size W).
(** A command line of which the files [kept] are none of the business: it does not ask for them to be written (not through a link either), and
    its temporary files, for which the system gives it unused names, are others. *)
Definition leaves (C : crypto) (E : ext) (kept : slot -> Prop) (W : world) (P : flags) (v1 v2 : sf_env) (argv : list bytes) : Prop :=
  let f := wo_fs W in
  (forall n, asked W P argv n -> fresh v1 f (wo_place W n) /\ fresh v2 f (wo_place W n)) /\ se_tmp v1 <> se_tmp v2 /\ se_ino v1 <> se_ino v2 /\
  (forall bn, asked W P argv (wo_clean W bn ++ str ".key") -> asked W P argv (wo_clean W bn ++ str ".pub") ->
     ~ leads f (wo_place W (wo_clean W bn ++ str ".key")) (wo_place W (wo_clean W bn ++ str ".pub"))) /\
  f_node f (se_tmp v1) = None /\ f_node f (se_tmp v2) = None /\
  forall q, kept q -> q <> se_tmp v1 /\ q <> se_tmp v2 /\ forall n, asked W P argv n -> ~ leads f (wo_place W n) q.
(** What happens to a disk: any command lines, one after the other, each in any circumstances (another user, directory, environment, random
    source), with any system call results, run to its end, killed at any point or cut off by a power failure. *)
Inductive past (C : crypto) (E : ext) (P : flags) (kept : slot -> Prop) (f : fs) : fs -> Prop :=
| pa_nothing : past C E P kept f f
| pa_more W v1 v2 argv dn f' : past C E P kept f (wo_fs W) -> leaves C E kept W P v1 v2 argv ->
    crash (x_ops (main C E W P v1 v2 argv)) dn -> f' = run_ops (wo_fs W) dn \/ survives (wo_fs W) dn f' -> past C E P kept f f'.
(** The files a command line has to do with: those it reads, and the one whose presence it asks for before it writes it. *)
Inductive concerns (W : world) (P : flags) (argv : list bytes) : bytes -> Prop :=
| co_out n : asked W P argv n -> concerns W P argv n
| co_verify args q a n : runs P argv Verify args -> fl_verify P args = Options (q, a) -> In n (firstn 3 a) -> concerns W P argv n
| co_sign args o n : runs P argv Sign args -> fl_sign P args = Options o -> In n (firstn 2 (so_args o)) -> concerns W P argv n
| co_decrypt args o n : runs P argv Decrypt_ args -> fl_dec P args = Options o -> In n (firstn 2 (do_args o)) -> n <> str "-" \/ hd_error (do_args o) = Some n -> concerns W P argv n
| co_sender args o : runs P argv Decrypt_ args -> fl_dec P args = Options o -> do_pubkey o <> [] -> concerns W P argv (do_pubkey o)
| co_key args o : runs P argv Encrypt_ args -> fl_enc P args = Options o -> eo_keyfile o <> [] -> concerns W P argv (eo_keyfile o)
| co_recipient args o n : runs P argv Encrypt_ args -> fl_enc P args = Options o -> In n (removelast (eo_args o)) -> ~ user_name n -> concerns W P argv n
| co_plain args o : runs P argv Encrypt_ args -> fl_enc P args = Options o -> last (eo_args o) [] <> str "-" -> concerns W P argv (last (eo_args o) [])
| co_users args o home : runs P argv Encrypt_ args -> fl_enc P args = Options o -> wo_home W = Some home -> concerns W P argv (home ++ str "/.ssh/authorized_keys").

(** ** Proofs *)
Lemma past_kept C E P kept f f' : past C E P kept f f' -> forall q, kept q -> content f' q = content f q.
Proof.
  induction 1 as [|W v1 v2 argv dn f' Hp IH L Hc Hs]; intros q Hq; [reflexivity|]. rewrite <- (IH q Hq).
  destruct L as (L1 & L2 & L3 & L4 & L5 & L6 & L7). destruct (L7 q Hq) as (Q1 & Q2 & Q3).
  destruct (C68_only_outputs C E W P v1 v2 argv L1 L2 L3 L4 L5 L6) as (X & _). exact (X dn f' Hc Hs q Q1 Q2 Q3).
Qed.
Section Same.
Variables (f : fs) (W : world) (n : bytes).
Hypothesis Hc : content f (wo_place W n) = content (wo_fs W) (wo_place W n).
Lemma disk_file : same_file (on_disk f W) W n. Proof. split; [exact Hc|]. repeat split. Qed.
Lemma disk_place : same_place (on_disk f W) W n. Proof. split; [reflexivity|]. cbn. rewrite Hc. split; auto. Qed.
End Same.
Lemma disk_pass f W nopw envpw : same_pass (on_disk f W) W nopw envpw. Proof. intros _. split; reflexivity. Qed.

Lemma found_runs P argv o a args canon c : fl_main P argv = Options o -> mo_version o = false -> mo_help o = false -> mo_args o = a :: args ->
  abbrev (map fst cmds) (to_lower a) = Some canon -> find_cmd cmds canon = Some c -> runs P argv c args.
Proof.
  intros Fo Fv Fh Fa Ab Fc. exists o, a. repeat split; try assumption. apply stands_iff.
  destruct (to_lower a) as [|x w] eqn:L; [discriminate Ab|]. split; [discriminate|].
  assert (D : forall c', is_prefix (x :: w) (called c') = true -> c' = c /\ exists rest, called c = (x :: w) ++ rest).
  { intros c' H. apply is_prefix_iff in H. destruct H as (r & H). destruct (abbrev_prefix c' (x :: w) r ltac:(discriminate) H) as [A B].
    assert (c' = c) as -> by congruence. split; [reflexivity|exists r; exact H]. }
  destruct (existsb (fun c' => is_prefix (x :: w) (called c')) (map snd cmds)) eqn:X.
  - apply existsb_exists in X. destruct X as (c' & _ & X). exact (proj2 (D c' X)).
  - exfalso. rewrite abbrev_other in Ab; [discriminate Ab|]. intros c' rest _ H. assert (N : In c' (map snd cmds)) by (destruct c'; cbn; tauto).
    assert (Y : existsb (fun c' => is_prefix (x :: w) (called c')) (map snd cmds) = true); [|congruence].
    apply existsb_exists. exists c'. split; [exact N|]. apply is_prefix_iff. exists rest. exact H.
Qed.

(** ** C105 *)
Theorem C105_past :
  forall T C E P kept W f', past C E P kept (wo_fs W) f' ->
  forall v1 v2 argv, (forall n, concerns W P argv n -> kept (wo_place W n)) -> (forall args, ~ runs P argv Generate args) ->
  main_told T C E (on_disk f' W) P v1 v2 argv = main_told T C E W P v1 v2 argv.
Proof.
  intros T C E P kept W f' Hp v1 v2 argv Hk HG. pose proof (past_kept _ _ _ _ _ _ Hp) as K.
  assert (K' : forall n, concerns W P argv n -> content f' (wo_place W n) = content (wo_fs W) (wo_place W n)) by (intros n Hn; apply K, Hk, Hn).
  clear Hk K Hp. unfold main_told. destruct (fl_main P argv) as [c|o] eqn:Fo; [reflexivity|]. destruct (mo_version o) eqn:Fv; [reflexivity|]. destruct (mo_help o) eqn:Fh; [reflexivity|].
  destruct (mo_args o) as [|a args] eqn:Fa; [reflexivity|]. destruct (abbrev (map fst cmds) (to_lower a)) as [canon|] eqn:Ab; [|reflexivity].
  destruct (find_cmd cmds canon) as [c|] eqn:Fc; [|reflexivity].
  assert (R : runs P argv c args). (eapply found_runs; eassumption).
  unfold run_told. destruct c; [exfalso; exact (HG args R)|..].
  - destruct (fl_sign P args) as [q|so] eqn:Fs; [reflexivity|]. destruct (so_args so) as [|kn [|fn more]] eqn:As.
    1,2: unfold sign_told; rewrite As; reflexivity.
    apply C97_sign; [reflexivity| |apply disk_pass|].
    + apply Forall_forall. intros n Hn. apply disk_file, K'. eapply co_sign; eassumption.
    + intros Hf. apply disk_place. rewrite As in *. cbn [nth] in *. assert (EO : (match so_output so with [] => fn ++ str ".sig" | out => out end) = sig_file so fn) by (unfold sig_file; destruct (so_output so); reflexivity).
      rewrite EO in *. apply K', co_out. eapply as_sig; try eassumption. apply Hf.
  - destruct (fl_verify P args) as [q|[qu va]] eqn:Fs; [reflexivity|]. apply C97_verify; [reflexivity|].
    apply Forall_forall. intros n Hn. apply disk_file, K'. eapply co_verify; eassumption.
  - destruct (fl_enc P args) as [q|eo] eqn:Fs; [reflexivity|]. apply C97_encrypt; try reflexivity.
    + intros H. split; [|apply disk_pass]. apply disk_file, K'. eapply co_key; eassumption.
    + split; [intros _; reflexivity|]. intros H. apply disk_file, K'. eapply co_plain; eassumption.
    + apply Forall_forall. intros n Hn. destruct (is_user n) eqn:U; [left; apply is_user_iff; exact U|right]. apply disk_file, K'. eapply co_recipient; try eassumption. intros X. apply is_user_iff in X. congruence.
    + intros home Hh. apply disk_file, K'. eapply co_users; eassumption.
    + intros Hf. apply disk_place, K', co_out. eapply as_enc; eassumption.
  - destruct (fl_dec P args) as [q|d] eqn:Fs; [reflexivity|]. destruct (do_args d) as [|key more] eqn:As.
    + unfold decrypt_told. rewrite As. reflexivity.
    + eapply C97_decrypt; [exact As|reflexivity|..].
      * apply disk_file, K'. eapply co_decrypt; [exact R|exact Fs|rewrite As; left; reflexivity|rewrite As; right; reflexivity].
      * apply disk_pass.
      * intros H. apply disk_file, K'. eapply co_sender; eassumption.
      * split; [reflexivity|]. intros H. apply disk_file, K'. eapply co_decrypt; [exact R|exact Fs| |left; exact H]. rewrite As. destruct more as [|x m]; [contradiction H; reflexivity|right; left; reflexivity].
      * intros Ht Hf. apply disk_place, K', co_out. eapply as_dec; eassumption.
  - reflexivity.
Qed.
Print Assumptions C105_past.
(** generate asks only whether the two key files are there; its temporary names are unused on both disks *)
Theorem C105_past_generate :
  forall T C E P kept W f', past C E P kept (wo_fs W) f' ->
  forall v1 v2 argv args o bn rest, runs P argv Generate args -> fl_gen P args = Options o -> ge_args o = bn :: rest ->
  (forall n, concerns W P argv n -> kept (wo_place W n)) ->
  room_for_two v1 v2 f' (wo_place W (key_name W bn)) (wo_place W (pub_name W bn)) -> room_for_two v1 v2 (wo_fs W) (wo_place W (key_name W bn)) (wo_place W (pub_name W bn)) ->
  generate_told T C E (on_disk f' W) v1 v2 o = generate_told T C E W v1 v2 o.
Proof.
  intros T C E P kept W f' Hp v1 v2 argv args o bn rest R Fg Ha Hk R1 R2. pose proof (past_kept _ _ _ _ _ _ Hp) as K.
  eapply C97_generate; try exact Ha; try reflexivity; try assumption; [..|apply disk_pass].
  - change (key_name (on_disk f' W) bn) with (key_name W bn). apply disk_place, K, Hk, co_out. eapply as_key; eassumption.
  - change (pub_name (on_disk f' W) bn) with (pub_name W bn). apply disk_place, K, Hk, co_out. eapply as_pub; eassumption.
Qed.
Print Assumptions C105_past_generate.


(** The hypotheses are met: after generate has made a new key pair in the town, sign still does with another key and another file what it did before. *)
Definition kept1 (q : slot) : Prop := q <> wo_place town (str "id.key") /\ q <> wo_place town (str "id.pub") /\ q <> se_tmp sf1 /\ q <> se_tmp sf2.
Lemma sign_runs c args : runs any_flags [str "sign"] c args -> c = Sign.
Proof.
  intros (o & a & X & _ & _ & Y & Z). injection X as <-. cbn [mo_args] in Y. injection Y as <- _. apply stands_iff in Z. destruct Z as (_ & r & Z). destruct c; try discriminate Z. reflexivity.
Qed.
Lemma sign_concerns n : concerns town any_flags [str "sign"] n -> n = str "s.key" \/ n = str "plain" \/ n = sig_file sign1 (str "plain").
Proof.
  intros H. destruct H as [n H|args q a n R G I|args o n R G I|args o n R|args o R|args o R|args o n R|args o R|args o home R];
    try (apply sign_runs in R; discriminate R).
  - destruct H as [args o bn rest R|args o bn rest R|args o kn fn rest R G A|args o R|args o R]; try (apply sign_runs in R; discriminate R).
    injection G as <-. injection A as _ <- _. auto.
  - injection G as <-. destruct I as [<-|[<-|[]]]; auto.
Qed.
Example C105_instance :
  let x := main toy toyE town any_flags sf1 sf2 [str "gen"] in let f' := run_ops (wo_fs town) (x_ops x) in
  past toy toyE any_flags kept1 (wo_fs town) f' /\ x_code x = 0 /\ x_ops x <> [] /\
  (forall n, concerns town any_flags [str "sign"] n -> kept1 (wo_place town n)) /\ (forall args, ~ runs any_flags [str "sign"] Generate args) /\
  forall T, x_code (fst (main_told T toy toyE (on_disk f' town) any_flags sf1 sf2 [str "sign"])) = 0.
Proof.
  cbv zeta. split; [|split; [vm_compute; reflexivity|split; [vm_compute; discriminate|split; [|split]]]].
  - eapply pa_more with (W := town) (v1 := sf1) (v2 := sf2) (argv := [str "gen"]); [apply pa_nothing| |rewrite <- (app_nil_r (x_ops _)) at 1; apply cr_between|left; reflexivity].
    split; [intros n Hn; apply gen_asked in Hn; destruct Hn as [->| ->]; (split; apply town_fresh; vm_compute; congruence)|].
    split; [discriminate|]. split; [discriminate|]. split.
    { intros bn A1 A2 L. apply dir_leads in L. revert L. apply gen_asked in A1, A2.
      assert (T : forall s, (s ++ str ".key" = str "id.key" -> s ++ str ".pub" = str "id.pub" -> wo_place town (s ++ str ".pub") <> wo_place town (s ++ str ".key"))).
      { intros s S1 S2. rewrite S1, S2. vm_compute. discriminate. }
      assert (R : forall s t u : bytes, s ++ t = u -> exists r, rev u = rev t ++ r) by (intros s t u <-; exists (rev s); apply rev_app_distr).
      destruct A1 as [A1|A1]; [|apply R in A1; destruct A1 as (r & A1); discriminate A1]. destruct A2 as [A2|A2]; [apply R in A2; destruct A2 as (r & A2); discriminate A2|]. exact (T _ A1 A2). }
    split; [vm_compute; reflexivity|]. split; [vm_compute; reflexivity|].
    intros q (Q1 & Q2 & Q3 & Q4). split; [exact Q3|]. split; [exact Q4|]. intros n Hn L. apply dir_leads in L. apply gen_asked in Hn. destruct Hn as [->| ->]; [exact (Q1 L)|exact (Q2 L)].
  - intros n Hn. apply sign_concerns in Hn. destruct Hn as [->|[->| ->]]; repeat split; vm_compute; discriminate.
  - intros args R. apply sign_runs in R. discriminate R.
  - intros T. vm_compute. reflexivity.
Qed.
