(** C96: the messages about missing arguments. *)
From Verif Require Import Bytes BytesLemmas GoErr GoIO SpecIO Support Pb SpecPb Crypto CryptoLaws Keys Sign SpecSign Encrypt Decrypt Spec
  KeyFiles GoText Ssh Fs Store SpecFs SpecCli Cli Main Flags Told Usage SpecFlags Toy ToyExt Scene CliScene CliProofs Thm_Cli Thm_Told Thm_Flags Thm_Usage.
Local Notation length := List.length.
Local Notation concat := List.concat.

(** what sigtool says when arguments are missing: the one message, and nothing is done *)
Definition refused_with (W : world) (m : msg) (r : outcome * list msg) : Prop := r = (mkOut 1 [] (wo_stdout W), [m]).
Definition advises (f : string) (r : outcome * list msg) : Prop := exists vals, In (f, vals) (snd r).
Definition advice (w : string) : string := ("Insufficient arguments to '" ++ w ++ "'. Try '%s " ++ w ++ " -h' ..")%string.

Ltac no_advice := cbn [snd]; first [apply not_fmt; discriminate | intros [] |
  apply (@die_not unit); discriminate | apply (@die_not privkey); discriminate |
  match goal with |- ~ In _ (die_err ?T ?r) => apply (die_not T r); discriminate end].

Lemma generate_advice T C E W v1 v2 o vals : ge_args o <> [] -> ~ In (advice "generate", vals) (snd (generate_told T C E W v1 v2 o)).
Proof.
  unfold generate_told. destruct (ge_args o) as [|bn rest]; [intros N; contradiction (N eq_refl)|intros _]. cbv zeta.
  destruct (negb (ge_force o) && _); [no_advice|].
  destruct (get_pass W (ge_nopw o) (ge_envpw o)) as [pw|e|e]; [|no_advice..].
  destruct (rand_buf 32 (wo_rng W)) as [seed g].
  destruct (serialize_private C E v1 _ _ _ _ _ _ _) as [[ops1 [u|e|e]] g2]; [|no_advice..].
  destruct (serialize_public E v2 _ _ _ _ _) as [ops2 r]. no_advice.
Qed.
Lemma sign_advice T C E W v o vals : (2 <= length (so_args o))%nat -> ~ In (advice "sign", vals) (snd (sign_told T C E W v o)).
Proof.
  unfold sign_told. destruct (so_args o) as [|kn [|fn rest]]; [cbn; lia..|intros _]. cbv zeta.
  assert (Q : forall w c w2 ms0, sign_body_told T C E W o kn fn w = (c, w2, ms0) -> ~ In (advice "sign", vals) ms0).
  { intros w c w2 ms0. unfold sign_body_told. destruct (read_private_key C E _ _) as [sk|e|e]; [|intros H; injection H as _ _ <-; no_advice..].
    destruct (sign_file C sk _) as [s|e|e]; [|intros H; injection H as _ _ <-; no_advice..].
    destruct (fullwrite _ w) as [r w3]. intros H. injection H as _ _ <-. intros []. }
  unfold with_output_told. destruct (negb _).
  - destruct (safe_open _ _ _ _) as [u|e|e]; [|no_advice..]. destruct (sign_body_told _ _ _ _ _ _ _ _) as [[c w] ms0] eqn:Eb. exact (Q _ _ _ _ Eb).
  - destruct (sign_body_told _ _ _ _ _ _ _ _) as [[c w] ms0] eqn:Eb. exact (Q _ _ _ _ Eb).
Qed.
Lemma verify_advice T C E W q args vals : (3 <= length args)%nat -> ~ In (advice "verify", vals) (snd (verify_told T C E W q args)).
Proof.
  unfold verify_told. destruct args as [|pn [|sn [|fn rest]]]; [cbn; lia..|intros _]. cbv zeta.
  destruct (match make_public_from_string C pn with Ok r => _ | _ => _ end) as [pk|e|e]; [|no_advice..].
  destruct (read_signature E _) as [sg|e|e]; [|no_advice..]. destruct pk as [pk|]; [|no_advice]. destruct (negb _); [no_advice|].
  destruct (verify_file _ _ _ _) as [ok|e|e]; no_advice.
Qed.
Lemma decrypt_advice T C E W v o vals : do_args o <> [] -> ~ In ("Insufficient args. Try '%s --help'"%string, vals) (snd (decrypt_told T C E W v o)).
Proof.
  unfold decrypt_told. destruct (do_args o) as [|kf more]; [intros N; contradiction (N eq_refl)|intros _]. cbv zeta.
  destruct (read_private_key C E (slurp W kf) _) as [sk|e|e]; [|no_advice..].
  destruct (if 0 <? len (do_pubkey o) then _ else _) as [pk|e|e]; [|no_advice..].
  assert (B : forall infile test rd w c w2 ms0, dec_body_told T C sk pk infile test rd w = (c, w2, ms0) -> ~ In ("Insufficient args. Try '%s --help'"%string, vals) ms0).
  { intros infile test rd w c w2 ms0 Eb X. destruct (dec_body_formats _ _ _ _ _ _ _ _ _ _ _ _ _ Eb X) as [Z|[Z|Z]]; discriminate Z. }
  destruct (match more with [] => _ | _ => _ end) as [rd|e|e]; [|no_advice..]. destruct (do_test o).
  - destruct (dec_body_told _ _ _ _ _ _ _ _) as [[c w] ms0] eqn:Eb. exact (B _ _ _ _ _ _ _ Eb).
  - unfold with_output_told. destruct (names_file (do_outfile o)).
    + destruct (safe_open _ _ _ _) as [u|e|e]; [|no_advice..]. destruct (dec_body_told _ _ _ _ _ _ _ _) as [[c w] ms0] eqn:Eb. exact (B _ _ _ _ _ _ _ Eb).
    + destruct (dec_body_told _ _ _ _ _ _ _ _) as [[c w] ms0] eqn:Eb. exact (B _ _ _ _ _ _ _ Eb).
Qed.
Lemma encrypt_advice T C E W v o vals : (2 <= length (eo_args o))%nat -> ~ In ("Insufficient args. Try '%s --help'"%string, vals) (snd (encrypt_told T C E W v o)).
Proof.
  intros L. unfold encrypt_told. destruct (wo_size W (eo_size o)) as [blk|e|e]; [|no_advice..].
  destruct (if 0 <? len (eo_keyfile o) then _ else _) as [sk|e|e]; [|no_advice..].
  destruct (Z.ltb_spec (len (eo_args o)) 2) as [Z|_]; [unfold len in Z; lia|]. cbv zeta.
  destruct (if beq _ _ then _ else _) as [rd|e|e]; [|no_advice..]. destruct (wo_home W) as [home|]; [|no_advice].
  match goal with |- ~ In _ (snd ?r) => destruct r as [x ms] eqn:R end. cbn [snd]. revert R. apply enc_go_formats; discriminate.
Qed.

(** *** C96.  Missing arguments: each command says so, about itself, exactly when it has fewer than it needs, and does nothing else.  (Encrypt reads
    the block size and the sender's key first and may complain about them instead.) *)
Theorem C96_missing_arguments : forall T C E W,
  (forall v1 v2 o, let r := generate_told T C E W v1 v2 o in
     (ge_args o = [] -> refused_with W (advice "generate", [tg_base T]) r) /\ (advises (advice "generate") r -> ge_args o = [])) /\
  (forall v o, let r := sign_told T C E W v o in
     ((length (so_args o) < 2)%nat -> refused_with W (advice "sign", [tg_base T]) r) /\ (advises (advice "sign") r -> (length (so_args o) < 2)%nat)) /\
  (forall q args, let r := verify_told T C E W q args in
     ((length args < 3)%nat -> refused_with W (advice "verify", [tg_base T]) r) /\ (advises (advice "verify") r -> (length args < 3)%nat)) /\
  (forall v o, let r := decrypt_told T C E W v o in
     (do_args o = [] -> refused_with W ("Insufficient args. Try '%s --help'"%string, [tg_argv0 T]) r) /\
     (advises "Insufficient args. Try '%s --help'" r -> do_args o = [])) /\
  (forall v o, let r := encrypt_told T C E W v o in
     ((length (eo_args o) < 2)%nat -> x_code (fst r) <> 0 /\ x_ops (fst r) = [] /\ x_stdout (fst r) = wo_stdout W /\
        (refused_with W ("Insufficient args. Try '%s --help'"%string, [tg_argv0 T]) r \/
         (forall blk, wo_size W (eo_size o) <> Ok blk) \/ (eo_keyfile o <> [] /\ forall sk, ~ private_in C E W (eo_nopw o) (eo_envpw o) (eo_keyfile o) sk))) /\
     (advises "Insufficient args. Try '%s --help'" r -> (length (eo_args o) < 2)%nat)) /\
  (forall v1 v2 argv, let r := main_told T C E W declared v1 v2 argv in
     (exists o, fl_main declared argv = Options o /\ mo_version o = false /\ mo_help o = false /\ mo_args o = []) ->
     refused_with W ("Insufficient arguments. Try '%s -h'"%string, [tg_base T]) r).
Proof.
  intros T C E W. split; [|split; [|split; [|split; [|split]]]].
  - intros v1 v2 o r. split.
    + intros H. unfold r, generate_told. rewrite H. reflexivity.
    + intros [vals H]. destruct (ge_args o) eqn:Ea; [reflexivity|]. exfalso. revert H. apply generate_advice. rewrite Ea. discriminate.
  - intros v o r. split.
    + intros H. unfold r, sign_told. destruct (so_args o) as [|a [|b l]]; [reflexivity..|cbn in H; lia].
    + intros [vals H]. destruct (Nat.lt_ge_cases (length (so_args o)) 2) as [L|L]; [exact L|]. exfalso. revert H. apply sign_advice, L.
  - intros q args r. split.
    + intros H. unfold r, verify_told. destruct args as [|a [|b [|c l]]]; [reflexivity..|cbn in H; lia].
    + intros [vals H]. destruct (Nat.lt_ge_cases (length args) 3) as [L|L]; [exact L|]. exfalso. revert H. apply verify_advice, L.
  - intros v o r. split.
    + intros H. unfold r, decrypt_told. rewrite H. reflexivity.
    + intros [vals H]. destruct (do_args o) eqn:Ea; [reflexivity|]. exfalso. revert H. apply decrypt_advice. rewrite Ea. discriminate.
  - intros v o r. split.
    + intros L. unfold r, encrypt_told. destruct (wo_size W (eo_size o)) as [blk|e|e] eqn:Es.
      2,3: cbn; (split; [discriminate|]); (split; [reflexivity|]); (split; [reflexivity|]); right; left; intros blk; discriminate.
      assert (K : forall r, (if 0 <? len (eo_keyfile o) then sk <- read_private_key C E (slurp W (eo_keyfile o)) (Some (get_pass W (eo_nopw o) (eo_envpw o))) ;; Ok (Some sk) else Ok None) = r ->
        (forall sk, r <> Ok sk) -> eo_keyfile o <> [] /\ forall sk, ~ private_in C E W (eo_nopw o) (eo_envpw o) (eo_keyfile o) sk).
      { intros r0 Hr Hn. destruct (eo_keyfile o) as [|b l]; [destruct (Hn None); symmetry; exact Hr|]. split; [discriminate|]. intros sk Hs. apply private_ok in Hs.
        rewrite (proj2 (len_pos (b :: l)) ltac:(discriminate)), Hs in Hr. destruct (Hn (Some sk)). symmetry. exact Hr. }
      destruct (if 0 <? len (eo_keyfile o) then _ else _) as [sk|e|e] eqn:Ek.
      * destruct (Z.ltb_spec (len (eo_args o)) 2) as [_|Z]; [|unfold len in Z; lia]. cbn. split; [discriminate|]. split; [reflexivity|]. split; [reflexivity|]. left. reflexivity.
      * cbn. split; [discriminate|]. split; [reflexivity|]. split; [reflexivity|]. right. right. apply (K _ eq_refl). discriminate.
      * cbn. split; [discriminate|]. split; [reflexivity|]. split; [reflexivity|]. right. right. apply (K _ eq_refl). discriminate.
    + intros [vals H]. destruct (Nat.lt_ge_cases (length (eo_args o)) 2) as [L|L]; [exact L|]. exfalso. revert H. apply encrypt_advice, L.
  - intros v1 v2 argv r (o & Hm & Hv & Hh & Ha). unfold r, main_told. rewrite Hm, Hv, Hh, Ha. reflexivity.
Qed.

(** *** C96.  The advice given there helps: what these messages suggest to type prints the help text of the command (of the program), with exit status 0. *)
Definition helps (W : world) (text : list bytes) (y : outcome) : Prop :=
  x_code y = 0 /\ x_ops y = [] /\ w_out (x_stdout y) = w_out (wo_stdout W) ++ concat text.
Theorem C96_advice_works : forall T B C E W v1 v2, accepts (wo_stdout W) ->
  helps W (gen_texts T B) (main_shown T B C E W v1 v2 [str "generate"; str "-h"]) /\
  helps W (sign_texts T B) (main_shown T B C E W v1 v2 [str "sign"; str "-h"]) /\
  helps W (verify_texts T B) (main_shown T B C E W v1 v2 [str "verify"; str "-h"]) /\
  helps W [usage_text T] (main_shown T B C E W v1 v2 [str "--help"]) /\
  helps W [usage_text T] (main_shown T B C E W v1 v2 [str "-h"]).
Proof.
  intros T B C E W v1 v2 A.
  assert (X : forall l, w_out (print_all l (wo_stdout W)) = w_out (wo_stdout W) ++ concat l) by (intros l; exact (proj1 (print_all_accepts l _ A))).
  repeat split; apply X.
Qed.

(** An instance: in the town, with too few words *)
Example C96_missing_instance :
  refused_with town (advice "sign", [str "sigtool"]) (ask ["sign"; "--no-password"; "a.key"]%string) /\
  refused_with town ("Insufficient args. Try '%s --help'"%string, [str "./sigtool"]) (ask ["encrypt"; "-B"; "4"; "plain"]%string) /\
  refused_with town ("Insufficient arguments. Try '%s -h'"%string, [str "sigtool"]) (ask []) /\ accepts (wo_stdout town).
Proof. split; [vm_compute; reflexivity|]. split; [vm_compute; reflexivity|]. split; [vm_compute; reflexivity|]. split; constructor. Qed.
Print Assumptions C96_missing_arguments.
Print Assumptions C96_advice_works.
