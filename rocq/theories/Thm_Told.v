(** C96: messages on standard error. *)
From Verif Require Import Bytes BytesLemmas GoErr GoIO SpecIO IOProofs Support Pb SpecPb Crypto CryptoLaws Keys Sign SpecSign Encrypt Decrypt Spec
  EncryptProofs DecryptProofs OpenProofs FsProofs SshProofs Hostile KeyFiles GoText Ssh Fs Store SpecFs SpecCli CliProofs Cli Main Flags Told
  Toy ToyExt Scene CliScene Thm_Cli Thm_Commands.
Local Notation length := List.length.
Local Notation concat := List.concat.

(** ** The outcome of the commands with messages is that of Cli.v and Main.v *)
Lemma with_same T W v m outfile tofile force pre body body' : (forall w, fst (body' w) = body w) ->
  fst (with_output_told T W v m outfile tofile force pre body') = with_output W v m outfile tofile force body.
Proof.
  intros H. unfold with_output_told, with_output. destruct tofile.
  - destruct (safe_open v (wo_fs W) (wo_place W outfile) force); [|reflexivity..]. rewrite <- (H (sf_sink v)). destruct (body' (sf_sink v)) as [[c w] ms]. reflexivity.
  - rewrite <- (H (wo_stdout W)). destruct (body' (wo_stdout W)) as [[c w] ms]. reflexivity.
Qed.
Lemma generate_same T C E W v1 v2 o : fst (generate_told T C E W v1 v2 o) = cli_generate C E W v1 v2 o.
Proof.
  unfold generate_told, cli_generate. destruct (ge_args o) as [|bn a]; [reflexivity|]. cbv zeta. destruct (negb (ge_force o) && _); [reflexivity|].
  destruct (get_pass W (ge_nopw o) (ge_envpw o)) as [pw|x|x]; [|reflexivity..]. destruct (rand_buf 32 (wo_rng W)) as [seed g].
  destruct (serialize_private C E v1 _ _ _ _ _ _ _) as [[ops1 [u|x|x]] g2]; [|reflexivity..]. destruct (serialize_public E v2 _ _ _ _ _) as [ops2 r]. reflexivity.
Qed.
Lemma recipients_same T C E W ak pka : forall fns e g errs, fst (recipients_told T C E W ak pka fns e g errs) = enc_recipients C E W pka fns e g errs.
Proof.
  induction fns as [|fn fns IH]; intros e g errs; cbn [recipients_told enc_recipients]; [reflexivity|].
  assert (A : forall pk, fst (match add_recipient C e pk g with
      | (e0, _, g0, Ok _) => recipients_told T C E W ak pka fns e0 g0 errs
      | (_, _, _, Fail x) => (Fail x, [("%s"%string, [tg_text T x])])
      | (_, _, _, Panic p) => (Panic p, []) end) =
    match add_recipient C e pk g with
    | (e0, _, g0, Ok _) => enc_recipients C E W pka fns e0 g0 errs
    | (_, _, _, Fail x) => Fail x
    | (_, _, _, Panic p) => Panic p end).
  { intros pk. destruct (add_recipient C e pk g) as [[[e1 pk1] g1] [u|x|x]]; [apply IH|reflexivity..]. }
  specialize (IH e g (errs + 1)). destruct (recipients_told T C E W ak pka fns e g (errs + 1)) as [r ms]. cbn [fst] in IH. subst r.
  destruct (is_user fn); [destruct (keymap_get pka fn None) as [pk|]; [apply A|reflexivity]|].
  destruct (read_public_key C E (slurp W fn)) as [pk|x|x]; [apply A|reflexivity..].
Qed.
Lemma enc_body_same T C E W ak pka sk blk fns rd w : fst (enc_body_told T C E W ak pka sk blk fns rd w) = enc_body C E W pka sk blk fns rd w.
Proof.
  unfold enc_body_told, enc_body. destruct (new_encryptor C sk blk (wo_rng W)) as [[e|x|x] g]; [|reflexivity..].
  pose proof (recipients_same T C E W ak pka fns e g 0) as H. destruct (recipients_told T C E W ak pka fns e g 0) as [r ms]. cbn [fst] in H. subst r.
  destruct (enc_recipients C E W pka fns e g 0) as [[[e1 g1] errs]|x|x]; [|reflexivity..]. destruct (0 <? errs); [reflexivity|].
  destruct (encrypt C e1 rd w g1) as [[[[a b] c] d] [u|x|x]]; reflexivity.
Qed.
Lemma encrypt_same T C E W v o : fst (encrypt_told T C E W v o) = cli_encrypt C E W v o.
Proof.
  unfold encrypt_told, cli_encrypt. destruct (wo_size W (eo_size o)) as [blk|x|x]; [|reflexivity..].
  destruct (if 0 <? len (eo_keyfile o) then _ else _) as [sk|x|x]; [|reflexivity..]. destruct (len (eo_args o) <? 2); [reflexivity|]. cbv zeta.
  destruct (if beq _ _ then _ else _) as [rd|x|x]; [|reflexivity..]. destruct (wo_home W) as [home|]; [|reflexivity].
  assert (G : forall a, fst (match parse_authorized_keys C a with
     | Panic _ => (mkOut 2 [] (wo_stdout W), [])
     | r => with_output_told T W v (oct 6 0 0) (eo_outfile o) (names_file (eo_outfile o)) (eo_force o) "%s"
              (enc_body_told T C E W (home ++ str "/.ssh/authorized_keys") (match r with Ok pka => pka | _ => [] end) sk blk (removelast (eo_args o)) rd) end) =
     match parse_authorized_keys C a with
     | Panic _ => mkOut 2 [] (wo_stdout W)
     | r => with_output W v (oct 6 0 0) (eo_outfile o) (names_file (eo_outfile o)) (eo_force o)
              (enc_body C E W (match r with Ok pka => pka | _ => [] end) sk blk (removelast (eo_args o)) rd) end).
  { intros a. destruct (parse_authorized_keys C a); [apply with_same; intros w; apply enc_body_same..|reflexivity]. }
  destruct (slurp W (home ++ str "/.ssh/authorized_keys")) as [a|x|x]; [apply G| |reflexivity]. destruct (not_exist x); [apply G|reflexivity].
Qed.
Lemma dec_body_same T C sk pk infile test rd w : fst (dec_body_told T C sk pk infile test rd w) = dec_body C sk pk rd w.
Proof.
  unfold dec_body_told, dec_body. destruct (new_decryptor C rd) as [[d|x|x] rd']; [|reflexivity..]. destruct (set_private_key C d sk pk) as [[d1 sk1] [u|x|x]]; [|reflexivity..].
  destruct (decrypt C d1 w) as [[d2 w2] [u2|x|x]]; reflexivity.
Qed.
Lemma decrypt_same T C E W v o : fst (decrypt_told T C E W v o) = cli_decrypt C E W v o.
Proof.
  unfold decrypt_told, cli_decrypt. destruct (do_args o) as [|kf more]; [reflexivity|]. destruct (read_private_key C E (slurp W kf) _) as [sk|x|x]; [|reflexivity..].
  destruct (if 0 <? len (do_pubkey o) then _ else _) as [pk|x|x]; [|reflexivity..]. cbv zeta.
  match goal with |- fst (match ?X with _ => _ end) = _ => destruct X as [rd|x|x] end; [|reflexivity..].
  destruct (do_test o).
  - rewrite <- (dec_body_same T C sk pk (match more with f :: _ => f | [] => [] end) true rd). destruct (dec_body_told _ _ _ _ _ _ _ _) as [[c w] ms]. reflexivity.
  - apply with_same. intros w. apply dec_body_same.
Qed.
Lemma sign_same T C E W v o : fst (sign_told T C E W v o) = cli_sign C E W v o.
Proof.
  unfold sign_told, cli_sign. destruct (so_args o) as [|kn [|fn a]]; [reflexivity..|]. apply with_same. intros w. unfold sign_body_told, sign_body.
  destruct (read_private_key C E (slurp W kn) _) as [sk|x|x]; [|reflexivity..]. destruct (sign_file C sk (map_in W fn)) as [s|x|x]; [|reflexivity..].
  destruct (fullwrite _ w) as [r w2]. reflexivity.
Qed.
Lemma verify_same T C E W q a : fst (verify_told T C E W q a) = cli_verify_cmd C E W q a.
Proof.
  unfold verify_told, cli_verify_cmd, verify_with. destruct a as [|pn [|sn [|fn a]]]; [reflexivity..|].
  match goal with |- fst (match ?X with _ => _ end) = _ => destruct X as [pk|x|x] end; [|reflexivity..]. destruct (read_signature E (slurp W sn)) as [s|x|x]; [|reflexivity..].
  destruct pk as [pk|]; [|reflexivity]. destruct (negb _); [reflexivity|]. destruct (verify_file C pk (map_in W fn) s) as [[]|x|x]; reflexivity.
Qed.
(** main with messages does what main does: all theorems on [main] apply to it *)
Theorem C96_same_outcome : forall T C E W P v1 v2 argv, fst (main_told T C E W P v1 v2 argv) = main C E W P v1 v2 argv.
Proof.
  intros. unfold main_told, main. destruct (fl_main P argv) as [c|o]; [reflexivity|]. destruct (mo_version o); [reflexivity|]. destruct (mo_help o); [reflexivity|].
  destruct (mo_args o) as [|a args]; [reflexivity|]. destruct (abbrev _ _) as [w|]; [|reflexivity]. destruct (find_cmd cmds w) as [c|]; [|reflexivity].
  unfold run_told, run_command. destruct c.
  - destruct (fl_gen P args); [reflexivity|apply generate_same].
  - destruct (fl_sign P args); [reflexivity|apply sign_same].
  - destruct (fl_verify P args) as [c|[q a2]]; [reflexivity|apply verify_same].
  - destruct (fl_enc P args); [reflexivity|apply encrypt_same].
  - destruct (fl_dec P args); [reflexivity|apply decrypt_same].
  - reflexivity.
Qed.
Print Assumptions C96_same_outcome.

(** ** Specification *)
(** [s] is the format [f] with its verbs %s replaced by the values in turn; there are as many values as verbs, and no other verbs *)
Inductive filled : bytes -> list bytes -> bytes -> Prop :=
| Fi_end : filled [] [] []
| Fi_value f args s a : filled f args s -> filled (x25 :: x73 :: f) (a :: args) (a ++ s)
| Fi_literal f args s b : b <> x25 -> filled f args s -> filled (b :: f) args (b :: s).
(** the message of `decrypt --test` *)
Definition file_ok : msg := ("Enc file OK"%string, []).
(** the members of a list that have a property, in order *)
Inductive picks {A} (P : A -> Prop) : list A -> list A -> Prop :=
| Pk_nil : picks P [] []
| Pk_yes x l l' : P x -> picks P l l' -> picks P (x :: l) (x :: l')
| Pk_no x l l' : ~ P x -> picks P l l' -> picks P (x :: l) l'.

(** ** Formats *)
Fixpoint fill_ok (f : bytes) (n : nat) : bool :=
  match f with
  | [] => match n with O => true | _ => false end
  | x25 :: x73 :: f' => match n with S n' => fill_ok f' n' | O => false end
  | x25 :: _ => false
  | _ :: f' => fill_ok f' n
  end.
Lemma fill_cases f n : fill_ok f n = true ->
  (f = [] /\ n = O) \/ (exists f' n', f = x25 :: x73 :: f' /\ n = S n' /\ fill_ok f' n' = true) \/ (exists b f', f = b :: f' /\ b <> x25 /\ fill_ok f' n = true).
Proof.
  destruct f as [|b f]; cbn [fill_ok]; [destruct n; [auto|discriminate]|].
  destruct (Byte.byte_eq_dec b x25) as [-> |N].
  - destruct f as [|c f]; [discriminate|]. destruct (Byte.byte_eq_dec c x73) as [-> |N]; [destruct n as [|n]; [discriminate|]; intros H; right; left; eauto|].
    intros H. exfalso. destruct c; try discriminate H. apply N. reflexivity.
  - intros H. right. right. exists b, f. split; [reflexivity|]. split; [exact N|]. destruct b; try exact H. contradiction.
Qed.
Lemma fill_some : forall k f n, (length f <= k)%nat -> fill_ok f n = true -> forall args, length args = n -> exists s, filled f args s.
Proof.
  induction k as [|k IH]; intros f n Hk H args Ha; (destruct (fill_cases _ _ H) as [[-> ->]|[(f' & n' & -> & -> & H')|(b & f' & -> & N & H')]]).
  1,4: destruct args; [exists []; constructor|discriminate Ha].
  1,2: cbn in Hk; lia.
  - destruct args as [|a args]; [discriminate Ha|]. injection Ha as Ha. cbn in Hk. destruct (IH f' n' ltac:(lia) H' args Ha) as (s & Hs). exists (a ++ s). constructor. exact Hs.
  - cbn in Hk. destruct (IH f' n ltac:(lia) H' args Ha) as (s & Hs). exists (b :: s). constructor; assumption.
Qed.
Lemma sprintf_literal b f args : b <> x25 -> sprintf (b :: f) args = match sprintf f args with Some s => Some (b :: s) | None => None end.
Proof. intros N. destruct b; try reflexivity. contradiction. Qed.
Lemma sprintf_filled f args s : filled f args s -> sprintf f args = Some s.
Proof.
  induction 1 as [|f args s a H IH|f args s b N H IH]; [reflexivity| |].
  - cbn [sprintf]. rewrite IH. reflexivity.
  - rewrite sprintf_literal by exact N. rewrite IH. reflexivity.
Qed.
Lemma filled_prefix p f args s : ~ In x25 p -> filled f args s -> filled (p ++ f) args (p ++ s).
Proof. induction p as [|b p IH]; intros N H; cbn [app]; [exact H|]. constructor; [intros ->; apply N; left; reflexivity|]. apply IH; [intros X; apply N; right; exact X|exact H]. Qed.

(** ** What is said when *)
Definition wf (ms : list msg) : Prop := Forall (fun m => fill_ok (str (fst m)) (length (snd m)) = true) ms.
Definition talk (c : Z) (ms : list msg) : Prop := wf ms /\ (c = 0 -> ms = []) /\ (c = 1 -> ms <> []).
Lemma wf_one f args : fill_ok (str f) (length args) = true -> wf [(f, args)].
Proof. intros H. constructor; [exact H|constructor]. Qed.
Lemma talk_one c f args : fill_ok (str f) (length args) = true -> c <> 0 -> talk c [(f, args)].
Proof. intros H N. split; [apply wf_one; exact H|]. split; [intros X; contradiction|discriminate]. Qed.
Lemma talk_none c : c <> 1 -> talk c [].
Proof. intros N. split; [constructor|]. split; [reflexivity|intros X; contradiction]. Qed.
Lemma talk_err {A} T (r : res A) : talk (code_of r) (die_err T r).
Proof. destruct r; cbn [code_of die_err]; [apply talk_none; discriminate|apply talk_one; [reflexivity|discriminate]|apply talk_none; discriminate]. Qed.
Lemma talk_fail {A} (r : res A) f (args : goerr -> list bytes) n : (forall x, length (args x) = n) -> fill_ok (str f) n = true ->
  talk (code_of r) (match r with Fail x => [(f, args x)] | _ => [] end).
Proof. intros H1 H2. destruct r; cbn [code_of]; [apply talk_none; discriminate|apply talk_one; [rewrite H1; exact H2|discriminate]|apply talk_none; discriminate]. Qed.
Lemma talk_with T W v m outfile tofile force pre body x ms : fill_ok (str pre) 1 = true -> (forall w, let '(c, _, ms) := body w in talk c ms) ->
  with_output_told T W v m outfile tofile force pre body = (x, ms) -> talk (x_code x) ms.
Proof.
  intros Hp H. unfold with_output_told. destruct tofile.
  - destruct (safe_open v (wo_fs W) (wo_place W outfile) force) as [u|e|e].
    + pose proof (H (sf_sink v)) as X. destruct (body (sf_sink v)) as [[c w] ms0]. intros Y. injection Y as <- <-. exact X.
    + intros Y. injection Y as <- <-. apply talk_one; [exact Hp|discriminate].
    + intros Y. injection Y as <- <-. apply talk_none. discriminate.
  - pose proof (H (wo_stdout W)) as X. destruct (body (wo_stdout W)) as [[c w] ms0]. intros Y. injection Y as <- <-. exact X.
Qed.

Lemma generate_talk T C E W v1 v2 o x ms : generate_told T C E W v1 v2 o = (x, ms) -> talk (x_code x) ms.
Proof.
  unfold generate_told. destruct (ge_args o) as [|bn a]; [intros H; injection H as <- <-; apply talk_one; [reflexivity|discriminate]|]. cbv zeta.
  destruct (negb (ge_force o) && _); [intros H; injection H as <- <-; apply talk_one; [reflexivity|discriminate]|].
  destruct (get_pass W (ge_nopw o) (ge_envpw o)) as [pw|e|e]; [|intros H; injection H as <- <-; first [apply (@talk_err bytes T (Fail e))|apply (@talk_err bytes T (Panic e))]..].
  destruct (rand_buf 32 (wo_rng W)) as [seed g].
  destruct (serialize_private C E v1 _ _ _ _ _ _ _) as [[ops1 [u|e|e]] g2]; [|intros H; injection H as <- <-; first [apply (@talk_err unit T (Fail e))|apply (@talk_err unit T (Panic e))]..].
  destruct (serialize_public E v2 _ _ _ _ _) as [ops2 r]. intros H. injection H as <- <-. apply talk_err.
Qed.

(** the complaint about an argument which stands for no key *)
Definition complaint (T : tongue) (C : crypto) (E : ext) (W : world) (fn : bytes) (m : msg) : Prop :=
  (user_name fn /\ exists home, wo_home W = Some home /\ m = ("can't find user %s in %s"%string, [fn; home ++ str "/.ssh/authorized_keys"])) \/
  (~ user_name fn /\ exists e, read_public_key C E (slurp W fn) = Fail e /\ m = ("%s"%string, [tg_text T e])).
Lemma recipients_talk T C E W home pka : wo_home W = Some home -> forall fns e g errs r ms,
  recipients_told T C E W (home ++ str "/.ssh/authorized_keys") pka fns e g errs = (r, ms) ->
  wf ms /\
  match r with
  | Ok (_, _, n) => n = errs + Z.of_nat (length ms) /\
      exists bad, picks (fun fn => forall pk, lookup C E W pka fn <> Ok pk) fns bad /\ Forall2 (complaint T C E W) bad ms
  | Fail _ => ms <> []
  | Panic _ => True
  end.
Proof.
  intros Hh. induction fns as [|fn fns IH]; intros e g errs r ms; cbn [recipients_told].
  { intros H. injection H as <- <-. split; [constructor|]. cbn [length]. split; [lia|]. exists []. split; constructor. }
  assert (A : forall pk, lookup C E W pka fn = Ok pk -> match add_recipient C e pk g with
      | (e0, _, g0, Ok _) => recipients_told T C E W (home ++ str "/.ssh/authorized_keys") pka fns e0 g0 errs
      | (_, _, _, Fail x) => (Fail x, [("%s"%string, [tg_text T x])])
      | (_, _, _, Panic p) => (Panic p, []) end = (r, ms) -> wf ms /\
    match r with
    | Ok (_, _, n) => n = errs + Z.of_nat (length ms) /\
        exists bad, picks (fun fn => forall pk, lookup C E W pka fn <> Ok pk) (fn :: fns) bad /\ Forall2 (complaint T C E W) bad ms
    | Fail _ => ms <> [] | Panic _ => True end).
  { intros pk Hl. destruct (add_recipient C e pk g) as [[[e1 pk1] g1] [u|x|x]].
    - intros H. destruct (IH _ _ _ _ _ H) as [Hw Hr]. split; [exact Hw|]. destruct r as [[[e2 g2] n]|x|x]; [|exact Hr..]. destruct Hr as (Hn & bad & Hb & Hf).
      split; [exact Hn|]. exists bad. split; [|exact Hf]. apply Pk_no; [intros X; exact (X pk Hl)|exact Hb].
    - intros H. injection H as <- <-. split; [apply wf_one; reflexivity|discriminate].
    - intros H. injection H as <- <-. split; [constructor|exact I]. }
  destruct (recipients_told T C E W (home ++ str "/.ssh/authorized_keys") pka fns e g (errs + 1)) as [r1 ms1] eqn:E1. destruct (IH _ _ _ _ _ E1) as [Hw1 Hr1].
  assert (S : forall m, fill_ok (str (fst m)) (length (snd m)) = true -> complaint T C E W fn m -> (forall pk, lookup C E W pka fn <> Ok pk) -> (r1, m :: ms1) = (r, ms) -> wf ms /\
    match r with
    | Ok (_, _, n) => n = errs + Z.of_nat (length ms) /\
        exists bad, picks (fun fn => forall pk, lookup C E W pka fn <> Ok pk) (fn :: fns) bad /\ Forall2 (complaint T C E W) bad ms
    | Fail _ => ms <> [] | Panic _ => True end).
  { intros m Hm Hc Hl H. injection H as <- <-. split; [constructor; assumption|]. destruct r1 as [[[e2 g2] n]|x|x]; [|discriminate|exact I]. destruct Hr1 as (Hn & bad & Hb & Hf).
    split; [cbn [length]; lia|]. exists (fn :: bad). split; [apply Pk_yes; assumption|constructor; assumption]. }
  assert (L : lookup C E W pka fn = if is_user fn then match keymap_get pka fn None with Some pk => Ok pk | None => Fail (EMsg "can't find user %s in %s") end
    else read_public_key C E (slurp W fn)) by reflexivity.
  destruct (is_user fn) eqn:U.
  - destruct (keymap_get pka fn None) as [pk|]; [apply A; exact L|]. apply S; [reflexivity| |intros pk X; congruence].
    left. split; [apply is_user_iff; exact U|]. exists home. auto.
  - assert (N : ~ user_name fn) by (intros X; apply is_user_iff in X; congruence).
    destruct (read_public_key C E (slurp W fn)) as [pk|x|x] eqn:Er; [apply A; exact L| |intros H; injection H as <- <-; split; [constructor|exact I]].
    apply S; [reflexivity| |intros pk X; congruence]. right. split; [exact N|]. exists x. auto.
Qed.
Lemma wf_app a b : wf a -> wf b -> wf (a ++ b).
Proof. intros. apply Forall_app. auto. Qed.
Lemma enc_body_talk T C E W home pka sk blk fns rd w c w2 ms : wo_home W = Some home ->
  enc_body_told T C E W (home ++ str "/.ssh/authorized_keys") pka sk blk fns rd w = (c, w2, ms) -> talk c ms.
Proof.
  intros Hh. unfold enc_body_told. destruct (new_encryptor C sk blk (wo_rng W)) as [[e|x|x] g];
    [|intros H; injection H as <- <- <-; first [apply (@talk_err unit T (Fail x))|apply (@talk_err unit T (Panic x))]..].
  destruct (recipients_told T C E W (home ++ str "/.ssh/authorized_keys") pka fns e g 0) as [r ms0] eqn:Er. destruct (recipients_talk _ _ _ _ _ _ Hh _ _ _ _ _ _ Er) as [Hw Hr].
  destruct r as [[[e1 g1] n]|x|x].
  - destruct Hr as (Hn & _). destruct (Z.ltb_spec 0 n) as [Hp|Hp].
    + intros H. injection H as <- <- <-. split; [apply wf_app; [exact Hw|apply wf_one; reflexivity]|]. split; [discriminate|]. intros _ X. apply app_eq_nil in X. destruct X as [_ X]. discriminate X.
    + assert (ms0 = []) as -> by (destruct ms0; [reflexivity|cbn [length] in Hn; lia]). cbn [app].
      destruct (encrypt C e1 rd w g1) as [[[[a b] w3] d] r3]. intros H. assert (X : c = code_of r3 /\ ms = die_err T r3) by (destruct r3; injection H as <- <- <-; auto).
      destruct X as [-> ->]. apply talk_err.
  - intros H. injection H as <- <- <-. split; [exact Hw|]. split; [discriminate|]. intros _. exact Hr.
  - intros H. injection H as <- <- <-. split; [exact Hw|]. split; discriminate.
Qed.
Lemma encrypt_talk T C E W v o x ms : encrypt_told T C E W v o = (x, ms) -> talk (x_code x) ms.
Proof.
  unfold encrypt_told. destruct (wo_size W (eo_size o)) as [blk|y|y]; [|intros H; injection H as <- <-; first [apply (@talk_err unit T (Fail y))|apply (@talk_err unit T (Panic y))]..].
  destruct (if 0 <? len (eo_keyfile o) then _ else _) as [sk|y|y]; [|intros H; injection H as <- <-; first [apply (@talk_err unit T (Fail y))|apply (@talk_err unit T (Panic y))]..].
  destruct (len (eo_args o) <? 2); [intros H; injection H as <- <-; apply talk_one; [reflexivity|discriminate]|]. cbv zeta.
  destruct (if beq _ _ then _ else _) as [rd|y|y]; [|intros H; injection H as <- <-; first [apply talk_one; [reflexivity|discriminate]|apply talk_none; discriminate]..].
  destruct (wo_home W) as [home|] eqn:Hh; [|intros H; injection H as <- <-; apply talk_one; [reflexivity|discriminate]].
  assert (G : forall pka, with_output_told T W v (oct 6 0 0) (eo_outfile o) (names_file (eo_outfile o)) (eo_force o) "%s"
              (enc_body_told T C E W (home ++ str "/.ssh/authorized_keys") pka sk blk (removelast (eo_args o)) rd) = (x, ms) -> talk (x_code x) ms).
  { intros pka. apply talk_with; [reflexivity|]. intros w. destruct (enc_body_told _ _ _ _ _ _ _ _ _ _ _) as [[c w2] ms0] eqn:Eb. eapply enc_body_talk; eassumption. }
  assert (P : forall a, match parse_authorized_keys C a with
     | Panic _ => (mkOut 2 [] (wo_stdout W), [])
     | r => with_output_told T W v (oct 6 0 0) (eo_outfile o) (names_file (eo_outfile o)) (eo_force o) "%s"
              (enc_body_told T C E W (home ++ str "/.ssh/authorized_keys") (match r with Ok pka => pka | _ => [] end) sk blk (removelast (eo_args o)) rd) end = (x, ms) -> talk (x_code x) ms).
  { intros a. destruct (parse_authorized_keys C a); [apply G..|]. intros H. injection H as <- <-. apply talk_none. discriminate. }
  destruct (slurp W (home ++ str "/.ssh/authorized_keys")) as [a|y|y]; [apply P| |intros H; injection H as <- <-; apply talk_none; discriminate].
  destruct (not_exist y); [apply P|]. intros H. injection H as <- <-. apply talk_one; [reflexivity|discriminate].
Qed.
Lemma sign_talk T C E W v o x ms : sign_told T C E W v o = (x, ms) -> talk (x_code x) ms.
Proof.
  unfold sign_told. destruct (so_args o) as [|kn [|fn a]]; [intros H; injection H as <- <-; apply talk_one; [reflexivity|discriminate]..|].
  apply talk_with; [reflexivity|]. intros w. unfold sign_body_told.
  destruct (read_private_key C E (slurp W kn) _) as [sk|y|y]; [|apply (@talk_err unit T (Fail y))|apply (@talk_err unit T (Panic y))].
  destruct (sign_file C sk (map_in W fn)) as [s|y|y]; [|apply (@talk_err unit T (Fail y))|apply (@talk_err unit T (Panic y))].
  destruct (fullwrite _ w) as [r w2]. apply talk_none. discriminate.
Qed.
(** no "Missing sender Public Key" *)
Lemma never_missing C d0 rd rd' sk d sk' : new_decryptor C rd = (Ok d0, rd') -> set_private_key C d0 sk None = (d, sk', Ok tt) -> authenticated_sender d = false.
Proof.
  intros Hn Hs. assert (H0 : d_auth d0 = false). { destruct (new_decryptor_any _ _ _ _ Hn) as (_ & h & ck & -> & _). reflexivity. }
  unfold set_private_key in Hs. destruct (find_key C _ _ sk) as [[key|x|x] sk1]; [|discriminate Hs..]. cbv zeta in Hs.
  destruct (verify_sender C (d_hdr d0) key None) as [sg|x|x] eqn:Ev; [|discriminate Hs..].
  assert (sg = false) as ->. { unfold verify_sender in Ev. destruct (wrapf _ _) as [ae|y|y]; cbn [bind] in Ev; [|discriminate Ev..]. destruct (gcm_open C ae _ _ []); [|discriminate Ev]. destruct (beq _ _); [congruence|discriminate Ev]. }
  destruct (new_gcm _); [|discriminate Hs..]. injection Hs as <- _. cbn. rewrite H0. reflexivity.
Qed.
Definition talk_test (test : bool) (c : Z) (ms : list msg) : Prop := wf ms /\ (c = 0 -> ms = if test then [file_ok] else []) /\ (c = 1 -> ms <> []) /\ (c <> 0 -> ~ In file_ok ms).
Lemma talk_talk t c ms : c <> 0 -> talk c ms -> ~ In file_ok ms -> talk_test t c ms.
Proof. intros N (H1 & H2 & H3) H4. split; [exact H1|]. split; [intros X; contradiction|]. auto. Qed.
Lemma err_not_ok {A} T (r : res A) : ~ In file_ok (die_err T r).
Proof. destruct r; cbn; [tauto|intros [X|[]]; discriminate X|tauto]. Qed.
Lemma dec_body_talk T C sk pk infile test rd w c w2 ms : dec_body_told T C sk pk infile test rd w = (c, w2, ms) -> talk_test test c ms.
Proof.
  unfold dec_body_told. destruct (new_decryptor C rd) as [[d|x|x] rd'] eqn:En;
    [|intros H; injection H as <- <- <-; apply talk_talk; [discriminate|apply (@talk_err unit T (Fail x))|apply (@err_not_ok unit T (Fail x))]
     |intros H; injection H as <- <- <-; apply talk_talk; [discriminate|apply (@talk_err unit T (Panic x))|apply (@err_not_ok unit T (Panic x))]].
  destruct (set_private_key C d sk pk) as [[d1 sk1] [[]|x|x]] eqn:Es;
    [|intros H; injection H as <- <- <-; apply talk_talk; [discriminate|apply (@talk_err unit T (Fail x))|apply (@err_not_ok unit T (Fail x))]
     |intros H; injection H as <- <- <-; apply talk_talk; [discriminate|apply (@talk_err unit T (Panic x))|apply (@err_not_ok unit T (Panic x))]].
  assert (HM : (match pk with
      | None => if authenticated_sender d1 then [("%s: Missing sender Public Key; can't authenticate sender .."%string,
                  [if (len infile =? 0) || beq infile (str "-") then str "<stdin>" else infile])] else []
      | Some _ => [] end) = []).
  { destruct pk as [pk|]; [reflexivity|]. rewrite (never_missing _ _ _ _ _ _ _ En Es). reflexivity. }
  cbv zeta. rewrite HM. cbn [app]. destruct (decrypt C d1 w) as [[d2 w3] [u|x|x]]; intros H; injection H as <- <- <-.
  - split; [destruct test; [apply wf_one; reflexivity|constructor]|]. split; [reflexivity|]. split; [discriminate|intros X; contradiction].
  - apply talk_talk; [discriminate|apply (@talk_err unit T (Fail x))|apply (@err_not_ok unit T (Fail x))].
  - apply talk_talk; [discriminate|apply (@talk_err unit T (Panic x))|apply (@err_not_ok unit T (Panic x))].
Qed.
Lemma decrypt_talk T C E W v o x ms : decrypt_told T C E W v o = (x, ms) -> talk_test (do_test o) (x_code x) ms.
Proof.
  assert (One : forall f args, fill_ok (str f) (length args) = true -> f <> "Enc file OK"%string -> talk_test (do_test o) 1 [(f, args)]).
  { intros f args H N. apply talk_talk; [discriminate|apply talk_one; [exact H|discriminate]|]. intros [X|[]]. injection X as X _. contradiction. }
  assert (None_ : talk_test (do_test o) 2 []). { apply talk_talk; [discriminate|apply talk_none; discriminate|intros []]. }
  unfold decrypt_told. destruct (do_args o) as [|kf more]; [intros H; injection H as <- <-; apply One; [reflexivity|discriminate]|].
  destruct (read_private_key C E (slurp W kf) _) as [sk|y|y]; [|intros H; injection H as <- <-; first [apply One; [reflexivity|discriminate]|exact None_]..].
  destruct (if 0 <? len (do_pubkey o) then _ else _) as [pk|y|y]; [|intros H; injection H as <- <-; first [apply One; [reflexivity|discriminate]|exact None_]..]. cbv zeta.
  match goal with |- (match ?X with _ => _ end) = _ -> _ => destruct X as [rd|y|y] end; [|intros H; injection H as <- <-; first [apply One; [reflexivity|discriminate]|exact None_]..].
  destruct (do_test o) eqn:Et.
  - destruct (dec_body_told _ _ _ _ _ _ _ _) as [[c w] ms0] eqn:Eb. intros H. injection H as <- <-. eapply dec_body_talk. exact Eb.
  - unfold with_output_told. destruct (names_file (do_outfile o)).
    + destruct (safe_open v (wo_fs W) (wo_place W (do_outfile o)) (do_force o)) as [u|y|y]; [|intros H; injection H as <- <-; first [apply One; [reflexivity|discriminate]|exact None_]..].
      destruct (dec_body_told _ _ _ _ _ _ _ _) as [[c w] ms0] eqn:Eb. intros H. injection H as <- <-. eapply dec_body_talk. exact Eb.
    + destruct (dec_body_told _ _ _ _ _ _ _ _) as [[c w] ms0] eqn:Eb. intros H. injection H as <- <-. eapply dec_body_talk. exact Eb.
Qed.
(** the verdict of verify *)
Definition verdict (W : world) (quiet : bool) (a : list bytes) (ok : bool) (x : outcome) : Prop :=
  exists pn sn fn rest, a = pn :: sn :: fn :: rest /\
    x_stdout x = if quiet then wo_stdout W else snd (fullwrite (fn ++ str ": Signature " ++ sn ++ (if ok then str " verified" else str " verification failure") ++ [x0a]) (wo_stdout W)).
Lemma verify_talk T C E W q a x ms : verify_told T C E W q a = (x, ms) ->
  talk (x_code x) ms \/ (ms = [] /\ (x_code x = 0 /\ verdict W q a true x \/ x_code x = 1 /\ verdict W q a false x)).
Proof.
  unfold verify_told. destruct a as [|pn [|sn [|fn a]]]; [intros H; injection H as <- <-; left; apply talk_one; [reflexivity|discriminate]..|].
  match goal with |- (match ?X with _ => _ end) = _ -> _ => destruct X as [pk|y|y] end;
    [|intros H; injection H as <- <-; left; first [apply (@talk_err unit T (Fail y))|apply (@talk_err unit T (Panic y))]..].
  destruct (read_signature E (slurp W sn)) as [s|y|y]; [|intros H; injection H as <- <-; left; first [apply talk_one; [reflexivity|discriminate]|apply talk_none; discriminate]..].
  destruct pk as [pk|]; [|intros H; injection H as <- <-; left; apply talk_none; discriminate].
  destruct (negb _); [intros H; injection H as <- <-; left; apply talk_one; [reflexivity|discriminate]|].
  destruct (verify_file C pk (map_in W fn) s) as [ok|y|y]; [|intros H; injection H as <- <-; left; first [apply (@talk_err unit T (Fail y))|apply (@talk_err unit T (Panic y))]..].
  intros H. injection H as <- <-. right. split; [reflexivity|]. destruct ok; [left|right]; (split; [reflexivity|]); exists pn, sn, fn, a; split; reflexivity.
Qed.

Lemma encrypt_too_many T C E W v o x ms fore : encrypt_told T C E W v o = (x, ms) -> ms = fore ++ [("Too many errors!"%string, [])] ->
  x_code x = 1 /\ exists bad, bad <> [] /\ picks (fun fn => forall pk, ~ recipient C E W fn pk) (removelast (eo_args o)) bad /\ Forall2 (complaint T C E W) bad fore.
Proof.
  intros H Hms.
  assert (Z1 : forall f args, f <> "Too many errors!"%string -> ms <> [(f, args)]).
  { intros f args N X. rewrite X in Hms. destruct fore as [|y [|z l]]; cbn in Hms; [injection Hms as Y _; contradiction|discriminate..]. }
  assert (Z0 : ms <> []) by (rewrite Hms; intros X; apply app_eq_nil in X; destruct X; discriminate).
  assert (Ze : forall {A} (r : res A), ms <> die_err T r) by (intros A [a|e|e]; cbn; [exact Z0|apply Z1; discriminate|exact Z0]).
  revert H. unfold encrypt_told. destruct (wo_size W (eo_size o)) as [blk|y|y]; [|intros H; injection H as _ <-; exfalso; first [apply Z0; reflexivity|eapply Z1; [|reflexivity]; discriminate]..].
  destruct (if 0 <? len (eo_keyfile o) then _ else _) as [sk|y|y]; [|intros H; injection H as _ <-; exfalso; first [apply Z0; reflexivity|eapply Z1; [|reflexivity]; discriminate]..].
  destruct (len (eo_args o) <? 2); [intros H; injection H as _ <-; exfalso; eapply Z1; [|reflexivity]; discriminate|]. cbv zeta.
  destruct (if beq _ _ then _ else _) as [rd|y|y]; [|intros H; injection H as _ <-; exfalso; first [apply Z0; reflexivity|eapply Z1; [|reflexivity]; discriminate]..].
  destruct (wo_home W) as [home|] eqn:Hh; [|intros H; injection H as _ <-; exfalso; eapply Z1; [|reflexivity]; discriminate].
  assert (B : forall pka w c w2 ms0, authorized C W pka -> enc_body_told T C E W (home ++ str "/.ssh/authorized_keys") pka sk blk (removelast (eo_args o)) rd w = (c, w2, ms0) -> ms0 = ms ->
    c = 1 /\ exists bad, bad <> [] /\ picks (fun fn => forall pk, ~ recipient C E W fn pk) (removelast (eo_args o)) bad /\ Forall2 (complaint T C E W) bad fore).
  { intros pka w c w2 ms0 Ha Hb Hm. subst ms0. revert Hb. unfold enc_body_told. destruct (new_encryptor C sk blk (wo_rng W)) as [[e|y|y] g];
      [|intros H; injection H as _ _ <-; exfalso; first [apply Z0; reflexivity|eapply Z1; [|reflexivity]; discriminate]..].
    destruct (recipients_told T C E W (home ++ str "/.ssh/authorized_keys") pka (removelast (eo_args o)) e g 0) as [r ms1] eqn:Er.
    pose proof (recipients_talk _ _ _ _ _ _ Hh _ _ _ _ _ _ Er) as [Hw Hr]. destruct r as [[[e1 g1] n]|y|y].
    - destruct Hr as (Hn & bad & Hp & Hf). destruct (Z.ltb_spec 0 n) as [L|L].
      + intros H. injection H as <- _ E1. split; [reflexivity|]. rewrite Hms in E1. apply app_inj_tail in E1. destruct E1 as [-> _]. exists bad. split; [|split; [|exact Hf]].
        * intros ->. inversion Hf; subst. cbn in L. lia.
        * clear - Hp Ha. induction Hp as [|fn l l' H1 H2 IH|fn l l' H1 H2 IH]; [constructor| |].
          -- apply Pk_yes; [|exact IH]. intros pk X. apply (H1 pk). apply lookup_ok; assumption.
          -- apply Pk_no; [|exact IH]. intros X. apply H1. intros pk Y. apply (X pk). apply lookup_ok in Y; assumption.
      + assert (ms1 = []) as -> by (destruct ms1; [reflexivity|cbn [length] in Hn; lia]). cbn [app].
        destruct (encrypt C e1 rd w g1) as [[[[a b] w3] d] r3]. intros H. exfalso. assert (X : ms = die_err T r3) by (destruct r3; injection H as _ _ <-; reflexivity). exact (Ze _ _ X).
    - intros H. injection H as _ _ E1. exfalso. revert E1. clear Hw Hr. revert Er. generalize (removelast (eo_args o)) e g 0. intros fns. revert ms1.
      assert (Q : forall ms1 e g n, recipients_told T C E W (home ++ str "/.ssh/authorized_keys") pka fns e g n = (Fail y, ms1) -> exists l args, ms1 = l ++ [("%s"%string, args)]).
      { induction fns as [|fn fns IH]; intros ms2 e2 g2 n; cbn [recipients_told]; [discriminate|].
        assert (Ad : forall pk, match add_recipient C e2 pk g2 with
            | (e0, _, g0, Ok _) => recipients_told T C E W (home ++ str "/.ssh/authorized_keys") pka fns e0 g0 n
            | (_, _, _, Fail x) => (Fail x, [("%s"%string, [tg_text T x])])
            | (_, _, _, Panic p) => (Panic p, []) end = (Fail y, ms2) -> exists l args, ms2 = l ++ [("%s"%string, args)]).
        { intros pk. destruct (add_recipient C e2 pk g2) as [[[e3 pk3] g3] [u|z|z]]; [apply IH|intros H; injection H as _ <-; exists [], [tg_text T z]; reflexivity|discriminate]. }
        destruct (recipients_told T C E W (home ++ str "/.ssh/authorized_keys") pka fns e2 g2 (n + 1)) as [r1 ms1] eqn:E1.
        assert (Sk : forall m, (r1, m :: ms1) = (@Fail (encryptor * rng * Z) y, ms2) -> exists l args, ms2 = l ++ [("%s"%string, args)]).
        { intros m H. injection H as -> <-. destruct (IH _ _ _ _ E1) as (l & args & ->). exists (m :: l), args. reflexivity. }
        destruct (is_user fn); [destruct (keymap_get pka fn None) as [pk|]; [apply Ad|apply Sk]|]. destruct (read_public_key C E (slurp W fn)) as [pk|z|z]; [apply Ad|apply Sk|discriminate]. }
      intros ms1 e2 g2 n Hq. destruct (Q _ _ _ _ Hq) as (l & args & ->). rewrite Hms. intros X. apply app_inj_tail in X. destruct X as [_ X]. discriminate X.
    - intros H. injection H as _ _ E1. exfalso. revert E1. clear Hw Hr. revert Er. generalize (removelast (eo_args o)) e g 0. intros fns. revert ms1.
      assert (Q : forall ms1 e g n, recipients_told T C E W (home ++ str "/.ssh/authorized_keys") pka fns e g n = (Panic y, ms1) -> Forall (fun m => fst m <> "Too many errors!"%string) ms1).
      { induction fns as [|fn fns IH]; intros ms2 e2 g2 n; cbn [recipients_told]; [discriminate|].
        assert (Ad : forall pk, match add_recipient C e2 pk g2 with
            | (e0, _, g0, Ok _) => recipients_told T C E W (home ++ str "/.ssh/authorized_keys") pka fns e0 g0 n
            | (_, _, _, Fail x) => (Fail x, [("%s"%string, [tg_text T x])])
            | (_, _, _, Panic p) => (Panic p, []) end = (Panic y, ms2) -> Forall (fun m => fst m <> "Too many errors!"%string) ms2).
        { intros pk. destruct (add_recipient C e2 pk g2) as [[[e3 pk3] g3] [u|z|z]]; [apply IH|discriminate|intros H; injection H as _ <-; constructor]. }
        destruct (recipients_told T C E W (home ++ str "/.ssh/authorized_keys") pka fns e2 g2 (n + 1)) as [r1 ms1] eqn:E1.
        assert (Sk : forall m, fst m <> "Too many errors!"%string -> (r1, m :: ms1) = (@Panic (encryptor * rng * Z) y, ms2) -> Forall (fun m => fst m <> "Too many errors!"%string) ms2).
        { intros m Hm H. injection H as -> <-. constructor; [exact Hm|]. exact (IH _ _ _ _ E1). }
        destruct (is_user fn); [destruct (keymap_get pka fn None) as [pk|]; [apply Ad|apply Sk; discriminate]|].
        destruct (read_public_key C E (slurp W fn)) as [pk|z|z]; [apply Ad|apply Sk; discriminate|intros H; injection H as _ <-; constructor]. }
      intros ms1 e2 g2 n Hq Hx. pose proof (Q _ _ _ _ Hq) as F. rewrite Hx, Hms in F. apply Forall_app in F. destruct F as [_ F]. inversion F as [|? ? X _]. apply X. reflexivity. }
  assert (G : forall pka, authorized C W pka -> with_output_told T W v (oct 6 0 0) (eo_outfile o) (names_file (eo_outfile o)) (eo_force o) "%s"
              (enc_body_told T C E W (home ++ str "/.ssh/authorized_keys") pka sk blk (removelast (eo_args o)) rd) = (x, ms) ->
     x_code x = 1 /\ exists bad, bad <> [] /\ picks (fun fn => forall pk, ~ recipient C E W fn pk) (removelast (eo_args o)) bad /\ Forall2 (complaint T C E W) bad fore).
  { intros pka Ha. unfold with_output_told. destruct (names_file (eo_outfile o)).
    - destruct (safe_open v (wo_fs W) (wo_place W (eo_outfile o)) (eo_force o)) as [u|y|y]; [|intros H; injection H as _ <-; exfalso; first [apply Z0; reflexivity|eapply Z1; [|reflexivity]; discriminate]..].
      destruct (enc_body_told _ _ _ _ _ _ _ _ _ _ _) as [[c w2] ms0] eqn:Eb. intros H. injection H as <- E0. exact (B _ _ _ _ _ Ha Eb E0).
    - destruct (enc_body_told _ _ _ _ _ _ _ _ _ _ _) as [[c w2] ms0] eqn:Eb. intros H. injection H as <- E0. exact (B _ _ _ _ _ Ha Eb E0). }
  destruct (slurp W (home ++ str "/.ssh/authorized_keys")) as [a|y|y] eqn:Ea.
  - destruct (parse_auth_total C a) as (ks & P). rewrite P. apply G. exists home. split; [exact Hh|]. cbv zeta. right. exists a. split; [apply slurp_ok; exact Ea|exact P].
  - destruct (not_exist y) eqn:Ny.
    + change (parse_authorized_keys C []) with (Ok (A := list pubkey) []). apply G. exists home. split; [exact Hh|]. cbv zeta. left. split; [|reflexivity].
      assert (y = enoent) as -> by (destruct y; try discriminate Ny; destruct n as [|[p|[p|p|]|]|]; try discriminate Ny; reflexivity).
      unfold slurp, read_file in Ea. unfold no_file. destruct (content _ _); [|left; reflexivity]. destruct (wo_refused W _) as [e|]; [|discriminate Ea]. right. congruence.
    + intros H. injection H as _ <-. exfalso. eapply Z1; [|reflexivity]. discriminate.
  - exfalso. exact (slurp_nopanic _ _ _ Ea).
Qed.

(** ** C96 *)
(** Exit status 0: nothing was said, except "Enc file OK" by a decrypt --test; and "Enc file OK" is said only with exit status 0. *)
Theorem C96_success_is_silent : forall T C E W,
  (forall v1 v2 o x ms, generate_told T C E W v1 v2 o = (x, ms) -> x_code x = 0 -> ms = []) /\
  (forall v o x ms, sign_told T C E W v o = (x, ms) -> x_code x = 0 -> ms = []) /\
  (forall q a x ms, verify_told T C E W q a = (x, ms) -> x_code x = 0 -> ms = []) /\
  (forall v o x ms, encrypt_told T C E W v o = (x, ms) -> x_code x = 0 -> ms = []) /\
  (forall v o x ms, decrypt_told T C E W v o = (x, ms) ->
     (x_code x = 0 -> ms = if do_test o then [file_ok] else []) /\ (x_code x <> 0 -> ~ In file_ok ms)) /\
  (forall P v1 v2 argv x ms, main_told T C E W P v1 v2 argv = (x, ms) -> x_code x = 0 -> ms = [] \/ ms = [file_ok]).
Proof.
  intros T C E W.
  assert (HG : forall v1 v2 o x ms, generate_told T C E W v1 v2 o = (x, ms) -> x_code x = 0 -> ms = []) by (intros v1 v2 o x ms H; apply (generate_talk _ _ _ _ _ _ _ _ _ H)).
  assert (HS : forall v o x ms, sign_told T C E W v o = (x, ms) -> x_code x = 0 -> ms = []) by (intros v o x ms H; apply (sign_talk _ _ _ _ _ _ _ _ H)).
  assert (HV : forall q a x ms, verify_told T C E W q a = (x, ms) -> x_code x = 0 -> ms = []).
  { intros q a x ms H. destruct (verify_talk _ _ _ _ _ _ _ _ H) as [X|[X _]]; [apply X|intros _; exact X]. }
  assert (HE : forall v o x ms, encrypt_told T C E W v o = (x, ms) -> x_code x = 0 -> ms = []) by (intros v o x ms H; apply (encrypt_talk _ _ _ _ _ _ _ _ H)).
  assert (HD : forall v o x ms, decrypt_told T C E W v o = (x, ms) -> (x_code x = 0 -> ms = if do_test o then [file_ok] else []) /\ (x_code x <> 0 -> ~ In file_ok ms)).
  { intros v o x ms H. destruct (decrypt_talk _ _ _ _ _ _ _ _ H) as (_ & A & _ & B). auto. }
  split; [exact HG|]. split; [exact HS|]. split; [exact HV|]. split; [exact HE|]. split; [exact HD|].
  intros P v1 v2 argv x ms. unfold main_told. destruct (fl_main P argv) as [c|o]; [intros H _; injection H as _ <-; auto|]. destruct (mo_version o); [intros H _; injection H as _ <-; auto|].
  destruct (mo_help o); [intros H _; injection H as _ <-; auto|]. destruct (mo_args o) as [|a args]; [intros H; injection H as <- <-; discriminate|].
  destruct (abbrev _ _) as [w|]; [|intros H; injection H as <- <-; discriminate]. destruct (find_cmd cmds w) as [c|]; [|intros H; injection H as <- <-; discriminate].
  unfold run_told. destruct c.
  - destruct (fl_gen P args); [intros H _; injection H as _ <-; auto|intros H Hc; left; eapply HG; eassumption].
  - destruct (fl_sign P args); [intros H _; injection H as _ <-; auto|intros H Hc; left; eapply HS; eassumption].
  - destruct (fl_verify P args) as [c|[q a2]]; [intros H _; injection H as _ <-; auto|intros H Hc; left; eapply HV; eassumption].
  - destruct (fl_enc P args); [intros H _; injection H as _ <-; auto|intros H Hc; left; eapply HE; eassumption].
  - destruct (fl_dec P args) as [c|d]; [intros H _; injection H as _ <-; auto|intros H Hc; destruct (HD _ _ _ _ H) as [A _]; rewrite (A Hc); destruct (do_test d); auto].
  - intros H _. injection H as _ <-. auto.
Qed.
Print Assumptions C96_success_is_silent.

(** Exit status 1: something was said, or the command was verify and its verdict - on standard output unless --quiet - is a failure. *)
Theorem C96_failure_is_reported : forall T C E W v1 v2 argv x ms,
  main_told T C E W declared v1 v2 argv = (x, ms) -> x_code x = 1 ->
  ms <> [] \/ exists o word args quiet a, fl_main declared argv = Options o /\ mo_args o = word :: args /\
    abbrev (map fst cmds) (to_lower word) = Some (str "verify") /\ fl_verify declared args = Options (quiet, a) /\ verdict W quiet a false x.
Proof.
  intros T C E W v1 v2 argv x ms.
  assert (Qm : forall c, fl_main declared argv = Quit c -> c <> 1) by (intros c; cbn [declared fl_main]; unfold ended; destruct (parse_args _ _ _); intros H; try discriminate H; injection H as <-; assumption || discriminate).
  assert (Qg : forall a c, fl_gen declared a = Quit c -> c <> 1) by (intros a c; cbn [declared fl_gen]; unfold ended; destruct (parse_args _ _ _); [| |destruct (get_bool _ _ _)]; intros H; try discriminate H; injection H as <-; assumption || discriminate).
  assert (Qs : forall a c, fl_sign declared a = Quit c -> c <> 1) by (intros a c; cbn [declared fl_sign]; unfold ended; destruct (parse_args _ _ _); [| |destruct (get_bool _ _ _)]; intros H; try discriminate H; injection H as <-; assumption || discriminate).
  assert (Qv : forall a c, fl_verify declared a = Quit c -> c <> 1) by (intros a c; cbn [declared fl_verify]; unfold ended; destruct (parse_args _ _ _); [| |destruct (get_bool _ _ _)]; intros H; try discriminate H; injection H as <-; assumption || discriminate).
  assert (Qe : forall a c, fl_enc declared a = Quit c -> c <> 1) by (intros a c; cbn [declared fl_enc]; unfold ended; destruct (parse_args _ _ _); intros H; try discriminate H; injection H as <-; assumption || discriminate).
  assert (Qd : forall a c, fl_dec declared a = Quit c -> c <> 1) by (intros a c; cbn [declared fl_dec]; unfold ended; destruct (parse_args _ _ _); intros H; try discriminate H; injection H as <-; assumption || discriminate).
  unfold main_told. destruct (fl_main declared argv) as [c|o] eqn:Em; [intros H Hc; injection H as <- <-; exfalso; exact (Qm _ eq_refl Hc)|].
  destruct (mo_version o); [intros H; injection H as <- <-; discriminate|]. destruct (mo_help o); [intros H; injection H as <- <-; discriminate|].
  destruct (mo_args o) as [|a args] eqn:Ea; [intros H _; injection H as <- <-; left; discriminate|].
  destruct (abbrev _ _) as [w|] eqn:Ew; [|intros H _; injection H as <- <-; left; discriminate]. destruct (find_cmd cmds w) as [c|] eqn:Ec; [|intros H _; injection H as <- <-; left; discriminate].
  unfold run_told. destruct c.
  - destruct (fl_gen declared args) eqn:Ef; [intros H Hc; injection H as <- <-; exfalso; exact (Qg _ _ Ef Hc)|intros H Hc; left; apply (generate_talk _ _ _ _ _ _ _ _ _ H); exact Hc].
  - destruct (fl_sign declared args) eqn:Ef; [intros H Hc; injection H as <- <-; exfalso; exact (Qs _ _ Ef Hc)|intros H Hc; left; apply (sign_talk _ _ _ _ _ _ _ _ H); exact Hc].
  - destruct (fl_verify declared args) as [c|[q a2]] eqn:Ef; [intros H Hc; injection H as <- <-; exfalso; exact (Qv _ _ Ef Hc)|].
    intros H Hc. destruct (verify_talk _ _ _ _ _ _ _ _ H) as [X|[-> [[X _]|[_ X]]]]; [left; apply X; exact Hc|congruence|]. right.
    assert (w = str "verify") as ->. { unfold cmds in Ec. cbn [find_cmd] in Ec. repeat match type of Ec with (if beq ?k w then _ else _) = _ => let B := fresh "B" in destruct (beq k w) eqn:B; [try discriminate Ec; apply beq_eq in B; symmetry; exact B|] end. discriminate Ec. }
    exists o, a, args, q, a2. auto.
  - destruct (fl_enc declared args) eqn:Ef; [intros H Hc; injection H as <- <-; exfalso; exact (Qe _ _ Ef Hc)|intros H Hc; left; apply (encrypt_talk _ _ _ _ _ _ _ _ H); exact Hc].
  - destruct (fl_dec declared args) eqn:Ef; [intros H Hc; injection H as <- <-; exfalso; exact (Qd _ _ Ef Hc)|intros H Hc; left; apply (decrypt_talk _ _ _ _ _ _ _ _ H); exact Hc].
  - intros H. injection H as <- <-. discriminate.
Qed.
Print Assumptions C96_failure_is_reported.

(** encrypt, when it ends with "Too many errors!": each recipient argument that stands for no key was complained about, in order, and nothing else. *)
Theorem C96_every_bad_recipient_named : forall T C E W v o x fore, encrypt_told T C E W v o = (x, fore ++ [("Too many errors!"%string, [])]) ->
  x_code x = 1 /\ exists bad, bad <> [] /\ picks (fun fn => forall pk, ~ recipient C E W fn pk) (removelast (eo_args o)) bad /\ Forall2 (complaint T C E W) bad fore.
Proof. intros T C E W v o x fore H. eapply encrypt_too_many; [exact H|reflexivity]. Qed.
Print Assumptions C96_every_bad_recipient_named.

(** The text: if the name of the program (argv[0]) has no %, each message is the name, ": ", and the format with the values put in, as a line. *)
Lemma main_wf T C E W P v1 v2 argv x ms : main_told T C E W P v1 v2 argv = (x, ms) -> wf ms.
Proof.
  unfold main_told. destruct (fl_main P argv) as [c|o]; [intros H; injection H as _ <-; constructor|]. destruct (mo_version o); [intros H; injection H as _ <-; constructor|].
  destruct (mo_help o); [intros H; injection H as _ <-; constructor|]. destruct (mo_args o) as [|a args]; [intros H; injection H as _ <-; apply wf_one; reflexivity|].
  destruct (abbrev _ _) as [w|]; [|intros H; injection H as _ <-; apply wf_one; reflexivity]. destruct (find_cmd cmds w) as [c|]; [|intros H; injection H as _ <-; apply wf_one; reflexivity].
  unfold run_told. destruct c.
  - destruct (fl_gen P args); [intros H; injection H as _ <-; constructor|intros H; apply (generate_talk _ _ _ _ _ _ _ _ _ H)].
  - destruct (fl_sign P args); [intros H; injection H as _ <-; constructor|intros H; apply (sign_talk _ _ _ _ _ _ _ _ H)].
  - destruct (fl_verify P args) as [c|[q a2]]; [intros H; injection H as _ <-; constructor|intros H; destruct (verify_talk _ _ _ _ _ _ _ _ H) as [X|[-> _]]; [apply X|constructor]].
  - destruct (fl_enc P args); [intros H; injection H as _ <-; constructor|intros H; apply (encrypt_talk _ _ _ _ _ _ _ _ H)].
  - destruct (fl_dec P args); [intros H; injection H as _ <-; constructor|intros H; apply (decrypt_talk _ _ _ _ _ _ _ _ H)].
  - intros H. injection H as _ <-. constructor.
Qed.
Lemma last_app1 {A} (l : list A) a d : last (l ++ [a]) d = a.
Proof. apply last_last. Qed.
Theorem C96_texts : forall T C E W P v1 v2 argv x ms, ~ In x25 (tg_argv0 T) -> main_told T C E W P v1 v2 argv = (x, ms) ->
  Forall (fun m => exists s line, filled (str (fst m)) (snd m) s /\ warn (tg_argv0 T) m = Some line /\
    (line = tg_argv0 T ++ str ": " ++ s ++ [x0a] \/ (exists s', s = s' ++ [x0a]) /\ line = tg_argv0 T ++ str ": " ++ s)) ms.
Proof.
  intros T C E W P v1 v2 argv x ms N H. apply main_wf in H. eapply Forall_impl; [|exact H]. intros [f args] Hf. cbn [fst snd] in *.
  destruct (fill_some _ (str f) (length args) (Nat.le_refl _) Hf args eq_refl) as (s & Hs).
  assert (Hp : filled (tg_argv0 T ++ str ": " ++ str f) args (tg_argv0 T ++ str ": " ++ s)).
  { apply filled_prefix; [exact N|]. apply (filled_prefix (str ": ")); [|exact Hs]. cbn. intros [X|[X|[]]]; discriminate X. }
  unfold warn. cbn [fst snd]. rewrite (sprintf_filled _ _ _ Hp).
  destruct (Byte.eqb (last (tg_argv0 T ++ str ": " ++ s) x00) x0a) eqn:L; eexists s, _; (split; [exact Hs|]); (split; [reflexivity|]).
  - right. split; [|reflexivity]. apply Byte.byte_dec_bl in L. destruct (exists_last (l := s)) as (s' & b & ->).
    + intros ->. rewrite app_nil_r in L. change (str ": ") with ([x3a] ++ [x20]) in L. rewrite app_assoc, last_app1 in L. discriminate L.
    + rewrite !app_assoc, last_app1 in L. subst b. exists s'. reflexivity.
  - left. rewrite <- !app_assoc. reflexivity.
Qed.
Print Assumptions C96_texts.
(** With a % in the name of the program this is not so: the name is part of the format.  A link named 100%s to sigtool, called without
    arguments, writes "100sigtool: Insufficient arguments. Try '%!s(MISSING) -h'" (for path.Base("100%s") read in place of sigtool). *)
Theorem C96_program_name_refuted :
  ~ (forall T C E W P v1 v2 argv x ms, main_told T C E W P v1 v2 argv = (x, ms) ->
     Forall (fun m => exists s line, filled (str (fst m)) (snd m) s /\ warn (tg_argv0 T) m = Some line /\
       exists more, line = tg_argv0 T ++ str ": " ++ s ++ more) ms).
Proof.
  intros H. set (T := mkTongue (str "100%s") (str "100%s") (fun _ => [])).
  specialize (H T toy toyE town declared sf1 sf1 [] (mkOut 1 [] (wo_stdout town)) [("Insufficient arguments. Try '%s -h'"%string, [str "100%s"])] eq_refl).
  inversion H as [|m l (s & line & _ & Hw & more & Hl) _]. subst m l. subst line. vm_compute in Hw. discriminate Hw.
Qed.
Print Assumptions C96_program_name_refuted.

(** decrypt never warns that it could not authenticate the sender of a signed file: it either authenticates the sender or fails (and says so). *)
Theorem C96_no_sender_warning : forall T C E W v o x ms, decrypt_told T C E W v o = (x, ms) ->
  forall args, ~ In ("%s: Missing sender Public Key; can't authenticate sender .."%string, args) ms.
Proof.
  intros T C E W v o x ms H args.
  assert (Er : forall A (r : res A), ~ In ("%s: Missing sender Public Key; can't authenticate sender .."%string, args) (die_err T r)) by (intros A [a|y|y]; cbn; [tauto|intros [X|[]]; discriminate X|tauto]).
  assert (B : forall sk pk infile test rd w c w2 ms0, dec_body_told T C sk pk infile test rd w = (c, w2, ms0) -> ~ In ("%s: Missing sender Public Key; can't authenticate sender .."%string, args) ms0).
  { intros sk pk infile test rd w c w2 ms0. unfold dec_body_told. destruct (new_decryptor C rd) as [[d|y|y] rd'] eqn:En;
      [|intros Hb; injection Hb as _ _ <-; first [apply (Er unit (Fail y))|apply (Er unit (Panic y))]..].
    destruct (set_private_key C d sk pk) as [[d1 sk1] [[]|y|y]] eqn:Es; [|intros Hb; injection Hb as _ _ <-; first [apply (Er unit (Fail y))|apply (Er unit (Panic y))]..].
    assert (HM : (match pk with
      | None => if authenticated_sender d1 then [("%s: Missing sender Public Key; can't authenticate sender .."%string,
                  [if (len infile =? 0) || beq infile (str "-") then str "<stdin>" else infile])] else []
      | Some _ => [] end) = []).
    { destruct pk as [pk|]; [reflexivity|]. rewrite (never_missing _ _ _ _ _ _ _ En Es). reflexivity. }
    cbv zeta. rewrite HM. cbn [app]. destruct (decrypt C d1 w) as [[d2 w3] [u|y|y]]; intros Hb; injection Hb as _ _ <-.
    - destruct test; cbn; [intros [X|[]]; discriminate X|tauto].
    - apply (Er unit (Fail y)).
    - apply (Er unit (Panic y)). }
  revert H. unfold decrypt_told. destruct (do_args o) as [|kf more]; [intros H; injection H as _ <-; intros [X|[]]; discriminate X|].
  destruct (read_private_key C E (slurp W kf) _) as [sk|y|y]; [|intros H; injection H as _ <-; first [apply (Er unit (Fail y))|apply (Er unit (Panic y))]..].
  destruct (if 0 <? len (do_pubkey o) then _ else _) as [pk|y|y]; [|intros H; injection H as _ <-; first [apply (Er unit (Fail y))|apply (Er unit (Panic y))]..]. cbv zeta.
  match goal with |- (match ?X with _ => _ end) = _ -> _ => destruct X as [rd|y|y] end; [|intros H; injection H as _ <-; first [intros [X|[]]; discriminate X|intros []]..].
  destruct (do_test o).
  - destruct (dec_body_told _ _ _ _ _ _ _ _) as [[c w] ms0] eqn:Eb. intros H. injection H as _ <-. eapply B. exact Eb.
  - unfold with_output_told. destruct (names_file (do_outfile o)).
    + destruct (safe_open v (wo_fs W) (wo_place W (do_outfile o)) (do_force o)) as [u|y|y]; [|intros H; injection H as _ <-; first [apply (Er unit (Fail y))|apply (Er unit (Panic y))]..].
      destruct (dec_body_told _ _ _ _ _ _ _ _) as [[c w] ms0] eqn:Eb. intros H. injection H as _ <-. eapply B. exact Eb.
    + destruct (dec_body_told _ _ _ _ _ _ _ _) as [[c w] ms0] eqn:Eb. intros H. injection H as _ <-. eapply B. exact Eb.
Qed.
Print Assumptions C96_no_sender_warning.

(** What the messages say is so: each names the argument that is to blame and gives the error met with it. *)
Inductive verify_says (T : tongue) (C : crypto) (E : ext) (W : world) (pn sn fn : bytes) : msg -> Prop :=
| Vs_key e : (forall r, make_public_from_string C pn <> Ok r) -> read_public_key C E (slurp W pn) = Fail e -> verify_says T C E W pn sn fn ("%s"%string, [tg_text T e])
| Vs_signature e : read_signature E (slurp W sn) = Fail e -> verify_says T C E W pn sn fn ("Can't read signature '%s': %s"%string, [sn; tg_text T e])
| Vs_wrong pk s : key_arg C E W pn pk -> signature_in E W sn s -> is_pk_match s pk = false ->
    verify_says T C E W pn sn fn ("Wrong public key '%s' for verifying '%s'"%string, [pn; sn])
| Vs_file pk s e : key_arg C E W pn pk -> signature_in E W sn s -> is_pk_match s pk = true -> verify_file C pk (map_in W fn) s = Fail e ->
    verify_says T C E W pn sn fn ("%s"%string, [tg_text T e]).
Lemma verify_truthful T C E W q pn sn fn rest x ms : verify_told T C E W q (pn :: sn :: fn :: rest) = (x, ms) -> ms = [] \/ exists m, ms = [m] /\ verify_says T C E W pn sn fn m.
Proof.
  unfold verify_told.
  assert (K : forall r, (match make_public_from_string C pn with Ok r => Ok r | Panic p => Panic p | Fail _ => pk <- read_public_key C E (slurp W pn) ;; Ok (Some pk) end) = r ->
    match r with Ok (Some pk) => key_arg C E W pn pk | Ok None => True | Fail e => (forall r, make_public_from_string C pn <> Ok r) /\ read_public_key C E (slurp W pn) = Fail e | Panic _ => True end).
  { intros r <-. unfold key_arg. destruct (make_public_from_string C pn) as [[pk|]|e|e]; [left; reflexivity|exact I| |exact I].
    destruct (read_public_key C E (slurp W pn)) as [pk|y|y] eqn:R; cbn [bind]; [|split; [discriminate|reflexivity]|exact I]. right. split; [eauto|]. apply public_ok. exact R. }
  match goal with |- (match ?X with _ => _ end) = _ -> _ => specialize (K X eq_refl); destruct X as [pk|e|e] end;
    [|intros H; injection H as _ <-; right; eexists; split; [reflexivity|]; destruct K; apply Vs_key; assumption|intros H; injection H as _ <-; left; reflexivity].
  destruct (read_signature E (slurp W sn)) as [s|e|e] eqn:Rs;
    [|intros H; injection H as _ <-; right; eexists; split; [reflexivity|]; apply Vs_signature; exact Rs|intros H; injection H as _ <-; left; reflexivity].
  assert (Sg : signature_in E W sn s).
  { unfold read_signature in Rs. destruct (slurp W sn) as [b|y|y] eqn:Sl; cbn [bind] in Rs; [|discriminate Rs..]. destruct (unmarshal_signature E zero_sig b) as [s0 [[]|y|y]] eqn:U; [|discriminate Rs..].
    injection Rs as ->. exists b, zero_sig. split; [apply slurp_ok; exact Sl|exact U]. }
  destruct pk as [pk|]; [|intros H; injection H as _ <-; left; reflexivity].
  destruct (is_pk_match s pk) eqn:Mt; cbn [negb]; [|intros H; injection H as _ <-; right; eexists; split; [reflexivity|]; eapply Vs_wrong; eassumption].
  destruct (verify_file C pk (map_in W fn) s) as [ok|e|e] eqn:V;
    [intros H; injection H as _ <-; left; reflexivity|intros H; injection H as _ <-; right; eexists; split; [reflexivity|]; eapply Vs_file; eassumption|intros H; injection H as _ <-; left; reflexivity].
Qed.
Lemma not_fmt (f g : string) (vals a : list bytes) : f <> g -> ~ In (f, vals) [(g, a)].
Proof. intros N [X|[]]. injection X as X _. congruence. Qed.
Lemma die_not {A} T (r : res A) f vals : f <> "%s"%string -> ~ In (f, vals) (die_err T r).
Proof. intros N. destruct r; cbn [die_err]; [intros []|apply not_fmt; exact N|intros []]. Qed.
(** only these formats come from the part of encrypt after its arguments are open *)
Lemma enc_body_formats T C E W ak pka sk blk fns rd w c w2 ms f vals : enc_body_told T C E W ak pka sk blk fns rd w = (c, w2, ms) -> In (f, vals) ms ->
  f = "%s"%string \/ f = "Too many errors!"%string \/ f = "can't find user %s in %s"%string.
Proof.
  assert (D : forall A (r : res A), In (f, vals) (die_err T r) -> f = "%s"%string \/ f = "Too many errors!"%string \/ f = "can't find user %s in %s"%string).
  { intros A [a|e|e] H; cbn in H; [contradiction| |contradiction]. destruct H as [H|[]]. injection H as <- _. auto. }
  unfold enc_body_told. destruct (new_encryptor C sk blk (wo_rng W)) as [[e|x|x] g]; [|intros H; injection H as _ _ <-; first [apply (D unit (Fail x))|apply (D unit (Panic x))]..].
  assert (R : forall fns e g n r ms0, recipients_told T C E W ak pka fns e g n = (r, ms0) -> In (f, vals) ms0 -> f = "%s"%string \/ f = "Too many errors!"%string \/ f = "can't find user %s in %s"%string).
  { clear. induction fns as [|fn fns IH]; intros e g n r ms0; cbn [recipients_told]; [intros H; injection H as _ <-; intros []|].
    assert (Ad : forall pk, match add_recipient C e pk g with
        | (e0, _, g0, Ok _) => recipients_told T C E W ak pka fns e0 g0 n
        | (_, _, _, Fail x) => (Fail x, [("%s"%string, [tg_text T x])])
        | (_, _, _, Panic p) => (Panic p, []) end = (r, ms0) -> In (f, vals) ms0 -> f = "%s"%string \/ f = "Too many errors!"%string \/ f = "can't find user %s in %s"%string).
    { intros pk. destruct (add_recipient C e pk g) as [[[e1 pk1] g1] [u|x|x]]; [apply IH|intros H; injection H as _ <-; intros [X|[]]; injection X as <- _; auto|intros H; injection H as _ <-; intros []]. }
    destruct (recipients_told T C E W ak pka fns e g (n + 1)) as [r1 ms1] eqn:E1.
    assert (Sk : forall m, (fst m = "%s"%string \/ fst m = "can't find user %s in %s"%string) -> (r1, m :: ms1) = (r, ms0) -> In (f, vals) ms0 -> f = "%s"%string \/ f = "Too many errors!"%string \/ f = "can't find user %s in %s"%string).
    { intros m Hm H. injection H as _ <-. intros [X|X]; [subst m; cbn in Hm; tauto|]. exact (IH _ _ _ _ _ E1 X). }
    destruct (is_user fn); [destruct (keymap_get pka fn None) as [pk|]; [apply Ad|apply Sk; auto]|]. destruct (read_public_key C E (slurp W fn)) as [pk|x|x]; [apply Ad|apply Sk; auto|intros H; injection H as _ <-; intros []]. }
  destruct (recipients_told T C E W ak pka fns e g 0) as [r ms0] eqn:Er. specialize (R _ _ _ _ _ _ Er). destruct r as [[[e1 g1] n]|x|x].
  - destruct (0 <? n); [intros H; injection H as _ _ <-; intros X; apply in_app_or in X; destruct X as [X|[X|[]]]; [exact (R X)|injection X as <- _; auto]|].
    destruct (encrypt C e1 rd w g1) as [[[[a b] w3] d] r3]. intros H X. assert (Y : ms = ms0 ++ die_err T r3) by (destruct r3; injection H as _ _ <-; [cbn [die_err]; rewrite app_nil_r|..]; reflexivity).
    rewrite Y in X. apply in_app_or in X. destruct X as [X|X]; [exact (R X)|exact (D _ _ X)].
  - intros H. injection H as _ _ <-. exact R.
  - intros H. injection H as _ _ <-. exact R.
Qed.
Lemma dec_body_formats T C sk pk infile test rd w c w2 ms f vals : dec_body_told T C sk pk infile test rd w = (c, w2, ms) -> In (f, vals) ms ->
  f = "%s"%string \/ f = "Enc file OK"%string \/ f = "%s: Missing sender Public Key; can't authenticate sender .."%string.
Proof.
  assert (D : forall A (r : res A), In (f, vals) (die_err T r) -> f = "%s"%string \/ f = "Enc file OK"%string \/ f = "%s: Missing sender Public Key; can't authenticate sender .."%string).
  { intros A [a|e|e] H; cbn in H; [contradiction| |contradiction]. destruct H as [H|[]]. injection H as <- _. auto. }
  unfold dec_body_told. destruct (new_decryptor C rd) as [[d|x|x] rd']; [|intros H; injection H as _ _ <-; first [apply (D unit (Fail x))|apply (D unit (Panic x))]..].
  destruct (set_private_key C d sk pk) as [[d1 sk1] [[]|x|x]]; [|intros H; injection H as _ _ <-; first [apply (D unit (Fail x))|apply (D unit (Panic x))]..]. cbv zeta.
  match goal with |- context [?M ++ die_err T _] => assert (HM : In (f, vals) M -> f = "%s: Missing sender Public Key; can't authenticate sender .."%string); [|set (m0 := M) in *] end.
  { destruct pk; [intros []|]. destruct (authenticated_sender d1); [|intros []]. intros [X|[]]. injection X as <- _. reflexivity. }
  destruct (decrypt C d1 w) as [[d2 w3] [u|x|x]]; intros H; injection H as _ _ <-; intros X; apply in_app_or in X; (destruct X as [X|X]; [auto|]).
  - destruct test; [destruct X as [X|[]]; injection X as <- _; auto|destruct X].
  - exact (D unit (Fail x) X).
  - exact (D unit (Panic x) X).
Qed.
Lemma enc_parse_formats T C E W v o sk blk home rd a x ms f vals : f <> "%s"%string -> f <> "Too many errors!"%string -> f <> "can't find user %s in %s"%string ->
  match parse_authorized_keys C a with
  | Panic _ => (mkOut 2 [] (wo_stdout W), [])
  | r => with_output_told T W v (oct 6 0 0) (eo_outfile o) (names_file (eo_outfile o)) (eo_force o) "%s"
           (enc_body_told T C E W (home ++ str "/.ssh/authorized_keys") (match r with Ok pka => pka | _ => [] end) sk blk (removelast (eo_args o)) rd) end = (x, ms) ->
  ~ In (f, vals) ms.
Proof.
  intros N1 N2 N3.
  assert (G : forall pka, with_output_told T W v (oct 6 0 0) (eo_outfile o) (names_file (eo_outfile o)) (eo_force o) "%s"
           (enc_body_told T C E W (home ++ str "/.ssh/authorized_keys") pka sk blk (removelast (eo_args o)) rd) = (x, ms) -> ~ In (f, vals) ms).
  { intros pka. unfold with_output_told. destruct (names_file (eo_outfile o)).
    - destruct (safe_open v _ _ _) as [u|e|e]; [|intros H; injection H as _ <-; first [apply not_fmt; assumption|intros []]..].
      destruct (enc_body_told _ _ _ _ _ _ _ _ _ _ _) as [[c w] ms0] eqn:Eb. intros H. injection H as _ <-. intros X. destruct (enc_body_formats _ _ _ _ _ _ _ _ _ _ _ _ _ _ _ _ Eb X) as [Z|[Z|Z]]; contradiction.
    - destruct (enc_body_told _ _ _ _ _ _ _ _ _ _ _) as [[c w] ms0] eqn:Eb. intros H. injection H as _ <-. intros X. destruct (enc_body_formats _ _ _ _ _ _ _ _ _ _ _ _ _ _ _ _ Eb X) as [Z|[Z|Z]]; contradiction. }
  destruct (parse_authorized_keys C a); [apply G..|]. intros H. injection H as _ <-. intros [].
Qed.
Lemma enc_go_formats T C E W v o sk blk home rd x ms f vals : f <> "%s"%string -> f <> "Too many errors!"%string -> f <> "can't find user %s in %s"%string -> f <> "can't open %s: %s"%string ->
  match slurp W (home ++ str "/.ssh/authorized_keys") with
  | Ok authdata => match parse_authorized_keys C authdata with
      | Panic _ => (mkOut 2 [] (wo_stdout W), [])
      | r => with_output_told T W v (oct 6 0 0) (eo_outfile o) (names_file (eo_outfile o)) (eo_force o) "%s"
           (enc_body_told T C E W (home ++ str "/.ssh/authorized_keys") (match r with Ok pka => pka | _ => [] end) sk blk (removelast (eo_args o)) rd) end
  | Fail e => if not_exist e then match parse_authorized_keys C [] with
      | Panic _ => (mkOut 2 [] (wo_stdout W), [])
      | r => with_output_told T W v (oct 6 0 0) (eo_outfile o) (names_file (eo_outfile o)) (eo_force o) "%s"
           (enc_body_told T C E W (home ++ str "/.ssh/authorized_keys") (match r with Ok pka => pka | _ => [] end) sk blk (removelast (eo_args o)) rd) end
      else (mkOut 1 [] (wo_stdout W), [("can't open %s: %s"%string, [home ++ str "/.ssh/authorized_keys"; tg_text T e])])
  | Panic _ => (mkOut 2 [] (wo_stdout W), [])
  end = (x, ms) -> ~ In (f, vals) ms.
Proof.
  intros N1 N2 N3 N4. destruct (slurp W (home ++ str "/.ssh/authorized_keys")) as [a|e|e]; [apply enc_parse_formats; assumption| |intros H; injection H as _ <-; intros []].
  destruct (not_exist e); [apply enc_parse_formats; assumption|]. intros H. injection H as _ <-. apply not_fmt. exact N4.
Qed.
Lemma run_formats T C E W P v1 v2 c args x ms vals : run_told T C E W P v1 v2 c args = (x, ms) -> ~ In ("Unknown command %s"%string, vals) ms.
Proof.
  assert (D : forall A (r : res A), ~ In ("Unknown command %s"%string, vals) (die_err T r)) by (intros A r; apply die_not; discriminate).
  assert (O : forall f a, f <> "Unknown command %s"%string -> ~ In ("Unknown command %s"%string, vals) [(f, a)]) by (intros f a N; apply not_fmt; congruence).
  unfold run_told. destruct c.
  - destruct (fl_gen P args) as [c|o]; [intros H; injection H as _ <-; intros []|]. unfold generate_told. destruct (ge_args o) as [|bn rest]; [intros H; injection H as _ <-; apply O; discriminate|]. cbv zeta.
    destruct (negb (ge_force o) && _); [intros H; injection H as _ <-; apply O; discriminate|].
    destruct (get_pass W (ge_nopw o) (ge_envpw o)) as [pw|e|e]; [|intros H; injection H as _ <-; first [apply (D unit (Fail e))|apply (D unit (Panic e))]..].
    destruct (rand_buf 32 (wo_rng W)) as [seed g]. destruct (serialize_private C E v1 _ _ _ _ _ _ _) as [[ops1 [u|e|e]] g2]; [|intros H; injection H as _ <-; first [apply (D unit (Fail e))|apply (D unit (Panic e))]..].
    destruct (serialize_public E v2 _ _ _ _ _) as [ops2 r]. intros H. injection H as _ <-. apply D.
  - destruct (fl_sign P args) as [c|o]; [intros H; injection H as _ <-; intros []|]. unfold sign_told. destruct (so_args o) as [|kn [|fn rest]]; [intros H; injection H as _ <-; apply O; discriminate..|]. cbv zeta.
    assert (Q : forall w c w2 ms0, sign_body_told T C E W o kn fn w = (c, w2, ms0) -> ~ In ("Unknown command %s"%string, vals) ms0).
    { intros w c w2 ms0. unfold sign_body_told. destruct (read_private_key C E _ _) as [sk|e|e]; [|intros H; injection H as _ _ <-; first [apply (D unit (Fail e))|apply (D unit (Panic e))]..].
      destruct (sign_file C sk _) as [s|e|e]; [|intros H; injection H as _ _ <-; first [apply (D unit (Fail e))|apply (D unit (Panic e))]..].
      destruct (fullwrite _ w) as [r w3]. intros H. injection H as _ _ <-. intros []. }
    unfold with_output_told. destruct (negb _).
    + destruct (safe_open v1 _ _ _) as [u|e|e]; [|intros H; injection H as _ <-; first [apply O; discriminate|intros []]..].
      destruct (sign_body_told _ _ _ _ _ _ _ _) as [[c w] ms0] eqn:Eb. intros H. injection H as _ <-. eapply Q. exact Eb.
    + destruct (sign_body_told _ _ _ _ _ _ _ _) as [[c w] ms0] eqn:Eb. intros H. injection H as _ <-. eapply Q. exact Eb.
  - destruct (fl_verify P args) as [c|[q [|pn [|sn [|fn a]]]]]; [intros H; injection H as _ <-; intros []|intros H; injection H as _ <-; apply O; discriminate..|].
    intros H. destruct (verify_truthful _ _ _ _ _ _ _ _ _ _ _ H) as [->|(m & -> & Hm)]; [intros []|]. intros [X|[]]. subst m. inversion Hm.
  - destruct (fl_enc P args) as [c|o]; [intros H; injection H as _ <-; intros []|]. unfold encrypt_told.
    destruct (wo_size W (eo_size o)) as [blk|e|e]; [|intros H; injection H as _ <-; first [apply (D unit (Fail e))|apply (D unit (Panic e))]..].
    destruct (if 0 <? len (eo_keyfile o) then _ else _) as [sk|e|e]; [|intros H; injection H as _ <-; first [apply (D unit (Fail e))|apply (D unit (Panic e))]..].
    destruct (len (eo_args o) <? 2); [intros H; injection H as _ <-; apply O; discriminate|]. cbv zeta.
    destruct (if beq _ _ then _ else _) as [rd|e|e]; [|intros H; injection H as _ <-; first [apply O; discriminate|intros []]..].
    destruct (wo_home W) as [home|]; [|intros H; injection H as _ <-; apply O; discriminate]. apply enc_go_formats; discriminate.
  - destruct (fl_dec P args) as [c|o]; [intros H; injection H as _ <-; intros []|]. unfold decrypt_told. destruct (do_args o) as [|kf more]; [intros H; injection H as _ <-; apply O; discriminate|].
    destruct (read_private_key C E (slurp W kf) _) as [sk|e|e]; [|intros H; injection H as _ <-; first [apply (D unit (Fail e))|apply (D unit (Panic e))]..].
    destruct (if 0 <? len (do_pubkey o) then _ else _) as [pk|e|e]; [|intros H; injection H as _ <-; first [apply (D unit (Fail e))|apply (D unit (Panic e))]..]. cbv zeta.
    match goal with |- (match ?X with _ => _ end) = _ -> _ => destruct X as [rd|y|y] end; [|intros H; injection H as _ <-; first [apply O; discriminate|intros []]..].
    assert (B : forall infile t w c w2 ms0, dec_body_told T C sk pk infile t rd w = (c, w2, ms0) -> ~ In ("Unknown command %s"%string, vals) ms0).
    { intros infile t w c w2 ms0 Eb X. destruct (dec_body_formats _ _ _ _ _ _ _ _ _ _ _ _ _ Eb X) as [Z|[Z|Z]]; discriminate Z. }
    destruct (do_test o); [destruct (dec_body_told _ _ _ _ _ _ _ _) as [[c w] ms0] eqn:Eb; intros H; injection H as _ <-; eapply B; exact Eb|].
    unfold with_output_told. destruct (names_file (do_outfile o)).
    + destruct (safe_open v1 _ _ _) as [u|e|e]; [|intros H; injection H as _ <-; first [apply O; discriminate|intros []]..].
      destruct (dec_body_told _ _ _ _ _ _ _ _) as [[c w] ms0] eqn:Eb. intros H. injection H as _ <-. eapply B. exact Eb.
    + destruct (dec_body_told _ _ _ _ _ _ _ _) as [[c w] ms0] eqn:Eb. intros H. injection H as _ <-. eapply B. exact Eb.
  - intros H. injection H as _ <-. intros [].
Qed.
Theorem C96_truthful : forall T C E W,
  (forall q pn sn fn rest x ms, verify_told T C E W q (pn :: sn :: fn :: rest) = (x, ms) -> ms = [] \/ exists m, ms = [m] /\ verify_says T C E W pn sn fn m) /\
  (forall v1 v2 o x ms vals, generate_told T C E W v1 v2 o = (x, ms) -> In ("Public/Private key files (%s, %s) exist. won't overwrite!"%string, vals) ms ->
     exists bn rest, ge_args o = bn :: rest /\ let K := wo_clean W bn ++ str ".key" in let P := wo_clean W bn ++ str ".pub" in
     vals = [K; P] /\ ge_force o = false /\ (content (wo_fs W) (wo_place W K) <> None \/ content (wo_fs W) (wo_place W P) <> None)) /\
  (forall v o x ms vals, encrypt_told T C E W v o = (x, ms) -> In ("can't open file %s: %s"%string, vals) ms ->
     exists to infile e, eo_args o = to ++ [infile] /\ to <> [] /\ vals = [infile; tg_text T e] /\ infile <> str "-" /\ open_in W infile = Fail e) /\
  (forall v o x ms vals, decrypt_told T C E W v o = (x, ms) -> In ("can't open file %s: %s"%string, vals) ms ->
     exists key infile rest e, do_args o = key :: infile :: rest /\ vals = [infile; tg_text T e] /\ infile <> str "-" /\ open_in W infile = Fail e) /\
  (forall v o x ms vals, encrypt_told T C E W v o = (x, ms) -> In ("can't open %s: %s"%string, vals) ms ->
     exists home e, wo_home W = Some home /\ vals = [home ++ str "/.ssh/authorized_keys"; tg_text T e] /\ slurp W (home ++ str "/.ssh/authorized_keys") = Fail e /\ e <> enoent) /\
  (forall v o x ms vals, sign_told T C E W v o = (x, ms) -> In ("can't create sig file: %s"%string, vals) ms ->
     exists key fn rest e, so_args o = key :: fn :: rest /\ let out := match so_output o with [] => fn ++ str ".sig" | out => out end in
     out <> str "-" /\ vals = [tg_text T e] /\ safe_open v (wo_fs W) (wo_place W out) (so_force o) = Fail e) /\
  (forall P v1 v2 argv x ms vals, main_told T C E W P v1 v2 argv = (x, ms) -> In ("Unknown command %s"%string, vals) ms ->
     exists o word args, fl_main P argv = Options o /\ mo_args o = word :: args /\ vals = [word] /\ abbrev (map fst cmds) (to_lower word) = None).
Proof.
  intros T C E W. split; [intros; eapply verify_truthful; eassumption|]. split; [|split; [|split; [|split; [|split]]]].
  - intros v1 v2 o x ms vals. unfold generate_told. destruct (ge_args o) as [|bn rest]; [intros H; injection H as _ <-; intros X; exfalso; revert X; apply not_fmt; discriminate|]. cbv zeta.
    destruct (negb (ge_force o) && _) eqn:G.
    + intros H. injection H as _ <-. intros [X|[]]. injection X as <-. exists bn, rest. split; [reflexivity|]. split; [reflexivity|]. apply andb_prop in G. destruct G as [G1 G2].
      split; [destruct (ge_force o); [discriminate G1|reflexivity]|]. unfold exists_ in G2. apply orb_prop in G2. destruct G2 as [G2|G2]; [right|left]; (destruct (content _ _); [discriminate|discriminate G2]).
    + destruct (get_pass W (ge_nopw o) (ge_envpw o)) as [pw|e|e];
        [|intros H; injection H as _ <-; intros X; exfalso; revert X; first [apply (@die_not unit T (Fail e)); discriminate|apply (@die_not unit T (Panic e)); discriminate]..].
      destruct (rand_buf 32 (wo_rng W)) as [seed g].
      destruct (serialize_private C E v1 _ _ _ _ _ _ _) as [[ops1 [u|e|e]] g2];
        [|intros H; injection H as _ <-; intros X; exfalso; revert X; first [apply (@die_not unit T (Fail e)); discriminate|apply (@die_not unit T (Panic e)); discriminate]..].
      destruct (serialize_public E v2 _ _ _ _ _) as [ops2 r]. intros H. injection H as _ <-. intros X. exfalso. revert X. apply die_not. discriminate.
  - intros v o x ms vals. unfold encrypt_told. destruct (wo_size W (eo_size o)) as [blk|e|e];
      [|intros H; injection H as _ <-; intros X; exfalso; revert X; first [apply (@die_not unit T (Fail e)); discriminate|apply (@die_not unit T (Panic e)); discriminate]..].
    destruct (if 0 <? len (eo_keyfile o) then _ else _) as [sk|e|e];
      [|intros H; injection H as _ <-; intros X; exfalso; revert X; first [apply (@die_not unit T (Fail e)); discriminate|apply (@die_not unit T (Panic e)); discriminate]..].
    destruct (Z.ltb_spec (len (eo_args o)) 2) as [L|L]; [intros H; injection H as _ <-; intros X; exfalso; revert X; apply not_fmt; discriminate|]. cbv zeta.
    assert (Hne : eo_args o <> []) by (intros Z; rewrite Z in L; cbv in L; contradiction). pose proof (app_removelast_last [] Hne) as El.
    destruct (beq (last (eo_args o) []) (str "-")) eqn:B.
    2: destruct (open_in W (last (eo_args o) [])) as [rd|e|e] eqn:Op.
    3:{ intros H. injection H as _ <-. intros [X|[]]. injection X as <-. exists (removelast (eo_args o)), (last (eo_args o) []), e. split; [exact El|]. split.
        { intros Z. rewrite Z in El. rewrite El in L. cbv in L. apply L. reflexivity. }
        split; [reflexivity|]. split; [intros Z; rewrite Z, beq_refl in B; discriminate B|exact Op]. }
    3:{ intros H. injection H as _ <-. intros []. }
    all: (destruct (wo_home W) as [home|]; [|intros H; injection H as _ <-; intros X; exfalso; revert X; apply not_fmt; discriminate]);
      intros H X; exfalso; revert H X; apply enc_go_formats; discriminate.
  - intros v o x ms vals. unfold decrypt_told. destruct (do_args o) as [|kf more]; [intros H; injection H as _ <-; intros X; exfalso; revert X; apply not_fmt; discriminate|].
    destruct (read_private_key C E (slurp W kf) _) as [sk|e|e];
      [|intros H; injection H as _ <-; intros X; exfalso; revert X; first [apply (@die_not unit T (Fail e)); discriminate|apply (@die_not unit T (Panic e)); discriminate]..].
    destruct (if 0 <? len (do_pubkey o) then _ else _) as [pk|e|e];
      [|intros H; injection H as _ <-; intros X; exfalso; revert X; first [apply (@die_not unit T (Fail e)); discriminate|apply (@die_not unit T (Panic e)); discriminate]..]. cbv zeta.
    assert (Q : forall infile rd, (if do_test o then let '(c, _, ms0) := dec_body_told T C sk pk infile true rd (mkWriter [] [] [] 0) in (mkOut c [] (wo_stdout W), ms0)
        else with_output_told T W v (oct 6 0 0) (do_outfile o) (names_file (do_outfile o)) (do_force o) "%s" (dec_body_told T C sk pk infile false rd)) = (x, ms) ->
        ~ In ("can't open file %s: %s"%string, vals) ms).
    { intros infile rd. destruct (do_test o).
      - destruct (dec_body_told _ _ _ _ _ _ _ _) as [[c w] ms0] eqn:Eb. intros H. injection H as _ <-. intros X. destruct (dec_body_formats _ _ _ _ _ _ _ _ _ _ _ _ _ Eb X) as [Z|[Z|Z]]; discriminate Z.
      - unfold with_output_told. destruct (names_file (do_outfile o)).
        + destruct (safe_open v _ _ _) as [u|e|e]; [|intros H; injection H as _ <-; first [apply not_fmt; discriminate|intros []]..].
          destruct (dec_body_told _ _ _ _ _ _ _ _) as [[c w] ms0] eqn:Eb. intros H. injection H as _ <-. intros X. destruct (dec_body_formats _ _ _ _ _ _ _ _ _ _ _ _ _ Eb X) as [Z|[Z|Z]]; discriminate Z.
        + destruct (dec_body_told _ _ _ _ _ _ _ _) as [[c w] ms0] eqn:Eb. intros H. injection H as _ <-. intros X. destruct (dec_body_formats _ _ _ _ _ _ _ _ _ _ _ _ _ Eb X) as [Z|[Z|Z]]; discriminate Z. }
    destruct more as [|infile rest]; [intros H X; destruct (Q _ _ H X)|]. destruct (beq infile (str "-")) eqn:B; [intros H X; destruct (Q _ _ H X)|].
    destruct (open_in W infile) as [rd|e|e] eqn:Op; [intros H X; destruct (Q _ _ H X)| |intros H; injection H as _ <-; intros []].
    intros H. injection H as _ <-. intros [X|[]]. injection X as <-. exists kf, infile, rest, e. split; [reflexivity|]. split; [reflexivity|]. split; [intros Z; rewrite Z, beq_refl in B; discriminate B|exact Op].
  - intros v o x ms vals. unfold encrypt_told. destruct (wo_size W (eo_size o)) as [blk|e|e];
      [|intros H; injection H as _ <-; intros X; exfalso; revert X; first [apply (@die_not unit T (Fail e)); discriminate|apply (@die_not unit T (Panic e)); discriminate]..].
    destruct (if 0 <? len (eo_keyfile o) then _ else _) as [sk|e|e];
      [|intros H; injection H as _ <-; intros X; exfalso; revert X; first [apply (@die_not unit T (Fail e)); discriminate|apply (@die_not unit T (Panic e)); discriminate]..].
    destruct (len (eo_args o) <? 2); [intros H; injection H as _ <-; intros X; exfalso; revert X; apply not_fmt; discriminate|]. cbv zeta.
    destruct (if beq _ _ then _ else _) as [rd|e|e]; [|intros H; injection H as _ <-; intros X; exfalso; revert X; first [apply not_fmt; discriminate|intros []]..].
    destruct (wo_home W) as [home|] eqn:Hh; [|intros H; injection H as _ <-; intros X; exfalso; revert X; apply not_fmt; discriminate].
    destruct (slurp W (home ++ str "/.ssh/authorized_keys")) as [a|e|e] eqn:Sl; [|destruct (not_exist e) eqn:Ne|intros H; injection H as _ <-; intros []].
    3:{ intros H. injection H as _ <-. intros [X|[]]. injection X as <-. exists home, e. split; [reflexivity|]. split; [reflexivity|]. split; [exact Sl|]. intros ->. discriminate Ne. }
    + intros H X. exfalso. revert H X. apply enc_parse_formats; [discriminate..].
    + intros H X. exfalso. revert H X. apply enc_parse_formats; [discriminate..].
  - intros v o x ms vals. unfold sign_told. destruct (so_args o) as [|kn [|fn rest]]; [intros H; injection H as _ <-; intros X; exfalso; revert X; apply not_fmt; discriminate..|]. cbv zeta.
    assert (Eo : (if 0 <? len (so_output o) then so_output o else fn ++ str ".sig") = match so_output o with [] => fn ++ str ".sig" | out => out end).
    { destruct (so_output o) as [|b l]; [reflexivity|]. rewrite (proj2 (len_pos (b :: l)) ltac:(discriminate)). reflexivity. }
    rewrite Eo. set (out := match so_output o with [] => fn ++ str ".sig" | out => out end).
    assert (Q : forall w c w2 ms0, sign_body_told T C E W o kn fn w = (c, w2, ms0) -> ~ In ("can't create sig file: %s"%string, vals) ms0).
    { intros w c w2 ms0. unfold sign_body_told. destruct (read_private_key C E _ _) as [sk|e|e];
        [|intros H; injection H as _ _ <-; first [apply (@die_not unit T (Fail e)); discriminate|apply (@die_not unit T (Panic e)); discriminate]..].
      destruct (sign_file C sk _) as [s|e|e]; [|intros H; injection H as _ _ <-; first [apply (@die_not unit T (Fail e)); discriminate|apply (@die_not unit T (Panic e)); discriminate]..].
      destruct (fullwrite _ w) as [r w3]. intros H. injection H as _ _ <-. intros []. }
    unfold with_output_told. destruct (beq out (str "-")) eqn:B; cbn [negb].
    + destruct (sign_body_told _ _ _ _ _ _ _ _) as [[c w] ms0] eqn:Eb. intros H. injection H as _ <-. intros X. destruct (Q _ _ _ _ Eb X).
    + destruct (safe_open v (wo_fs W) (wo_place W out) (so_force o)) as [u|e|e] eqn:So.
      * destruct (sign_body_told _ _ _ _ _ _ _ _) as [[c w] ms0] eqn:Eb. intros H. injection H as _ <-. intros X. destruct (Q _ _ _ _ Eb X).
      * intros H. injection H as _ <-. intros [X|[]]. injection X as <-. exists kn, fn, rest, e. split; [reflexivity|]. split; [intros Z; change (out = str "-") in Z; rewrite Z, beq_refl in B; discriminate B|]. split; [reflexivity|exact So].
      * intros H. injection H as _ <-. intros [].
  - intros P v1 v2 argv x ms vals. unfold main_told. destruct (fl_main P argv) as [c|o] eqn:Em; [intros H; injection H as _ <-; intros []|].
    destruct (mo_version o); [intros H; injection H as _ <-; intros []|]. destruct (mo_help o); [intros H; injection H as _ <-; intros []|].
    destruct (mo_args o) as [|word args] eqn:Ea; [intros H; injection H as _ <-; intros X; exfalso; revert X; apply not_fmt; discriminate|].
    destruct (abbrev _ _) as [w|] eqn:Ab.
    2:{ intros H. injection H as _ <-. intros [X|[]]. injection X as <-. exists o, word, args. auto. }
    destruct (find_cmd cmds w) as [c|]; [|intros H; injection H as _ <-; intros X; exfalso; revert X; apply not_fmt; discriminate].
    intros H X. exfalso. revert H X. apply run_formats.
Qed.
Print Assumptions C96_truthful.

(** sigtool in CliScene's town *)
Definition tongue1 : tongue := mkTongue (str "./sigtool") (str "sigtool") (fun e => match e with EMsg s => str s | _ => str "error" end).
Definition ask (words : list string) : outcome * list msg := main_told tongue1 toy toyE town declared sf1 sf1 (map str words).
Example C96_instance :
  (* two recipients that stand for no key *)
  (let (x, ms) := encrypt_told tongue1 toy toyE town sf1 (enc_to [str "eve@host"; str "a.pub"; str "nokey"; str "bob@host"] (str "out") [] false) in
   x_code x = 1 /\ length ms = 3%nat /\ nth 0 ms file_ok = ("can't find user %s in %s"%string, [str "eve@host"; str "/h/.ssh/authorized_keys"]) /\
   nth 2 ms file_ok = ("Too many errors!"%string, []) /\
   warn (tg_argv0 tongue1) (nth 0 ms file_ok) = Some (str "./sigtool: can't find user eve@host in /h/.ssh/authorized_keys" ++ [x0a])) /\
  (* the signed file: --test, decrypted without --verify-sender, and with the wrong key *)
  (let (x, ms) := ask ["decrypt"; "--no-password"; "-v"; "s.pub"; "--test"; "a.key"; "signed"]%string in x_code x = 0 /\ ms = [file_ok]) /\
  (let (x, ms) := ask ["decrypt"; "--no-password"; "-o"; "out"; "a.key"; "signed"]%string in x_code x = 1 /\ length ms = 1%nat) /\
  (let (x, ms) := ask ["decrypt"; "--no-password"; "-v"; "a.pub"; "--test"; "a.key"; "signed"]%string in x_code x = 1 /\ length ms = 1%nat) /\
  (let (x, ms) := ask ["verify"; "a.pub"]%string in x_code x = 1 /\ ms = [("Insufficient arguments to 'verify'. Try '%s verify -h' .."%string, [str "sigtool"])]) /\
  (let (x, ms) := ask ["frobnicate"]%string in x_code x = 1 /\ ms = [("Unknown command %s"%string, [str "frobnicate"])]) /\
  ~ In x25 (tg_argv0 tongue1).
Proof.
  split; [vm_compute; repeat split|]. split; [vm_compute; repeat split|]. split; [vm_compute; repeat split|]. split; [vm_compute; repeat split|].
  split; [vm_compute; repeat split|]. split; [vm_compute; repeat split|]. vm_compute. intuition discriminate.
Qed.
Example C96_truthful_instance :
  snd (verify_told tongue1 toy toyE town false [str "a.pub"; str "nosuch"; str "plain"]) = [("Can't read signature '%s': %s"%string, [str "nosuch"; str "error"])] /\
  snd (ask ["decrypt"; "--no-password"; "a.key"; "nosuch"]%string) = [("can't open file %s: %s"%string, [str "nosuch"; str "error"])] /\
  snd (ask ["generate"; "a"]%string) = [("Public/Private key files (%s, %s) exist. won't overwrite!"%string, [str "a.key"; str "a.pub"])] /\
  (exists t, snd (ask ["sign"; "--no-password"; "-o"; "plain"; "a.key"; "plain"]%string) = [("can't create sig file: %s"%string, [t])]).
Proof. repeat (split; [vm_compute; reflexivity|]). eexists. vm_compute. reflexivity. Qed.
