(** C97: the commands read nothing but what they are given. *)
From Verif Require Import Bytes BytesLemmas GoErr GoIO SpecIO IOProofs Support Pb SpecPb Crypto CryptoLaws Keys Sign SpecSign Encrypt Decrypt Spec
  EncryptProofs DecryptProofs OpenProofs FsProofs SshProofs Hostile KeyFiles GoText Ssh Fs Store SpecFs SpecCli CliProofs Cli Main Flags Told
  Toy ToyExt Scene CliScene Thm_Cli Thm_Commands Thm_Pipe Thm_EndToEnd.
Local Notation length := List.length.
Local Notation concat := List.concat.

(** ** Specification *)
(** path [p] leads to the same content in two worlds, read in the same way - wherever it is stored *)
Definition same_file (W W' : world) (p : bytes) : Prop :=
  content (wo_fs W) (wo_place W p) = content (wo_fs W') (wo_place W' p) /\ wo_refused W p = wo_refused W' p /\
  (forall b, wo_pieces W p b = wo_pieces W' p b) /\ (forall b, wo_mapped W p b = wo_mapped W' p b).
(** path [p] leads to the same place, where there is a file in both worlds or in neither *)
Definition same_place (W W' : world) (p : bytes) : Prop :=
  wo_place W p = wo_place W' p /\ (content (wo_fs W) (wo_place W p) = None <-> content (wo_fs W') (wo_place W' p) = None).
(** the passphrase: the environment variable if one is named, else what the user types, unless there is none *)
Definition same_pass (W W' : world) (nopw : bool) (envpw : bytes) : Prop :=
  nopw = false -> (envpw <> [] -> wo_getenv W envpw = wo_getenv W' envpw) /\ (envpw = [] -> wo_ask W = wo_ask W').
(** an input argument: "-" is standard input *)
Definition same_input (W W' : world) (p : bytes) : Prop := (p = str "-" -> wo_stdin W = wo_stdin W') /\ (p <> str "-" -> same_file W W' p).
(** an output argument; nothing is looked at for standard output *)
Definition same_output (W W' : world) (p : bytes) : Prop := a_file p -> same_place W W' p.

(** ** Lemmas *)
Lemma named_iff o : names_file o = true -> a_file o.
Proof. unfold names_file. intros H. apply andb_prop in H. destruct H as [H1 H2]. split; [apply len_pos; exact H1|]. intros ->. rewrite beq_refl in H2. discriminate H2. Qed.
Lemma slurp_same W W' p : same_file W W' p -> slurp W p = slurp W' p.
Proof. intros (H1 & H2 & _). unfold slurp, read_file. rewrite H1, H2. reflexivity. Qed.
Lemma open_same W W' p : same_file W W' p -> open_in W p = open_in W' p.
Proof. intros (H1 & H2 & H3 & _). unfold open_in. rewrite H1, H2. destruct (content (wo_fs W') _); [|reflexivity]. destruct (wo_refused W' p); [reflexivity|]. rewrite H3. reflexivity. Qed.
Lemma map_same W W' p : same_file W W' p -> map_in W p = map_in W' p.
Proof. intros (H1 & H2 & _ & H3). unfold map_in. rewrite H1, H2. destruct (content (wo_fs W') _); [|reflexivity]. destruct (wo_refused W' p); [reflexivity|]. rewrite H3. reflexivity. Qed.
Lemma pass_same W W' nopw envpw : same_pass W W' nopw envpw -> get_pass W nopw envpw = get_pass W' nopw envpw.
Proof.
  intros H. unfold get_pass. destruct nopw; [reflexivity|]. destruct (H eq_refl) as [H1 H2]. destruct envpw as [|b l].
  - cbn. rewrite (H2 eq_refl). reflexivity.
  - rewrite (H1 ltac:(discriminate)). rewrite (proj2 (len_pos (b :: l)) ltac:(discriminate)). reflexivity.
Qed.
Lemma exists_same W W' p : same_place W W' p -> exists_ W p = exists_ W' p.
Proof. intros (_ & H). unfold exists_. destruct (content (wo_fs W) _), (content (wo_fs W') _); try reflexivity; exfalso; destruct H as [H1 H2]; [discriminate (H2 eq_refl)|discriminate (H1 eq_refl)]. Qed.
Lemma safe_same W W' v p force : same_place W W' p -> safe_open v (wo_fs W) (wo_place W p) force = safe_open v (wo_fs W') (wo_place W' p) force.
Proof. intros (_ & H). unfold safe_open. destruct (content (wo_fs W) _), (content (wo_fs W') _); try reflexivity; exfalso; destruct H as [H1 H2]; [discriminate (H2 eq_refl)|discriminate (H1 eq_refl)]. Qed.
Lemma with_same_out W W' T v m outfile tofile force pre body body' : wo_stdout W = wo_stdout W' -> (tofile = true -> same_place W W' outfile) -> (forall w, body w = body' w) ->
  with_output_told T W v m outfile tofile force pre body = with_output_told T W' v m outfile tofile force pre body'.
Proof.
  intros Ho Hp Hb. unfold with_output_told. rewrite Ho. destruct tofile; [|rewrite Hb; reflexivity]. specialize (Hp eq_refl). rewrite (safe_same W W' v outfile force Hp). rewrite (proj1 Hp).
  destruct (safe_open _ _ _ _); [|reflexivity..]. rewrite Hb. reflexivity.
Qed.
Lemma input_same W W' p : same_input W W' p -> (if beq p (str "-") then Ok (wo_stdin W) else open_in W p) = (if beq p (str "-") then Ok (wo_stdin W') else open_in W' p).
Proof.
  intros [H1 H2]. destruct (beq p (str "-")) eqn:B; [apply beq_eq in B; rewrite (H1 B); reflexivity|]. apply open_same. apply H2. intros ->. rewrite beq_refl in B. discriminate B.
Qed.

(** ** C97 *)
Theorem C97_verify : forall T C E W W' quiet args,
  wo_stdout W = wo_stdout W' -> Forall (same_file W W') (firstn 3 args) -> verify_told T C E W quiet args = verify_told T C E W' quiet args.
Proof.
  intros T C E W W' quiet args Ho H. unfold verify_told. rewrite Ho. destruct args as [|pn [|sn [|fn a]]]; [reflexivity..|]. cbn [firstn] in H.
  inversion H as [|? ? H1 H']. subst. inversion H' as [|? ? H2 H'']. subst. inversion H'' as [|? ? H3 _]. subst.
  rewrite (slurp_same W W' pn H1), (slurp_same W W' sn H2), (map_same W W' fn H3). reflexivity.
Qed.
Print Assumptions C97_verify.

Theorem C97_sign : forall T C E W W' v o, wo_stdout W = wo_stdout W' -> Forall (same_file W W') (firstn 2 (so_args o)) ->
  same_pass W W' (so_nopw o) (so_envpw o) ->
  same_output W W' (match so_output o with [] => nth 1 (so_args o) [] ++ str ".sig" | out => out end) ->
  sign_told T C E W v o = sign_told T C E W' v o.
Proof.
  intros T C E W W' v o Ho H Hp Hout. unfold sign_told. rewrite Ho. destruct (so_args o) as [|kn [|fn a]]; [reflexivity..|]. cbn [firstn] in H.
  inversion H as [|? ? H1 H']. subst. inversion H' as [|? ? H2 _]. subst. cbv zeta. cbn [nth] in Hout.
  assert (Eo : (if 0 <? len (so_output o) then so_output o else fn ++ str ".sig") = match so_output o with [] => fn ++ str ".sig" | out => out end).
  { destruct (so_output o) as [|b l]; [reflexivity|]. rewrite (proj2 (len_pos (b :: l)) ltac:(discriminate)). reflexivity. }
  rewrite Eo. set (outf := match so_output o with [] => fn ++ str ".sig" | out => out end) in *. apply with_same_out; [exact Ho| |].
  - intros B. apply Hout. split.
    + unfold outf. destruct (so_output o); [|discriminate]. intros X. apply app_eq_nil in X. destruct X as [_ X]. discriminate X.
    + intros X. rewrite X, beq_refl in B. discriminate B.
  - intros w. unfold sign_body_told. rewrite (slurp_same W W' kn H1), (map_same W W' fn H2), (pass_same W W' _ _ Hp). reflexivity.
Qed.
Print Assumptions C97_sign.

Theorem C97_decrypt : forall T C E W W' v o key more, do_args o = key :: more -> wo_stdout W = wo_stdout W' -> same_file W W' key ->
  same_pass W W' (do_nopw o) (do_envpw o) -> (do_pubkey o <> [] -> same_file W W' (do_pubkey o)) ->
  same_input W W' (match more with [] => str "-" | f :: _ => f end) -> (do_test o = false -> same_output W W' (do_outfile o)) ->
  decrypt_told T C E W v o = decrypt_told T C E W' v o.
Proof.
  intros T C E W W' v o key more Ha Ho Hk Hp Hpk Hi Hout. unfold decrypt_told. rewrite Ha, Ho, (slurp_same W W' key Hk), (pass_same W W' _ _ Hp).
  destruct (read_private_key C E (slurp W' key) _) as [sk|x|x]; [|reflexivity..].
  assert (E1 : (if 0 <? len (do_pubkey o) then pk <- read_public_key C E (slurp W (do_pubkey o)) ;; Ok (Some pk) else Ok None) =
               (if 0 <? len (do_pubkey o) then pk <- read_public_key C E (slurp W' (do_pubkey o)) ;; Ok (Some pk) else Ok None)).
  { destruct (0 <? len (do_pubkey o)) eqn:L; [|reflexivity]. apply len_pos in L. rewrite (slurp_same W W' _ (Hpk L)). reflexivity. }
  rewrite E1. clear E1. destruct (if 0 <? len (do_pubkey o) then _ else _) as [pk|x|x]; [|reflexivity..]. cbv zeta.
  assert (E2 : match more with [] => Ok (wo_stdin W) | f :: _ => if beq f (str "-") then Ok (wo_stdin W) else open_in W f end =
               match more with [] => Ok (wo_stdin W') | f :: _ => if beq f (str "-") then Ok (wo_stdin W') else open_in W' f end).
  { destruct more as [|f m]; [rewrite (proj1 Hi eq_refl); reflexivity|]. apply input_same. exact Hi. }
  rewrite E2. clear E2. match goal with |- (match ?X with _ => _ end) = _ => destruct X as [rd|x|x] end; [|reflexivity..].
  destruct (do_test o); [reflexivity|]. apply with_same_out; [exact Ho| |reflexivity]. intros B. apply (Hout eq_refl). apply named_iff. exact B.
Qed.
Print Assumptions C97_decrypt.

(** encrypt, sigtool's only command that reads a file which is not named: the user's authorized_keys *)
Theorem C97_encrypt : forall T C E W W' v o, wo_stdout W = wo_stdout W' -> wo_rng W = wo_rng W' -> wo_size W (eo_size o) = wo_size W' (eo_size o) ->
  (eo_keyfile o <> [] -> same_file W W' (eo_keyfile o) /\ same_pass W W' (eo_nopw o) (eo_envpw o)) ->
  same_input W W' (last (eo_args o) []) -> Forall (fun fn => user_name fn \/ same_file W W' fn) (removelast (eo_args o)) ->
  wo_home W = wo_home W' -> (forall home, wo_home W = Some home -> same_file W W' (home ++ str "/.ssh/authorized_keys")) ->
  same_output W W' (eo_outfile o) ->
  encrypt_told T C E W v o = encrypt_told T C E W' v o.
Proof.
  intros T C E W W' v o Ho Hg Hs Hk Hi Hr Hh Hau Hout. unfold encrypt_told. rewrite Ho, Hs. destruct (wo_size W' (eo_size o)) as [blk|x|x]; [|reflexivity..].
  assert (E1 : (if 0 <? len (eo_keyfile o) then sk <- read_private_key C E (slurp W (eo_keyfile o)) (Some (get_pass W (eo_nopw o) (eo_envpw o))) ;; Ok (Some sk) else Ok None) =
               (if 0 <? len (eo_keyfile o) then sk <- read_private_key C E (slurp W' (eo_keyfile o)) (Some (get_pass W' (eo_nopw o) (eo_envpw o))) ;; Ok (Some sk) else Ok None)).
  { destruct (0 <? len (eo_keyfile o)) eqn:L; [|reflexivity]. apply len_pos in L. destruct (Hk L) as [H1 H2]. rewrite (slurp_same W W' _ H1), (pass_same W W' _ _ H2). reflexivity. }
  rewrite E1. clear E1. destruct (if 0 <? len (eo_keyfile o) then _ else _) as [sk|x|x]; [|reflexivity..]. destruct (len (eo_args o) <? 2); [reflexivity|]. cbv zeta.
  rewrite (input_same W W' _ Hi). destruct (if beq _ _ then _ else _) as [rd|x|x]; [|reflexivity..]. rewrite <- Hh. destruct (wo_home W) as [home|] eqn:Eh; [|reflexivity].
  rewrite (slurp_same W W' _ (Hau home eq_refl)).
  assert (R : forall pka fns e g errs, Forall (fun fn => user_name fn \/ same_file W W' fn) fns ->
    recipients_told T C E W (home ++ str "/.ssh/authorized_keys") pka fns e g errs = recipients_told T C E W' (home ++ str "/.ssh/authorized_keys") pka fns e g errs).
  { intros pka. induction fns as [|fn fns IH]; intros e g errs F; cbn [recipients_told]; [reflexivity|]. inversion F as [|? ? H1 H2]. subst.
    assert (A : forall pk, match add_recipient C e pk g with
      | (e0, _, g0, Ok _) => recipients_told T C E W (home ++ str "/.ssh/authorized_keys") pka fns e0 g0 errs
      | (_, _, _, Fail x) => (Fail x, [("%s"%string, [tg_text T x])])
      | (_, _, _, Panic p) => (Panic p, []) end =
      match add_recipient C e pk g with
      | (e0, _, g0, Ok _) => recipients_told T C E W' (home ++ str "/.ssh/authorized_keys") pka fns e0 g0 errs
      | (_, _, _, Fail x) => (Fail x, [("%s"%string, [tg_text T x])])
      | (_, _, _, Panic p) => (Panic p, []) end) by (intros pk; destruct (add_recipient C e pk g) as [[[e1 pk1] g1] [u|x|x]]; [apply IH; exact H2|reflexivity..]).
    rewrite (IH e g (errs + 1) H2). destruct (is_user fn) eqn:U; [destruct (keymap_get pka fn None); [apply A|reflexivity]|].
    destruct H1 as [H1|H1]; [apply is_user_iff in H1; congruence|]. rewrite (slurp_same W W' fn H1). destruct (read_public_key C E (slurp W' fn)); [apply A|reflexivity..]. }
  assert (B : forall pka w, enc_body_told T C E W (home ++ str "/.ssh/authorized_keys") pka sk blk (removelast (eo_args o)) rd w =
                            enc_body_told T C E W' (home ++ str "/.ssh/authorized_keys") pka sk blk (removelast (eo_args o)) rd w).
  { intros pka w. unfold enc_body_told. rewrite Hg. destruct (new_encryptor C sk blk (wo_rng W')) as [[e|x|x] g]; [|reflexivity..]. rewrite (R pka _ e g 0 Hr). reflexivity. }
  assert (O : forall pka, with_output_told T W v (oct 6 0 0) (eo_outfile o) (names_file (eo_outfile o)) (eo_force o) "%s"
      (enc_body_told T C E W (home ++ str "/.ssh/authorized_keys") pka sk blk (removelast (eo_args o)) rd) =
    with_output_told T W' v (oct 6 0 0) (eo_outfile o) (names_file (eo_outfile o)) (eo_force o) "%s"
      (enc_body_told T C E W' (home ++ str "/.ssh/authorized_keys") pka sk blk (removelast (eo_args o)) rd)).
  { intros pka. apply with_same_out; [exact Ho| |apply B]. intros N. apply Hout. apply named_iff. exact N. }
  assert (P : forall a, match parse_authorized_keys C a with
     | Panic _ => (mkOut 2 [] (wo_stdout W'), [])
     | r => with_output_told T W v (oct 6 0 0) (eo_outfile o) (names_file (eo_outfile o)) (eo_force o) "%s"
              (enc_body_told T C E W (home ++ str "/.ssh/authorized_keys") (match r with Ok pka => pka | _ => [] end) sk blk (removelast (eo_args o)) rd) end =
    match parse_authorized_keys C a with
     | Panic _ => (mkOut 2 [] (wo_stdout W'), [])
     | r => with_output_told T W' v (oct 6 0 0) (eo_outfile o) (names_file (eo_outfile o)) (eo_force o) "%s"
              (enc_body_told T C E W' (home ++ str "/.ssh/authorized_keys") (match r with Ok pka => pka | _ => [] end) sk blk (removelast (eo_args o)) rd) end).
  { intros a. destruct (parse_authorized_keys C a); [apply O..|reflexivity]. }
  destruct (slurp W' (home ++ str "/.ssh/authorized_keys")) as [a|x|x]; [apply P| |reflexivity]. destruct (not_exist x); [apply P|reflexivity].
Qed.
Print Assumptions C97_encrypt.

(** generate reads nothing; it looks whether the two files exist *)
Theorem C97_generate : forall T C E W W' v1 v2 o bn rest, ge_args o = bn :: rest -> wo_stdout W = wo_stdout W' -> wo_rng W = wo_rng W' ->
  wo_clean W bn = wo_clean W' bn -> same_place W W' (key_name W bn) -> same_place W W' (pub_name W bn) -> same_pass W W' (ge_nopw o) (ge_envpw o) ->
  room_for_two v1 v2 (wo_fs W) (wo_place W (key_name W bn)) (wo_place W (pub_name W bn)) ->
  room_for_two v1 v2 (wo_fs W') (wo_place W' (key_name W bn)) (wo_place W' (pub_name W bn)) ->
  generate_told T C E W v1 v2 o = generate_told T C E W' v1 v2 o.
Proof.
  intros T C E W W' v1 v2 o bn rest Ha Ho Hg Hc Hk Hp Hpw R R'. unfold generate_told. rewrite Ha, Ho, Hg. cbv zeta. rewrite <- Hc. fold (key_name W bn) (pub_name W bn).
  rewrite (exists_same W W' _ Hk), (exists_same W W' _ Hp), (pass_same W W' _ _ Hpw). destruct (negb (ge_force o) && _); [reflexivity|].
  destruct (get_pass W' (ge_nopw o) (ge_envpw o)) as [pw|x|x]; [|reflexivity..]. destruct (rand_buf 32 (wo_rng W')) as [seed g].
  assert (S : forall v p, same_place W W' p -> forall m b f, write_file v m (wo_fs W) (wo_place W p) b f = write_file v m (wo_fs W') (wo_place W' p) b f).
  { intros v p H m b f. unfold write_file. rewrite (safe_same W W' v p f H), (proj1 H). reflexivity. }
  assert (S1 : serialize_private C E v1 (wo_fs W) (wo_place W (key_name W bn)) (new_private_key C seed) (ge_comment o) (ge_force o) pw g =
               serialize_private C E v1 (wo_fs W') (wo_place W' (key_name W bn)) (new_private_key C seed) (ge_comment o) (ge_force o) pw g).
  { unfold serialize_private. destruct (marshal_private C E _ _ _ _) as [[b|x|x] g2]; [|reflexivity..]. rewrite (S v1 _ Hk _ b _). reflexivity. }
  rewrite S1. destruct (serialize_private C E v1 (wo_fs W') _ _ _ _ _ _) as [[ops1 [u|x|x]] g2] eqn:Es; [|reflexivity..].
  assert (T1 : exists b, trace v1 (wo_place W' (key_name W bn)) b ops1 true).
  { unfold serialize_private in Es. destruct (marshal_private C E _ _ _ _) as [[b|x|x] g3]; [|discriminate Es..]. destruct (write_file v1 _ _ _ b _) as [ops r] eqn:Ew.
    injection Es as -> -> _. destruct (write_file_spec _ _ _ _ _ _ _ _ Ew) as [(_ & H & _)|(e & H & _)]; [eauto|discriminate H]. }
  destruct T1 as (b & Ht).
  assert (K : forall f, room_for_two v1 v2 f (wo_place W' (key_name W bn)) (wo_place W' (pub_name W bn)) ->
     content (run_ops f ops1) (wo_place W' (pub_name W bn)) = content f (wo_place W' (pub_name W bn))).
  { intros f (R1 & R2 & R3 & R4 & R5 & _). pose proof (trace_end v1 _ b ops1 true f R3 Ht) as Sw. destruct (swapped_replaced _ _ _ _ _ R3 Sw) as (_ & Keep).
    apply Keep; [intros X; apply R5; symmetry; exact X|exact R2]. }
  pose proof (K _ R') as K2. rewrite (proj1 Hk), (proj1 Hp) in R. pose proof (K _ R) as K1.
  assert (S2 : serialize_public E v2 (run_ops (wo_fs W) ops1) (wo_place W (pub_name W bn)) (sk_pk (new_private_key C seed)) (ge_comment o) (ge_force o) =
               serialize_public E v2 (run_ops (wo_fs W') ops1) (wo_place W' (pub_name W bn)) (sk_pk (new_private_key C seed)) (ge_comment o) (ge_force o)).
  { rewrite (proj1 Hp). unfold serialize_public, write_file.
    assert (So : safe_open v2 (run_ops (wo_fs W) ops1) (wo_place W' (pub_name W bn)) (ge_force o) = safe_open v2 (run_ops (wo_fs W') ops1) (wo_place W' (pub_name W bn)) (ge_force o)).
    { unfold safe_open. rewrite K1, K2. destruct Hp as [Hp1 Hp2]. rewrite <- Hp1. rewrite <- Hp1 in Hp2.
      destruct (content (wo_fs W) _), (content (wo_fs W') _); try reflexivity; exfalso; destruct Hp2 as [H1 H2]; [discriminate (H2 eq_refl)|discriminate (H1 eq_refl)]. }
    rewrite So. reflexivity. }
  rewrite S2. reflexivity.
Qed.
Print Assumptions C97_generate.

(** Another machine: CliScene's town with the files of [dec1] (decrypt -v s.pub -o out a.key signed) in other places, the other files gone or
    different, another home, nobody at the terminal, other standard input and random numbers. *)
Definition far_files : list (bytes * slot * bytes) :=
  [(str "signed", 31, file1); (str "a.key", 32, ak_text); (str "plain", 15, str "something else"); (str "s.pub", 33, spub); (str "anon", 35, str "x")].
Definition far : world :=
  let W := mk_world far_files in
  mkWorld (wo_fs W) (wo_place W) (fun _ => []) (fun _ => None) (wo_pieces W) (wo_mapped W) (fun _ => []) None None [] (wo_stdout W) g1 (fun _ => Ok 1).
Example C97_instance :
  do_args dec1 = [str "a.key"; str "signed"] /\ wo_stdout town = wo_stdout far /\ same_file town far (str "a.key") /\ same_pass town far (do_nopw dec1) (do_envpw dec1) /\
  same_file town far (do_pubkey dec1) /\ same_input town far (str "signed") /\ same_output town far (do_outfile dec1) /\
  (forall T, x_code (fst (decrypt_told T toy toyE far sf1 dec1)) = 0) /\ wo_fs town <> wo_fs far.
Proof.
  split; [reflexivity|]. split; [reflexivity|]. assert (F : forall p, content (wo_fs town) (wo_place town p) = content (wo_fs far) (wo_place far p) -> same_file town far p).
  { intros p H. split; [exact H|]. repeat split. }
  split; [apply F; vm_compute; reflexivity|]. split; [intros X; discriminate X|]. split; [apply F; vm_compute; reflexivity|].
  split; [split; [intros X; vm_compute in X; discriminate X|intros _; apply F; vm_compute; reflexivity]|].
  split; [intros _; split; [vm_compute; reflexivity|vm_compute; split; reflexivity]|].
  split; [intros T; vm_compute; reflexivity|]. intros X. apply (f_equal (fun f => content f 13)) in X. vm_compute in X. discriminate X.
Qed.
