(** When `generate` exits 0 (C43), and when `encrypt` to standard output does (C64). *)
From Verif Require Import Bytes BytesLemmas GoErr GoIO SpecIO IOProofs Support Pb SpecPb Crypto CryptoLaws Keys Sign SpecSign Encrypt Decrypt Spec EncryptProofs DecryptProofs OpenProofs FreeProofs Thm_Encrypt
  KeyFiles ExtLaws Base64 GoText Ssh SpecSsh Fs SpecFs FsProofs Store Cli SpecCli CliProofs Toy Scene ToyExt Thm_KeyFiles CliScene Thm_Cli Thm_Files Thm_Commands Thm_Touch Thm_Texts Thm_EndToEnd.
Local Notation length := List.length.
Local Notation concat := List.concat.

(** If it exits 0, a passphrase was given (or none was asked for), neither file existed (or --overwrite was given), and no system call that
    matters failed; conversely, all this and a disk that takes what is written make it exit 0. *)
Theorem C43_generate_exit_status :
  forall C E, crypto_ok C -> ext_ok E -> forall W v1 v2 o bn rest, ge_args o = bn :: rest ->
  let f := wo_fs W in let K := wo_place W (wo_clean W bn ++ str ".key") in let P := wo_place W (wo_clean W bn ++ str ".pub") in
  room_for_two v1 v2 f K P -> let x := cli_generate C E W v1 v2 o in
  let may := (exists pw, passphrase W (ge_nopw o) (ge_envpw o) (Ok pw)) /\ (ge_force o = true \/ content f K = None /\ content f P = None) /\
             se_open v1 = None /\ close_err v1 = None /\ se_open v2 = None /\ close_err v2 = None in
  (x_code x = 0 -> may) /\
  (may -> Forall (fun p => snd p = None) (se_writes v1) -> Forall (fun p => snd p = None) (se_writes v2) -> x_code x = 0).
Proof.
  intros C E HC HE W v1 v2 o bn rest Ha f K P (HKP & HL & F1 & F2 & T1 & T2 & T12 & I12) x may.
  assert (CE : forall v, close_err v = None <-> se_sync v = None /\ se_close v = None /\ se_rename v = None).
  { intros v. unfold close_err. destruct (se_sync v), (se_close v), (se_rename v); split; try discriminate; try (intros (A & B & D); discriminate); auto. }
  unfold x, cli_generate. rewrite Ha. cbv zeta. unfold exists_. fold K P f.
  pose proof (get_pass_ok W (ge_nopw o) (ge_envpw o)) as G.
  assert (PU : forall r, passphrase W (ge_nopw o) (ge_envpw o) r -> (exists pw, r = Ok pw) \/ (exists e, r = Fail e)).
  { intros r. unfold passphrase. destruct (ge_nopw o); [intros ->; eauto|]. intros [A B]. destruct (ge_envpw o) as [|z l]; [|left; eexists; apply A; discriminate].
    specialize (B eq_refl). destruct (wo_ask W); eauto. }
  assert (PD : forall r r', passphrase W (ge_nopw o) (ge_envpw o) r -> passphrase W (ge_nopw o) (ge_envpw o) r' -> (exists pw, r = Ok pw) -> exists pw, r' = Ok pw).
  { intros r r' H1 H2 [pw ->]. unfold passphrase in *. destruct (ge_nopw o); [subst; eauto|]. destruct H1 as [A B]. destruct H2 as [A' B'].
    destruct (ge_envpw o) as [|z l]; [|eexists; apply A'; discriminate]. specialize (B eq_refl). specialize (B' eq_refl). destruct (wo_ask W); [eauto|]. destruct B; discriminate. }
  destruct (negb (ge_force o) && _) eqn:Ex.
  { cbn [x_code]. split; [discriminate|]. intros (_ & Hf & _). exfalso. destruct (ge_force o); [discriminate Ex|]. destruct Hf as [Hf|[H1 H2]]; [discriminate|]. rewrite H1, H2 in Ex. discriminate. }
  assert (Hov : ge_force o = true \/ content f K = None /\ content f P = None).
  { destruct (ge_force o); [auto|]. right. cbn [negb andb] in Ex. destruct (content f P), (content f K); try discriminate Ex. auto. }
  destruct (get_pass W (ge_nopw o) (ge_envpw o)) as [pw|e|p] eqn:Ep.
  2:{ cbn [x_code code_of]. split; [discriminate|]. intros ((pw & Hp) & _). destruct (PD _ _ Hp G ltac:(eauto)) as [pw' Z]. discriminate Z. }
  2:{ destruct (PU _ G) as [[? Z]|[? Z]]; discriminate Z. }
  destruct (rand_buf 32 (wo_rng W)) as [seed g] eqn:Er. unfold serialize_private. destruct (rand_buf 32 g) as [salt g'] eqn:Eg.
  assert (Hs : len seed = 32) by (eapply len_rand_buf; [|exact Er]; lia).
  assert (Lp : len (ed_public C seed) = 32) by apply (ok_ed_public_len C HC).
  rewrite (proj1 (C80_marshal C E HC HE) (new_private_key C seed) (ge_comment o) pw g salt g'); [|cbn [new_private_key sk_Sk]; rewrite len_app; lia|exact Eg].
  set (kt := private_text _ _ _ _ _ _). destruct (write_file v1 (oct 6 0 0) f K kt (ge_force o)) as [ops1 r1] eqn:E1.
  destruct (C42_write_outcome _ _ _ _ _ _ _ _ F1 E1) as (_ & A1 & A2 & _).
  destruct (write_file_spec _ _ _ _ _ _ _ _ E1) as [(-> & Ht & _)|(e & -> & Ho)].
  - specialize (A1 eq_refl). unfold serialize_public. set (f1 := run_ops f ops1). pose proof (trace_end v1 K kt ops1 true f F1 Ht) as Sw. cbn in Sw. fold f1 in Sw.
    destruct (swapped_replaced _ _ _ _ _ F1 Sw) as (_ & Keep).
    assert (HP : content f1 P = content f P) by (apply Keep; [congruence|exact HL]).
    assert (F2' : fresh v2 f1 P) by (inversion Ht; subst; unfold f1; apply fresh_after; assumption).
    destruct (write_file v2 (oct 6 4 4) f1 P _ (ge_force o)) as [ops2 r2] eqn:E2. cbn [x_code].
    destruct (C42_write_outcome _ _ _ _ _ _ _ _ F2' E2) as (_ & B1 & B2 & _).
    destruct (write_file_spec _ _ _ _ _ _ _ _ E2) as [(-> & _)|(e & -> & _)].
    + specialize (B1 eq_refl). cbn [code_of]. split; [intros _|reflexivity]. split; [exists pw; exact G|]. split; [exact Hov|]. rewrite !CE. tauto.
    + cbn [code_of]. split; [discriminate|]. intros (_ & _ & _ & _ & M3 & M4) _ W2. apply CE in M4. assert (X : Fail e = @Ok unit tt) by (apply B2; try tauto; rewrite HP; destruct Hov as [|[? ?]]; auto). discriminate X.
  - cbn [x_code code_of]. split; [discriminate|]. intros (_ & _ & M1 & M2 & _) W1 _. apply CE in M2. assert (X : Fail e = @Ok unit tt) by (apply A2; try tauto; destruct Hov as [|[? ?]]; auto). discriminate X.
Qed.
Print Assumptions C43_generate_exit_status.
(** gen id in CliScene's town (see C43_instance) *)
Example C43_exit_instance :
  room_for_two sf1 sf2 (wo_fs town) (wo_place town (wo_clean town (str "id") ++ str ".key")) (wo_place town (wo_clean town (str "id") ++ str ".pub")) /\
  (exists pw, passphrase town (ge_nopw gen1) (ge_envpw gen1) (Ok pw)) /\ se_open sf1 = None /\ close_err sf1 = None /\ se_open sf2 = None /\ close_err sf2 = None /\
  x_code (cli_generate toy toyE town sf1 sf2 gen1) = 0.
Proof.
  split; [|split; [|repeat (split; [vm_compute; reflexivity|]); vm_compute; reflexivity]].
  - exact gen_room.
  - pose proof (get_pass_ok town (ge_nopw gen1) (ge_envpw gen1)) as G. exists (str "pass"). exact G.
Qed.

(** `encrypt` to standard output exits 0 if every argument can be resolved and standard output takes everything (C64 says what is then on it) *)
Theorem C64_encrypt_succeeds :
  forall C, crypto_ok C -> forall E W v o to infile blk sk pks rd s ks,
  eo_args o = to ++ [infile] -> to <> [] -> wo_size W (eo_size o) = Ok blk -> 0 <= blk -> len pks < 2^40 ->
  match sk with
  | None => eo_keyfile o = []
  | Some k => eo_keyfile o <> [] /\ (exists seed, keypair C seed k) /\ private_in C E W (eo_nopw o) (eo_envpw o) (eo_keyfile o) k
  end ->
  authorized C W ks -> Forall2 (recipient C E W) to pks -> Forall (fun pk => exists seed, pubof C seed pk) pks ->
  input_is W infile rd -> delivers rd s IoEOF ->
  ~ a_file (eo_outfile o) -> Forall (fun p => snd p = None) (w_sched (wo_stdout W)) -> (forall e cs, w_closes (wo_stdout W) <> Some e :: cs) ->
  x_code (cli_encrypt C E W v o) = 0.
Proof.
  intros C HC E W v o to infile blk sk pks rd s ks Ha Hto Hs Hb Hp Hk Hau Hr Hpk Hi Hd Ho Hwr Hcl.
  unfold cli_encrypt. rewrite Hs. assert (Hg : good_sender sk).
  { destruct sk as [k|]; [|intros k Z; discriminate Z]. destruct Hk as (_ & (seed & Hkp) & _). exact (keypair_good C seed k HC Hkp). }
  assert (Ek : (if 0 <? len (eo_keyfile o) then sk0 <- read_private_key C E (slurp W (eo_keyfile o)) (Some (get_pass W (eo_nopw o) (eo_envpw o))) ;; Ok (Some sk0) else Ok None) = Ok sk).
  { destruct sk as [k|]; [|rewrite Hk; reflexivity]. destruct Hk as (Hne & _ & Hk). rewrite (proj2 (len_pos _) Hne). apply private_ok in Hk. rewrite Hk. reflexivity. }
  rewrite Ek. destruct (Z.ltb_spec (len (eo_args o)) 2) as [L|_].
  { exfalso. rewrite Ha, len_app in L. destruct to as [|a to]; [contradiction|]. rewrite len_cons in L. pose proof (len_nonneg to). change (len [infile]) with 1 in L. lia. }
  cbv zeta. rewrite Ha, last_last, removelast_last. apply input_ok in Hi. rewrite Hi.
  pose proof Hau as (home & Eh & Hks). rewrite Eh. cbv zeta in Hks.
  assert (G : x_code (with_output W v (oct 6 0 0) (eo_outfile o) (names_file (eo_outfile o)) (eo_force o) (enc_body C E W ks sk blk to rd)) = 0).
  { assert (Hnm : names_file (eo_outfile o) = false) by (destruct (names_file (eo_outfile o)) eqn:Z; [apply names_ok in Z; contradiction|reflexivity]). rewrite Hnm. unfold with_output.
    destruct (enc_body C E W ks sk blk to rd (wo_stdout W)) as [c w] eqn:Hbd.
    cbn [x_code]. unfold enc_body in Hbd. destruct (session_total C sk blk pks (wo_rng W) HC Hg Hpk) as (e & g' & Hss). pose proof Hss as (e0 & g0 & En & Ear). rewrite En in Hbd.
    rewrite (enc_recipients_total C E W ks to pks e0 g0 0 e g') in Hbd; [|clear -Hr Hau; induction Hr; constructor; [apply lookup_ok; assumption|assumption]|exact Ear].
    change (0 <? 0) with false in Hbd. cbv iota in Hbd. pose proof (session_ready _ _ _ _ _ _ _ HC Hg Hss) as Hrd.
    assert (Hl : len (pb_header (e_hdr e)) < 2^62) by (eapply header_small; eauto).
    destruct (encrypt C e rd (wo_stdout W) g') as [[[[e2 rd2] w2] g2] rs] eqn:Ee.
    pose proof (encrypt_spec _ _ _ _ _ _ _ _ _ _ _ _ _ _ _ HC Hg Hb Hrd Hl Hd Ee) as (_ & Hsp).
    pose proof (encrypt_free _ _ _ _ _ _ _ _ _ _ Ee) as Hfr.
    destruct rs as [[]|y|p]; [injection Hbd as <- _; reflexivity| |contradiction]. exfalso.
    destruct Hsp as [[_ Hn]|[(m & y' & Hm & _)|Hm]].
    - apply Hn. left. reflexivity.
    - rewrite Forall_forall in Hwr. specialize (Hwr _ Hm). discriminate Hwr.
    - destruct Hm as (cs & Hm). exact (Hcl _ _ Hm). }
  destruct Hks as [[Hn ->]|(b & Hh & P)].
  - assert (slurp W (home ++ str "/.ssh/authorized_keys") = Fail enoent) as ->.
    { unfold slurp, read_file. destruct Hn as [->| ->]; [reflexivity|]. match goal with |- context [content ?a ?b] => destruct (content a b) eqn:EC; cbn; try reflexivity end. }
    cbn [not_exist enoent]. change (parse_authorized_keys C []) with (Ok (A := list pubkey) []). exact G.
  - apply slurp_ok in Hh. rewrite Hh, P. exact G.
Qed.
Print Assumptions C64_encrypt_succeeds.
Example C64_succeeds_instance :
  (forall e cs, w_closes (wo_stdout town) <> Some e :: cs) /\ x_code (cli_encrypt toy toyE town sf1 (enc_to [str "a.pub"; str "bob@host"] [] (str "s.key") false)) = 0 /\
  x_code (cli_encrypt toy toyE town sf1 (enc_to [str "a.pub"; str "eve@host"] [] (str "s.key") false)) = 1.
Proof. split; [discriminate|]. split; vm_compute; reflexivity. Qed.
