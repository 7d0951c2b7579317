(** Composition: what happens when an encrypted byte stream is opened and decrypted. *)
From Verif Require Import Bytes BytesLemmas GoErr GoIO SpecIO IOProofs Pb SpecPb PbProofs Crypto CryptoLaws Keys Sign
  Encrypt Decrypt Spec EncryptProofs DecryptProofs AcceptProofs OpenProofs.
Require Import ZifyBool.
Ltac Zify.zify_post_hook ::= Z.div_mod_to_equations.
Local Notation length := List.length.
Local Notation concat := List.concat.

(** state of a decryptor after NewDecryptor and SetPrivateKey on bytes [s] *)
Record opened_state (C : crypto) (s : bytes) (er : goerr) (seed : bytes) (spk : option pubkey) (d : decryptor)
   (h : header) (ck rest root : bytes) : Prop := {
  os_header : valid_header C s h ck rest;
  os_root : unwraps C h seed root;
  os_sender : verify_sender C h root spk = Ok (d_auth d);
  os_spk : d_sender d = spk;
  os_hdr : d_hdr d = h;
  os_key : d_key d = Some root;
  os_live : let fk := derive_keys C root ck in dlive d (fk_data fk) (fk_base fk) (fk_mac fk) [];
  os_rd : delivers (d_rd d) rest er;
  os_eof : d_eof d = false;
  os_stream : d_stream d = false;
  os_buf : d_buf d = [] }.

Lemma opened_by_inv C rd sk spk d s er seed : crypto_ok C -> delivers rd s er -> keypair C seed sk ->
  opened_by C rd sk spk d -> exists h ck rest root, opened_state C s er seed spk d h ck rest root.
Proof.
  intros HC Hd Hk (d0 & rd' & sk' & Hn & Hs).
  pose proof (new_decryptor_spec C rd s er _ _ HC Hd Hn) as (h & ck & rest & Hv & -> & Hr).
  assert (Hu : unkeyed (fresh_dec h rd' ck)).
  { split; [reflexivity|]. cbn. destruct Hv as (var & _ & _ & _ & _ & _ & Hc & _). exact Hc. }
  pose proof (set_private_key_spec C _ seed sk spk _ _ _ HC Hu Hk Hs) as (_ & _ & root & signed & Hf & Hkd & Hvs). cbn in Hf, Hvs.
  exists h, ck, rest, root. pose proof Hkd as Hd'. unfold keyed in Hd'. cbn in Hd'.
  assert (Hpk : signed = true -> exists pk, spk = Some pk /\ len (pk_Pk pk) = 32).
  { intros ->. pose proof (verify_sender_spec C h root spk HC) as Hx. rewrite Hvs in Hx. destruct Hx as (pk & sig & H1 & H2 & _). eauto. }
  pose proof (keyed_live _ _ _ _ _ _ HC Hu Hkd Hpk) as Hl. cbn in Hl.
  constructor; rewrite ?Hd'; cbn; auto. rewrite Hd' in Hl. exact Hl.
Qed.

(** the same, for the completeness direction *)
Lemma opened_by_intro C rd sk spk s er seed h ck rest root b : crypto_ok C -> delivers rd s er -> keypair C seed sk ->
  valid_header C s h ck rest -> (exists sk', find_key C h (h_keys h) sk = (Ok root, sk')) ->
  verify_sender C h root spk = Ok b -> exists d, opened_by C rd sk spk d /\ opened_state C s er seed spk d h ck rest root /\ d_auth d = b.
Proof.
  intros HC Hd Hk Hv (sk' & Hf) Hvs. destruct (new_decryptor C rd) as [rs rd'] eqn:En.
  pose proof (new_decryptor_spec C rd s er _ _ HC Hd En) as Hn. destruct rs as [d0|x|]; [| |contradiction].
  2: { exfalso. apply Hn. eauto. }
  destruct Hn as (h1 & ck1 & rest1 & Hv1 & Hd0 & Hr). destruct (valid_header_det _ _ _ _ _ _ _ _ Hv Hv1) as (<- & <- & <-).
  destruct (set_private_key C d0 sk spk) as [[d2 sk2] rs2] eqn:Es.
  assert (Hrs : rs2 = Ok tt /\ exists nd, keyed C d0 root spk b nd /\ d2 = nd).
  { unfold set_private_key in Es. rewrite Hd0 in Es. cbn [d_hdr fresh_dec] in Es. rewrite Hf, Hvs in Es. cbv zeta in Es.
    unfold expand in Es. change (sha256_size + aes_key_size + aead_nonce_size) with 76 in Es.
    change aead_nonce_size with 12 in Es. change aes_key_size with 32 in Es. change data_key_expansion with (str "Data Key Expansion") in Es.
    cbn [d_hdrsum fresh_dec] in Es.
    pose proof (len_hkdf C root ck (str "Data Key Expansion") 76 HC ltac:(lia)) as Hkl.
    rewrite new_gcm_32 in Es by (rewrite len_take_le; [reflexivity|]; rewrite len_drop by lia; lia).
    rewrite drop_drop in Es by lia. change (32 + 12) with 44 in Es. change gcm_overhead with 16 in Es. cbn [orb d_auth fresh_dec] in Es.
    injection Es as <- <- <-. split; [reflexivity|]. eexists. split; [|reflexivity]. rewrite Hd0. reflexivity. }
  destruct Hrs as (-> & nd & Hkd & ->). exists nd.
  assert (Ho : opened_by C rd sk spk nd) by (exists d0, rd', sk2; auto).
  split; [exact Ho|]. destruct (opened_by_inv C rd sk spk nd s er seed HC Hd Hk Ho) as (h2 & ck2 & rest2 & root2 & Hos).
  assert (Hauth : d_auth nd = b) by (rewrite Hkd; reflexivity).
  destruct (valid_header_det _ _ _ _ _ _ _ _ Hv (os_header _ _ _ _ _ _ _ _ _ _ Hos)) as (<- & <- & <-).
  assert (root2 = root). { pose proof (os_key _ _ _ _ _ _ _ _ _ _ Hos) as Hkk. rewrite Hkd in Hkk. cbn in Hkk. congruence. }
  subst root2. split; [exact Hos|exact Hauth].
Qed.

(** ** Decrypt on an opened file *)
Lemma decrypt_spec C s er seed spk d h ck rest root w d' w' rs : crypto_ok C ->
  opened_state C s er seed spk d h ck rest root -> decrypt C d w = (d', w', rs) ->
  let fk := derive_keys C root ck in
  let tok := trailer_check C (d_auth d) spk (fk_mac fk) in
  later w w' /\
  (exists outs k, opened C (fk_data fk) (fk_base fk) (h_chunk h) 0 rest outs /\ w_out w' = w_out w ++ take k (concat outs)) /\
  match rs with
  | Ok _ => d_eof d' = true /\ exists outs rest2,
      accepted C (fk_data fk) (fk_base fk) (h_chunk h) tok 0 [] rest outs rest2 /\ w_out w' = w_out w ++ concat outs
      /\ delivers (d_rd d') rest2 er
  | Fail x => (exists m y, In (m, Some y) (w_sched w) /\ cause x = cause y) \/
              ~ (exists outs rest2, accepted C (fk_data fk) (fk_base fk) (h_chunk h) tok 0 [] rest outs rest2)
  | Panic _ => False
  end.
Proof.
  intros HC [] H. cbv zeta in *. unfold decrypt in H. rewrite os_key0, os_stream0, os_eof0 in H.
  pose proof (delivers_size _ _ _ os_rd0) as Hsz.
  assert (Hf : len rest < Z.of_nat (S (rd_size (d_rd d)))) by lia.
  pose proof (dec_loop_spec C HC _ _ _ _ _ _ _ _ _ _ _ _ _ os_live0 os_rd0 Hf H) as Hx.
  unfold dec_trailer_ok in Hx. rewrite os_hdr0, os_spk0 in Hx. exact Hx.
Qed.

Lemma decrypt_complete C s er seed spk d h ck rest root w outs rest2 : crypto_ok C ->
  opened_state C s er seed spk d h ck rest root -> accepts w ->
  let fk := derive_keys C root ck in
  accepted C (fk_data fk) (fk_base fk) (h_chunk h) (trailer_check C (d_auth d) spk (fk_mac fk)) 0 [] rest outs rest2 ->
  exists d' w', decrypt C d w = (d', w', Ok tt) /\ w_out w' = w_out w ++ concat outs.
Proof.
  intros HC Hos [Ha _] fk Hacc. destruct (decrypt C d w) as [[d' w'] rs] eqn:E.
  pose proof (decrypt_spec _ _ _ _ _ _ _ _ _ _ _ _ _ _ HC Hos E) as (_ & _ & H). cbv zeta in H. fold fk in H.
  destruct rs as [[]|x|]; [| |contradiction].
  - destruct H as (_ & outs2 & rest3 & Hacc2 & Hw & _).
    assert (Hch : h_chunk h < 2^30).
    { pose proof (dl_chunk _ _ _ _ _ (os_live _ _ _ _ _ _ _ _ _ _ Hos)) as Hc. rewrite (os_hdr _ _ _ _ _ _ _ _ _ _ Hos) in Hc. apply Hc. }
    destruct (accepted_det _ _ _ _ _ Hch _ _ _ _ _ Hacc _ _ Hacc2) as (-> & _). eauto.
  - exfalso. destruct H as [(m & y & Hm & _)|H]; [|apply H; eauto].
    rewrite Forall_forall in Ha. specialize (Ha _ Hm). discriminate.
Qed.

(** ** honest files *)
Section Honest.
  Variables (C : crypto) (HC : crypto_ok C) (sender : option privkey) (blk : Z) (pks : list pubkey) (e : encryptor).
  Hypothesis Hb : 0 <= blk < 2^30.
  Hypothesis Hr : ready C sender blk pks e.
  Hypothesis Hl : len (pb_header (e_hdr e)) <= 1048576.
  Variables (seed : bytes) (pk : pubkey) (sk : privkey) (spk : option pubkey).
  Hypothesis Hp : pubof C seed pk.
  Hypothesis Hin : In pk pks.
  Hypothesis Hk : keypair C seed sk.
  Hypothesis Hna : no_accident C (e_hdr e) seed (e_key e) \/ (exists l, pks = pk :: l).
  Hypothesis Hm : sender_matches C sender spk.
  Let h := e_hdr e.
  Let root := e_key e.
  Let fk := keys_of C h root.

  Lemma honest_open rd body er : delivers rd (full_header h ++ header_cksum C h ++ body) er ->
    exists d, opened_by C rd sk spk d /\
      opened_state C (full_header h ++ header_cksum C h ++ body) er seed spk d h (header_cksum C h) body root /\
      d_auth d = (match sender with Some _ => true | None => false end).
  Proof.
    intros Hd. eapply opened_by_intro; [exact HC|exact Hd|exact Hk| | |].
    - apply (ready_valid_header C sender blk pks); auto. destruct pks; [destruct Hin|discriminate].
    - apply (ready_find_key C sender blk pks e seed pk sk); auto.
    - apply (ready_verify_sender C sender blk pks e spk); auto.
  Qed.

  Lemma honest_trailer cs tr auth : good_trailer C sender fk cs tr -> (auth = true -> sender <> None) ->
    trailer_check C auth spk (fk_mac fk) (mac_input cs) tr.
  Proof.
    intros (H1 & H2) Ha Hauth. specialize (Ha Hauth). destruct sender as [ssk|]; [|congruence].
    destruct Hm as (sseed & pk' & Hks & -> & Hps). exists pk'. split; [reflexivity|]. split; [exact H1|].
    rewrite (H2 _ eq_refl), (po_pk _ _ _ Hps), (kp_sk _ _ _ Hks). apply (ok_verify_sign C HC). apply (po_seed _ _ _ Hps).
  Qed.

  Lemma honest_body_accepted d cs tr extra : d_auth d = (match sender with Some _ => true | None => false end) ->
    good_chunks (h_chunk h) cs -> good_trailer C sender fk cs tr ->
    exists outs rest, accepted C (fk_data fk) (fk_base fk) (h_chunk h) (trailer_check C (d_auth d) spk (fk_mac fk)) 0 []
      (body C fk cs tr ++ extra) outs rest /\ concat outs = concat cs /\
      (last cs [] <> [] -> rest = extra) /\ (last cs [] <> [] -> outs = cs).
  Proof.
    intros Ha Hg Ht. unfold body. rewrite <- app_assoc. apply honest_accepted; auto; [apply Ht|].
    cbn [app]. apply honest_trailer; [exact Ht|]. rewrite Ha. destruct sender; congruence.
  Qed.
End Honest.
