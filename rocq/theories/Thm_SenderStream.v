(** C83 for files written through the stream writer. *)
From Verif Require Import Bytes BytesLemmas GoErr GoIO SpecIO IOProofs Pb SpecPb PbProofs Crypto CryptoLaws Keys Sign
  Encrypt Decrypt Stream Spec SpecStream SpecSecret EncryptProofs DecryptProofs AcceptProofs OpenProofs RoundTrip StreamProofs
  Support Thm_StreamFormat Thm_Secret Thm_Sender Thm_Stream Toy Scene.
Require Import ZifyBool.
Ltac Zify.zify_post_hook ::= Z.div_mod_to_equations.
Local Notation length := List.length.
Local Notation concat := List.concat.

(** as in Thm_Sender.v, for NewStreamWriter, Writes of [bs] and Close *)
Theorem C83_stream_sender_hidden :
  forall C, crypto_ok C ->
  forall seed sk seed' sk' blksize pks g e g', keypair C seed sk -> keypair C seed' sk' -> ed_public C seed <> ed_public C seed' ->
  0 <= blksize -> len pks < 2^40 -> (forall pk, In pk pks -> len (pk_Pk pk) = 32) -> session C (Some sk) blksize pks g e g' ->
  forall wr bs wr2 g2, streamed_to C e g' wr bs wr2 g2 ->
  let fk := keys_of C (e_hdr e) (e_key e) in
  exists C' e' data, crypto_ok C' /\
    same_but (eq (sender_key C (e_hdr e) (e_key e))) nothing (eq (trailer_message C fk data)) C C' /\
    session C' (Some sk') blksize pks g e' g' /\
    (forall wr' bs', accepts wr' -> exists wr3 g3, streamed_to C' e' g' wr' bs' wr3 g3) /\
    forall wr' bs' wr3 g3, concat bs' = concat bs -> streamed_to C' e' g' wr' bs' wr3 g3 ->
      exists file, wrote wr wr2 file /\ wrote wr' wr3 file.
Proof.
  intros C HC seed sk seed' sk' blk pks g e g' Hk Hk' Hne Hb Hp Hpk Hs wr bs wr2 g2 He fk.
  pose proof (keypair_good _ _ _ HC Hk) as Hg. pose proof (keypair_good _ _ _ HC Hk') as Hg'.
  pose proof (session_ready _ _ _ _ _ _ _ HC Hg Hs) as Hr. pose proof (header_small _ _ _ _ _ HC Hb Hr Hp) as Hl.
  pose proof (block_size_range blk Hb) as Hbr.
  destruct (streamed_exact _ _ _ _ _ _ _ _ _ _ HC Hg Hb Hr Hl He) as (cs & Hcs & Ht). cbv zeta in Ht. fold fk in Ht.
  set (M := trailer_message C fk (mac_input cs)).
  set (h := e_hdr e) in *. set (ek := fst (sender_keys C (e_key e) (h_salt h))). set (en := snd (sender_keys C (e_key e) (h_salt h))).
  set (x := sender_sig C (Some sk) (h_pk h) (h_salt h) (e_key e)).
  set (y := msign C seed seed' M true (sk_Sk sk') (msg_digest C (sender_cksum C (h_pk h) (h_salt h) (e_key e)))).
  set (C' := masked C ek en x y seed seed' M true).
  assert (Hy : len y = 64).
  { unfold y, msign. destruct (_ && _); [destruct (beq _ _); [|destruct (beq _ _)]|]; apply (ok_sign_len C HC). }
  assert (Hx : len x = 64) by (apply len_sender_sig; exact HC).
  assert (HC' : crypto_ok C').
  { apply masked_ok; [exact HC|lia|apply (kp_seed _ _ _ Hk)|apply (kp_seed _ _ _ Hk')]. }
  assert (Hseal : forall k n p a, len a <> 0 -> gcm_seal C' k n p a = gcm_seal C k n p a) by (intros; apply masked_seal; assumption).
  assert (Hs' : session C' (Some sk') blk pks g (e_from e (Some sk')) g').
  { apply (session_from C C' (Some sk)); try assumption; try reflexivity.
    - intros pk k n p Hin. apply Hseal. rewrite (Hpk _ Hin). discriminate.
    - fold h. unfold sender_box. change (sender_keys C' (e_key e) (h_salt h)) with (sender_keys C (e_key e) (h_salt h)).
      rewrite (surjective_pairing (sender_keys C (e_key e) (h_salt h))). fold ek en. fold x.
      change (sender_sig C' (Some sk') (h_pk h) (h_salt h) (e_key e)) with y. apply masked_box. }
  pose proof (session_ready _ _ _ _ _ _ _ HC' Hg' Hs') as Hr'. pose proof (header_small _ _ _ _ _ HC' Hb Hr' Hp) as Hl'.
  exists C', (e_from e (Some sk')), (mac_input cs). split; [exact HC'|].
  split.
  { destruct (masked_same C ek en x y seed seed' M true). constructor; auto.
    - intros k m Hm. apply sb_sign. intros [_ E]. apply Hm. symmetry. exact E.
    - intros k m v Hm. apply sb_verify. intros [_ E]. apply Hm. symmetry. exact E. }
  split; [exact Hs'|]. split.
  { eapply streamed_total; eauto. }
  intros wr' bs' wr3 g3 Hbs He'.
  destruct (streamed_exact _ _ _ _ _ _ _ _ _ _ HC' Hg' Hb Hr' Hl' He') as (cs2 & Hcs2 & Ht'). cbv zeta in Ht'. rewrite Hbs in Hcs2.
  rewrite (stream_chunks_det _ _ _ (proj1 Hbr) Hcs _ Hcs2) in Ht'. clear cs2 Hcs2.
  change (e_hdr (e_from e (Some sk'))) with h in Ht'. change (e_key (e_from e (Some sk'))) with (e_key e) in Ht'.
  change (keys_of C' h (e_key e)) with fk in Ht'.
  assert (Htr : trailer_from C' (Some sk') (fk_mac fk) (mac_input cs) g' = trailer_from C (Some sk) (fk_mac fk) (mac_input cs) g').
  { unfold trailer_from. f_equal.
    change (ed_sign C' (sk_Sk sk') (msg_digest C' (hmac_sha256 C' (fk_mac fk) (mac_input cs)))) with (msign C seed seed' M true (sk_Sk sk') M).
    change (msg_digest C (hmac_sha256 C (fk_mac fk) (mac_input cs))) with M.
    unfold msign. rewrite beq_refl. cbn [andb]. rewrite (kp_sk _ _ _ Hk'), (kp_sk _ _ _ Hk).
    rewrite drop_app_eq by (symmetry; apply (kp_seed _ _ _ Hk')).
    destruct (beq (ed_public C seed') (ed_public C seed)) eqn:E; [apply beq_eq in E; congruence|]. rewrite beq_refl. reflexivity. }
  rewrite Htr in Ht'. destruct (trailer_from C (Some sk) (fk_mac fk) (mac_input cs) g') as [tr gx].
  destruct Ht as (_ & _ & Ho & _). destruct Ht' as (_ & _ & Ho' & _). eexists. split; [exact Ho|]. unfold wrote. rewrite Ho'. f_equal.
  unfold sigtool_file, header_cksum. change (sha256 C') with (sha256 C). do 2 f_equal.
  unfold body. change (keys_of C' h (e_key e)) with fk. change (keys_of C h (e_key e)) with fk. f_equal.
  apply frames_same. intros. apply Hseal. lia.
Qed.
Print Assumptions C83_stream_sender_hidden.

Theorem C83_stream_anonymous :
  forall C, crypto_ok C ->
  forall seed sk blksize pks g e g', keypair C seed sk ->
  0 <= blksize -> len pks < 2^40 -> (forall pk, In pk pks -> len (pk_Pk pk) = 32) -> session C (Some sk) blksize pks g e g' ->
  forall wr bs wr2 g2, streamed_to C e g' wr bs wr2 g2 ->
  exists C' e' h h', crypto_ok C' /\ same_but (eq (sender_key C (e_hdr e) (e_key e))) nothing nothing C C' /\
    pos h = pos g /\ (forall i, i < pos g' -> tape h i = tape g i) /\
    session C' None blksize pks h e' h' /\
    (forall wr' bs', accepts wr' -> exists wr3 g3, streamed_to C' e' h' wr' bs' wr3 g3) /\
    forall wr' bs' wr3 g3, concat bs' = concat bs -> streamed_to C' e' h' wr' bs' wr3 g3 ->
      exists file, wrote wr wr2 file /\ wrote wr' wr3 file.
Proof.
  intros C HC seed sk blk pks g e g' Hk Hb Hp Hpk Hs wr bs wr2 g2 He.
  pose proof (keypair_good _ _ _ HC Hk) as Hg. assert (Hg' : good_sender None) by (intros ? ?; discriminate).
  pose proof (session_ready _ _ _ _ _ _ _ HC Hg Hs) as Hr. pose proof (header_small _ _ _ _ _ HC Hb Hr Hp) as Hl.
  pose proof (block_size_range blk Hb) as Hbr.
  destruct (streamed_exact _ _ _ _ _ _ _ _ _ _ HC Hg Hb Hr Hl He) as (cs & Hcs & Ht). cbv zeta in Ht.
  set (fk := keys_of C (e_hdr e) (e_key e)) in *.
  set (h := e_hdr e) in *. set (ek := fst (sender_keys C (e_key e) (h_salt h))). set (en := snd (sender_keys C (e_key e) (h_salt h))).
  set (x := sender_sig C (Some sk) (h_pk h) (h_salt h) (e_key e)).
  set (C' := masked C ek en x (zeros 64) seed seed [] false).
  assert (Hx : len x = 64) by (apply len_sender_sig; exact HC).
  assert (HC' : crypto_ok C').
  { apply masked_ok; [exact HC|rewrite Hx; reflexivity|apply (kp_seed _ _ _ Hk)|apply (kp_seed _ _ _ Hk)]. }
  assert (Hseal : forall k n p a, len a <> 0 -> gcm_seal C' k n p a = gcm_seal C k n p a) by (intros; apply masked_seal; assumption).
  assert (Hs' : session C' None blk pks g (e_from e None) g').
  { apply (session_from C C' (Some sk)); try assumption; try reflexivity.
    - intros pk k n p Hin. apply Hseal. rewrite (Hpk _ Hin). discriminate.
    - fold h. unfold sender_box. change (sender_keys C' (e_key e) (h_salt h)) with (sender_keys C (e_key e) (h_salt h)).
      rewrite (surjective_pairing (sender_keys C (e_key e) (h_salt h))). fold ek en. fold x.
      change (sender_sig C' None (h_pk h) (h_salt h) (e_key e)) with (zeros 64). apply masked_box. }
  destruct (trailer_from C (Some sk) (fk_mac fk) (mac_input cs) g') as [tr gx]. destruct Ht as (_ & (Htl & _) & Ho & _).
  set (t := fun i => if i <? pos g' then tape g i else nth (Z.to_nat (i - pos g')) tr x00).
  assert (Hpos : pos g <= pos g').
  { destruct Hs as (e0 & g0 & Hn & Ha). destruct (add_recipients_pos _ _ _ _ _ _ Ha) as [D _].
    unfold new_encryptor, new_sender in Hn. destruct (rand_buf 32 g) as [r g1] eqn:E1. destruct (rand_buf aes_key_size g1) as [key g2'] eqn:E2.
    destruct (rand_buf salt_size g2') as [salt g3] eqn:E3. apply rand_buf_pos in E1, E2, E3.
    destruct (add_sender_sig _ _ _ _ _) as [[]| |]; injection Hn as _ <-; lia. }
  assert (Hst : session C' None blk pks (mkRng t (pos g)) (e_from e None) (mkRng t (pos g'))).
  { apply (session_tape _ _ _ _ g _ g'); [exact Hs'|]. intros i Hi. unfold t. destruct (Z.ltb_spec i (pos g')); [reflexivity|lia]. }
  pose proof (session_ready _ _ _ _ _ _ _ HC' Hg' Hst) as Hr'. pose proof (header_small _ _ _ _ _ HC' Hb Hr' Hp) as Hl'.
  exists C', (e_from e None), (mkRng t (pos g)), (mkRng t (pos g')). split; [exact HC'|].
  split.
  { destruct (masked_same C ek en x (zeros 64) seed seed [] false). constructor; auto; intros; first [apply sb_sign|apply sb_verify]; intros [E _]; discriminate. }
  split; [reflexivity|]. split; [intros i Hi; cbn [tape]; unfold t; destruct (Z.ltb_spec i (pos g')); [reflexivity|lia]|].
  split; [exact Hst|]. split.
  { eapply streamed_total; eauto. }
  intros wr' bs' wr3 g3 Hbs He'.
  destruct (streamed_exact _ _ _ _ _ _ _ _ _ _ HC' Hg' Hb Hr' Hl' He') as (cs2 & Hcs2 & Ht'). cbv zeta in Ht'. rewrite Hbs in Hcs2.
  rewrite (stream_chunks_det _ _ _ (proj1 Hbr) Hcs _ Hcs2) in Ht'. clear cs2 Hcs2.
  change (e_hdr (e_from e None)) with h in Ht'. change (e_key (e_from e None)) with (e_key e) in Ht'.
  assert (Htr : fst (rand_buf sig_size (mkRng t (pos g'))) = tr).
  { unfold rand_buf. cbn [fst tape pos]. unfold sig_size. change (Z.to_nat 64) with 64%nat.
    assert (Hn : length tr = 64%nat) by (unfold len in Htl; lia). rewrite <- Hn. clear -Hpos.
    assert (forall l k, (forall j, (j < length l)%nat -> t (pos g' + k + Z.of_nat j) = nth j l x00) -> rng_bytes t (pos g' + k) (length l) = l) as Haux.
    { induction l as [|b l IH]; intros k H; [reflexivity|]. cbn [length rng_bytes]. f_equal.
      - rewrite <- (Z.add_0_r (pos g' + k)). apply (H 0%nat). cbn; lia.
      - replace (pos g' + k + 1) with (pos g' + (k + 1)) by lia. apply IH. intros j Hj.
        replace (pos g' + (k + 1) + Z.of_nat j) with (pos g' + k + Z.of_nat (S j)) by lia. apply (H (S j)). cbn; lia. }
    rewrite <- (Z.add_0_r (pos g')). apply Haux. intros j Hj. unfold t. destruct (Z.ltb_spec (pos g' + 0 + Z.of_nat j) (pos g')); [lia|].
    f_equal. lia. }
  unfold trailer_from in Ht'. rewrite (surjective_pairing (rand_buf sig_size (mkRng t (pos g')))), Htr in Ht'.
  destruct Ht' as (_ & _ & Ho' & _). eexists. split; [exact Ho|]. unfold wrote. rewrite Ho'. f_equal.
  unfold sigtool_file, header_cksum. change (sha256 C') with (sha256 C). do 2 f_equal.
  unfold body. change (keys_of C' h (e_key e)) with fk. change (keys_of C h (e_key e)) with fk. f_equal.
  apply frames_same. intros. apply Hseal. lia.
Qed.
Print Assumptions C83_stream_anonymous.
(** a file streamed by S in two Writes: the same bytes come from B, or from nobody, with another content split *)
Example C83_stream_instance : exists wr2 g2 file,
  streamed_to toy e1 g1 dst [str "atta"; str "ck at dawn"] wr2 g2 /\ wrote dst wr2 file /\
  (exists C' e' wr3 g3, crypto_ok C' /\ session C' (Some skB) 4 [pkA; pkB] g0 e' g1 /\ streamed_to C' e' g1 dst [str "attack at dawn"] wr3 g3 /\ wrote dst wr3 file) /\
  (exists C' e' h h' wr3 g3, crypto_ok C' /\ session C' None 4 [pkA; pkB] h e' h' /\ streamed_to C' e' h' dst [str "attack at dawn"] wr3 g3 /\ wrote dst wr3 file).
Proof.
  assert (H32 : forall pk, In pk [pkA; pkB] -> len (pk_Pk pk) = 32).
  { intros pk [<-|[<-|[]]]; vm_compute; reflexivity. }
  assert (Hg : good_sender (Some skS)) by (intros sk E; injection E as <-; vm_compute; reflexivity).
  destruct (streamed_total toy (Some skS) 4 [pkA; pkB] g0 e1 g1 toy_ok ltac:(lia) ltac:(cbn; lia) Hg session1 dst [str "atta"; str "ck at dawn"] dst_accepts) as (wr2 & g2 & Hst).
  exists wr2, g2.
  destruct (C83_stream_sender_hidden toy toy_ok seedS skS seedB skB 4 [pkA; pkB] g0 e1 g1 kS kB
      ltac:(intros E; apply (f_equal (fun l => beq l (ed_public toy seedS))) in E; vm_compute in E; discriminate) ltac:(lia) ltac:(cbn; lia)
      H32 session1 dst _ wr2 g2 Hst) as (C' & e' & d & HC & _ & Hs & Ht & Hf).
  destruct (Ht dst [str "attack at dawn"] dst_accepts) as (wr3 & g3 & H3).
  destruct (Hf dst [str "attack at dawn"] wr3 g3 eq_refl H3) as (file & F1 & F2). exists file. split; [exact Hst|]. split; [exact F1|]. split.
  { exists C', e', wr3, g3. auto. }
  destruct (C83_stream_anonymous toy toy_ok seedS skS 4 [pkA; pkB] g0 e1 g1 kS ltac:(lia) ltac:(cbn; lia)
      H32 session1 dst _ wr2 g2 Hst) as (C2 & e'' & h & h' & HC2 & _ & _ & _ & Hs2 & Ht2 & Hf2).
  destruct (Ht2 dst [str "attack at dawn"] dst_accepts) as (wr4 & g4 & H4).
  destruct (Hf2 dst [str "attack at dawn"] wr4 g4 eq_refl H4) as (file2 & F3 & F4). exists C2, e'', h, h', wr4, g4. split; [exact HC2|]. split; [exact Hs2|]. split; [exact H4|].
  unfold wrote in *. rewrite F4. rewrite F1 in F3. apply app_inv_head in F3. rewrite F3. reflexivity.
Qed.
