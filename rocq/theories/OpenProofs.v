(** Proofs about NewDecryptor and SetPrivateKey. *)
From Verif Require Import Bytes BytesLemmas GoErr GoIO SpecIO IOProofs Pb SpecPb PbProofs Crypto CryptoLaws Keys Sign
  Encrypt Decrypt Spec EncryptProofs DecryptProofs AcceptProofs.
Require Import ZifyBool.
Ltac Zify.zify_post_hook ::= Z.div_mod_to_equations.
Local Notation length := List.length.
Local Notation concat := List.concat.

Definition fresh_dec (h : header) (r : reader) (ck : bytes) : decryptor :=
  mkDec h None None None r [] 0 [] None ck false false false.

Lemma wkeys_sane_spec ks : wkeys_sane ks = true <-> Forall (fun w => 32 < len (w_dkey w)) ks.
Proof.
  induction ks as [|k ks IH]; cbn [wkeys_sane]; [split; auto|].
  unfold aes_key_size. destruct (Z.leb_spec (len (w_dkey k)) 32).
  - split; [discriminate|]. intros Hf. inversion Hf; subst. lia.
  - rewrite IH. split; intros Hf; [constructor; auto; lia|inversion Hf; auto].
Qed.

Lemma nth_drop (l : bytes) : forall n, 0 <= n < len l -> exists x l', drop n l = x :: l' /\ nth (Z.to_nat n) l x00 = x.
Proof.
  intros n Hn. rewrite drop_skipn. unfold len in Hn.
  assert (Hk : (Z.to_nat n < length l)%nat) by lia. generalize dependent (Z.to_nat n). clear n Hn.
  induction l as [|y l IH]; intros [|k] Hk; cbn in *; try lia; eauto. apply IH. lia.
Qed.

Lemma fixed_split b : len b = 12 -> take 7 b = magic -> b2z (nth 7 b x00) = 3 ->
  b = str "SigTool" ++ [x03] ++ be32 (unbe32 (drop 8 b)).
Proof.
  intros Hb Hm Hv. rewrite be32_unbe32 by (rewrite len_drop by lia; lia).
  rewrite <- (take_drop 7 b) at 1. rewrite Hm. f_equal.
  destruct (nth_drop b 7 ltac:(lia)) as (x & l' & Hd & Hn). change (Z.to_nat 7) with 7%nat in Hn. rewrite Hn in Hv.
  assert (Hx : x = x03) by (apply b2z_inj; rewrite Hv; reflexivity). clear Hn Hv. subst x.
  assert (Hl : drop 8 b = l'). { change 8 with (1 + 7). rewrite <- drop_drop by lia. rewrite Hd, drop_skipn. reflexivity. }
  rewrite Hl. exact Hd.
Qed.

Lemma new_decryptor_spec C r s er rs r' : crypto_ok C -> delivers r s er -> new_decryptor C r = (rs, r') ->
  match rs with
  | Ok d => exists h ck rest, valid_header C s h ck rest /\ d = fresh_dec h r' ck /\ delivers r' rest er
  | Fail _ => ~ exists h ck rest, valid_header C s h ck rest
  | Panic _ => False
  end.
Proof.
  intros HC Hd H. unfold new_decryptor in H. change fixed_hdr_len with 12 in H.
  assert (Hinv : forall h ck rest, valid_header C s h ck rest -> exists b var, s = b ++ var ++ ck ++ rest /\ len b = 12 /\
     b = str "SigTool" ++ [x03] ++ be32 (len var) /\ ck = sha256 C (b ++ var) /\ len ck = 32 /\
     32 <= len var <= 1048576 /\ unmarshal_header var = Ok h /\
    1 <= h_chunk h < 2^30 /\ len (h_salt h) = 32 /\ h_keys h <> [] /\ Forall (fun w => 32 < len (w_dkey w)) (h_keys h)).
  { intros h ck rest (var & Hv). cbv zeta in Hv. exists (str "SigTool" ++ [x03] ++ be32 (len var)), var. tauto. }
  destruct (Z.leb_spec 12 (len s)) as [Hs|Hs].
  2: { destruct (read_full_short _ _ _ 12 Hd ltac:(lia) Hs) as (r1 & Er). rewrite Er in H. cbv beta iota zeta in H.
       injection H as <- <-. intros (h & ck & rest & Hv). destruct (Hinv _ _ _ Hv) as (b & var & -> & Hb & _).
       rewrite !len_app in Hs. pose proof (len_nonneg var). pose proof (len_nonneg ck). pose proof (len_nonneg rest). lia. }
  destruct (read_full_ok _ _ _ 12 Hd ltac:(lia) Hs) as (r1 & Er & Hd1). rewrite Er in H. cbv beta iota zeta in H.
  set (b := take 12 s) in *. assert (Hb : len b = 12) by (apply len_take_le; lia).
  assert (Hsb : s = b ++ drop 12 s) by (symmetry; apply take_drop).
  assert (Hinv2 : forall h ck rest, valid_header C s h ck rest -> exists var,  drop 12 s = var ++ ck ++ rest /\
     b = str "SigTool" ++ [x03] ++ be32 (len var) /\ ck = sha256 C (b ++ var) /\ len ck = 32 /\
     32 <= len var <= 1048576 /\ unmarshal_header var = Ok h /\
    1 <= h_chunk h < 2^30 /\ len (h_salt h) = 32 /\ h_keys h <> [] /\ Forall (fun w => 32 < len (w_dkey w)) (h_keys h)).
  { intros h ck rest Hv. destruct (Hinv _ _ _ Hv) as (b' & var & Hs' & Hb' & Hx). pose proof (eq_trans (eq_sym Hsb) Hs') as Hq.
    apply app_inj_len in Hq; [|lia]. destruct Hq as [<- Hq]. exists var. split; [exact Hq|exact Hx]. }
  clear Hinv.
  assert (Hneg : forall P : Prop, (forall h ck rest, valid_header C s h ck rest -> ~ P) -> P -> ~ exists h ck rest, valid_header C s h ck rest).
  { intros P HP p (h & ck & rest & Hv). exact (HP _ _ _ Hv p). }
  destruct (beq (take 7 b) magic) eqn:Em; cbn [negb] in H.
  2: { injection H as <- <-. revert Em. apply Hneg. intros h ck rest Hv Em. destruct (Hinv2 _ _ _ Hv) as (var & _ & Hbb & _).
       rewrite Hbb in Em. cbn in Em. discriminate. }
  apply beq_eq in Em. change sigtool_version with 3 in H.
  destruct (Z.eqb_spec (b2z (nth 7 b x00)) 3) as [Ev|Ev]; cbn [negb] in H.
  2: { injection H as <- <-. revert Ev. apply Hneg. intros h ck rest Hv Ev. destruct (Hinv2 _ _ _ Hv) as (var & _ & Hbb & _).
       rewrite Hbb in Ev. apply Ev. reflexivity. }
  pose proof (fixed_split b Hb Em Ev) as Hfix.
  set (v := unbe32 (drop 8 b)) in *. pose proof (unbe32_range (drop 8 b)) as Hvr. fold v in Hvr.
  assert (Hvlen : forall var : bytes, len var <= 1048576 -> b = str "SigTool" ++ [x03] ++ be32 (len var) -> len var = v).
  { intros var Hvl Hbb. rewrite Hfix in Hbb. do 2 apply app_inv_head in Hbb.
    symmetry. apply be32_inj in Hbb; [exact Hbb|lia|pose proof (len_nonneg var); lia]. }
  destruct (Z.ltb_spec 1048576 v) as [Hbig|Hbig].
  { injection H as <- <-. revert Hbig. apply Hneg. intros h ck rest Hv Hbig. destruct (Hinv2 _ _ _ Hv) as (var & _ & Hbb & _ & _ & Hl & _).
    specialize (Hvlen var ltac:(lia) Hbb). lia. }
  destruct (Z.ltb_spec v 32) as [Hsm|Hsm].
  { injection H as <- <-. revert Hsm. apply Hneg. intros h ck rest Hv Hsm. destruct (Hinv2 _ _ _ Hv) as (var & _ & Hbb & _ & _ & Hl & _).
    specialize (Hvlen var ltac:(lia) Hbb). lia. }
  assert (Hu : u32 (v + sha256_size) = v + 32) by (unfold u32, sha256_size; apply Z.mod_small; lia).
  rewrite Hu in H.
  destruct (Z.leb_spec (v + 32) (len (drop 12 s))) as [Hs2|Hs2].
  2: { destruct (read_full_short _ _ _ (v + 32) Hd1 ltac:(lia) Hs2) as (r2 & Er2). rewrite Er2 in H. cbv beta iota zeta in H.
       injection H as <- <-. revert Hs2. apply Hneg. intros h ck rest Hv Hs2.
       destruct (Hinv2 _ _ _ Hv) as (var & Hdr & Hbb & _ & Hck & Hl & _).
       specialize (Hvlen var ltac:(lia) Hbb). rewrite Hdr, !len_app in Hs2. pose proof (len_nonneg rest). lia. }
  destruct (read_full_ok _ _ _ (v + 32) Hd1 ltac:(lia) Hs2) as (r2 & Er2 & Hd2). rewrite Er2 in H. cbv beta iota zeta in H.
  set (vb := take (v + 32) (drop 12 s)) in *. assert (Hvb : len vb = v + 32) by (apply len_take_le; lia).
  set (rest := drop (v + 32) (drop 12 s)) in *.
  assert (Hsv : drop 12 s = vb ++ rest) by (symmetry; apply take_drop).
  set (var := take v vb) in *. set (ver := drop v vb) in *.
  assert (Hvar : len var = v) by (apply len_take_le; lia).
  assert (Hver : len ver = 32) by (unfold ver; rewrite len_drop by lia; lia).
  assert (Hvv : vb = var ++ ver) by (symmetry; apply take_drop).
  assert (Hinv3 : forall h ck rest', valid_header C s h ck rest' ->
     ver = ck /\ ck = sha256 C (b ++ var) /\ unmarshal_header var = Ok h /\
    1 <= h_chunk h < 2^30 /\ len (h_salt h) = 32 /\ h_keys h <> [] /\ Forall (fun w => 32 < len (w_dkey w)) (h_keys h)).
  { intros h ck rest' Hv. destruct (Hinv2 _ _ _ Hv) as (var' & Hdr & Hbb & Hck & Hckl & Hl & Hx).
    specialize (Hvlen var' ltac:(lia) Hbb). rewrite Hsv, Hvv, <- app_assoc in Hdr.
    apply app_inj_len in Hdr; [|lia]. destruct Hdr as [<- Hdr].
    apply app_inj_len in Hdr; [|lia]. destruct Hdr as [<- _]. tauto. }
  destruct (beq ver (sha256 C (b ++ var))) eqn:Ec; cbn [negb] in H.
  2: { injection H as <- <-. intros (h & ck & rest' & Hv). destruct (Hinv3 _ _ _ Hv) as (H1 & H2 & _).
       rewrite H1, H2, beq_refl in Ec. discriminate. }
  apply beq_eq in Ec.
  pose proof (unmarshal_safe var ltac:(lia)) as Hsafe.
  destruct (unmarshal_header var) as [h|x|] eqn:Eu; [| |contradiction].
  2: { injection H as <- <-. intros (h & ck & rest' & Hv). destruct (Hinv3 _ _ _ Hv) as (_ & _ & H3 & _). discriminate. }
  destruct Hsafe as [_ Hch].
  assert (Hinv4 : forall h' ck rest', valid_header C s h' ck rest' ->
    1 <= h_chunk h < 2^30 /\ len (h_salt h) = 32 /\ h_keys h <> [] /\ Forall (fun w => 32 < len (w_dkey w)) (h_keys h)).
  { intros h' ck rest' Hv. destruct (Hinv3 _ _ _ Hv) as (_ & _ & H3 & H4). injection H3 as <-. exact H4. }
  change max_chunk with (2^30) in H.
  destruct ((h_chunk h =? 0) || (2^30 <=? h_chunk h)) eqn:E1.
  { injection H as <- <-. intros (h' & ck & rest' & Hv). destruct (Hinv4 _ _ _ Hv) as (H1 & _). lia. }
  change salt_size with 32 in H.
  destruct (Z.eqb_spec (len (h_salt h)) 32) as [E2|E2]; cbn [negb] in H.
  2: { injection H as <- <-. intros (h' & ck & rest' & Hv). destruct (Hinv4 _ _ _ Hv) as (_ & H1 & _). lia. }
  destruct (Z.eqb_spec (len (h_keys h)) 0) as [E3|E3].
  { injection H as <- <-. intros (h' & ck & rest' & Hv). destruct (Hinv4 _ _ _ Hv) as (_ & _ & H1 & _).
    apply H1. apply len_0_nil. exact E3. }
  destruct (wkeys_sane (h_keys h)) eqn:E4; cbn [negb] in H.
  2: { injection H as <- <-. intros (h' & ck & rest' & Hv). destruct (Hinv4 _ _ _ Hv) as (_ & _ & _ & H1).
       apply wkeys_sane_spec in H1. congruence. }
  injection H as <- <-. exists h, ver, rest. split; [|split; [rewrite Ec; reflexivity|exact Hd2]].
  exists var. cbv zeta. rewrite Hvar, <- Hfix. split; [rewrite Hsb at 1; rewrite Hsv, Hvv, <- app_assoc; reflexivity|].
  split; [exact Ec|]. split; [exact Hver|]. split; [lia|]. split; [exact Eu|]. split; [lia|]. split; [exact E2|].
  split; [intros Hn; apply E3; rewrite Hn; reflexivity|]. apply wkeys_sane_spec. exact E4.
Qed.

(** a valid header is found in only one way *)
Lemma valid_header_det C s h ck rest h' ck' rest' :
  valid_header C s h ck rest -> valid_header C s h' ck' rest' -> h = h' /\ ck = ck' /\ rest = rest'.
Proof.
  intros (var & Hs & Hck & Hcl & Hl & Hu & _) (var' & Hs' & Hck' & Hcl' & Hl' & Hu' & _). cbv zeta in *.
  rewrite Hs in Hs'. rewrite <- !app_assoc in Hs'. apply app_inj_len in Hs'; [|reflexivity]. destruct Hs' as [_ Hs'].
  apply app_inj_len in Hs'; [|reflexivity]. destruct Hs' as [_ Hs'].
  apply app_inj_len in Hs'; [|reflexivity]. destruct Hs' as [Hv Hs'].
  apply be32_inj in Hv; [|lia|lia]. apply app_inj_len in Hs'; [|lia]. destruct Hs' as [-> Hs'].
  apply app_inj_len in Hs'; [|lia]. destruct Hs' as [-> ->]. rewrite Hu in Hu'. injection Hu' as ->. auto.
Qed.

(** ** what a honest encryptor wrote is a valid header *)
Lemma ready_valid_header C sender blk pks e rest : crypto_ok C -> 0 <= blk < 2^30 -> ready C sender blk pks e -> pks <> [] ->
  len (pb_header (e_hdr e)) <= 1048576 ->
  valid_header C (full_header (e_hdr e) ++ header_cksum C (e_hdr e) ++ rest) (e_hdr e) (header_cksum C (e_hdr e)) rest.
Proof.
  intros HC Hb Hr Hp Hl. exists (pb_header (e_hdr e)). cbv zeta. unfold header_cksum, full_header.
  split; [rewrite <- !app_assoc; reflexivity|]. split; [rewrite <- !app_assoc; reflexivity|].
  split; [apply (ok_sha256_len C HC)|].
  split. { pose proof (ready_header_len C sender blk pks e HC ltac:(lia) Hr) as Hx. split; [|exact Hl].
           assert (0 <= size_varint (block_size blk)).
           { apply Z.div_pos; [|lia]. pose proof (Z.log2_nonneg (Z.lor (block_size blk) 1)). lia. }
           unfold chunk_field_len in Hx. rewrite Hx. pose proof (len_nonneg pks). lia. }
  split. { apply unmarshal_spec; [|apply (ready_known _ _ _ _ _ HC Hr)].
           apply (ready_small C sender blk pks e HC ltac:(lia) Hr). lia. }
  split. { rewrite (rd_chunk _ _ _ _ _ Hr). unfold block_size, chunk_default, max_chunk, u32.
           destruct (Z.eqb_spec blk 0); [lia|]. destruct (Z.ltb_spec (2^30) blk); [lia|]. rewrite Z.mod_small by lia. lia. }
  split; [apply (rd_salt _ _ _ _ _ Hr)|].
  pose proof (rd_keys _ _ _ _ _ Hr) as Hk. split.
  - intros Hn. rewrite Hn in Hk. inversion Hk; subst. apply Hp. reflexivity.
  - pose proof (rd_key _ _ _ _ _ Hr) as Hkk. clear - HC Hk Hkk. induction Hk as [|pk w pks ws Hw _ IH]; constructor; [|exact IH].
    destruct (len_wrapped _ _ _ _ _ _ HC Hkk Hw) as (-> & _). lia.
Qed.

(** ** SetPrivateKey *)
Lemma keypair_scalar C seed sk : keypair C seed sk ->
  exists sk', to_curve_sk C sk = (scalar_of C seed, sk') /\ keypair C seed sk'.
Proof.
  intros Hk. pose proof Hk as [Hs Hsk Hpk Hck]. unfold to_curve_sk. destruct (sk_ck sk) as [c|].
  - destruct Hck as [Hck|Hck]; [discriminate|]. injection Hck as ->. exists sk. split; [reflexivity|exact Hk].
  - rewrite Hsk, take_app_eq by auto. eexists. split; [reflexivity|]. constructor; cbn; auto.
Qed.
Lemma len_scalar C seed : crypto_ok C -> len (scalar_of C seed) = 32.
Proof. intros HC. unfold scalar_of. rewrite len_clamp, len_take_le; [reflexivity|]. rewrite (ok_sha512_len C HC). lia. Qed.

Lemma unwrap_key_spec C h w seed sk r sk' : crypto_ok C -> keypair C seed sk -> unwrap_key C h w sk = (r, sk') ->
  keypair C seed sk' /\
  match r with
  | Ok o => o = opens C h (scalar_of C seed) (ed_public C seed) w /\ len (w_dkey w) = 48
  | Fail _ => len (h_pk h) <> 32 \/ x25519 C (scalar_of C seed) (h_pk h) = zeros 32 \/ len (w_dkey w) <> 48
  | Panic _ => False
  end.
Proof.
  intros HC Hk H. destruct (keypair_scalar C seed sk Hk) as (sk1 & Ec & Hk1). unfold unwrap_key in H. rewrite Ec in H.
  injection H as <- <-. split; [exact Hk1|].
  unfold X25519. rewrite len_scalar by assumption. cbn [Z.eqb Pos.eqb negb].
  destruct (Z.eqb_spec (len (h_pk h)) 32) as [Hp|Hp]; cbn [negb]; [|auto].
  destruct (beq (x25519 C (scalar_of C seed) (h_pk h)) (zeros 32)) eqn:Ez; [apply beq_eq in Ez; auto|].
  unfold expand. change (aes_key_size + rx_nonce_size) with 44. change aes_key_size with 32.
  rewrite new_gcm_32 by (rewrite len_take_le; [reflexivity|]; rewrite len_hkdf by (assumption || lia); lia).
  cbn [wrapf bind]. change (32 + gcm_overhead) with 48.
  destruct (Z.eqb_spec (len (w_dkey w)) 48) as [Hd|Hd]; cbn [negb]; [|auto].
  split; [|exact Hd]. unfold opens, wrap_keys. rewrite (kp_pk _ _ _ Hk). reflexivity.
Qed.

Lemma find_key_spec C h seed : crypto_ok C -> forall ks sk r sk', keypair C seed sk -> find_key C h ks sk = (r, sk') ->
  let op := opens C h (scalar_of C seed) (ed_public C seed) in
  keypair C seed sk' /\
  match r with
  | Ok key => exists pre w post, ks = pre ++ w :: post /\ op w = Some key /\ Forall (fun w => op w = None) pre /\
                Forall (fun w => len (w_dkey w) = 48) (pre ++ [w])
  | Fail x => (x = ErrBadKey /\ Forall (fun w => op w = None) ks) \/
              (exists pre w post, ks = pre ++ w :: post /\ Forall (fun w => op w = None) pre /\
               (len (h_pk h) <> 32 \/ x25519 C (scalar_of C seed) (h_pk h) = zeros 32 \/ len (w_dkey w) <> 48))
  | Panic _ => False
  end.
Proof.
  intros HC. induction ks as [|w ks IH]; intros sk r sk' Hk H; cbn [find_key] in H; cbv zeta.
  - injection H as <- <-. split; [exact Hk|]. left. split; [reflexivity|constructor].
  - destruct (unwrap_key C h w sk) as [r1 sk1] eqn:Eu.
    destruct (unwrap_key_spec _ _ _ _ _ _ _ HC Hk Eu) as (Hk1 & Hu). destruct r1 as [[key|]|x|]; [| | |contradiction].
    + injection H as <- <-. split; [exact Hk1|]. exists [], w, ks. destruct Hu as (Hu & Hl). repeat split; auto. cbn. auto.
    + destruct Hu as (Hu & Hl). symmetry in Hu. destruct (IH _ _ _ Hk1 H) as (Hk2 & IH'). split; [exact Hk2|].
      destruct r as [key|x|]; [| |exact IH'].
      * destruct IH' as (pre & w' & post & -> & Ho & Hp & Hl'). exists (w :: pre), w', post. repeat split; auto.
        cbn [app]. constructor; auto.
      * destruct IH' as [(-> & Hf)|(pre & w' & post & -> & Hp & Hx)]; [left; auto|].
        right. exists (w :: pre), w', post. repeat split; auto.
    + injection H as <- <-. split; [exact Hk1|]. right. exists [], w, ks. repeat split; auto.
Qed.

Lemma verify_sender_spec C h key spk : crypto_ok C ->
  match verify_sender C h key spk with
  | Ok true => exists pk sig, spk = Some pk /\ len (pk_Pk pk) = 32 /\ file_sender C h key = Some sig /\ sig <> zeros 64 /\
                 signed_by C (pk_Pk pk) (sender_message C h key) sig
  | Ok false => file_sender C h key = Some (zeros 64)
  | Fail x => (file_sender C h key = None) \/
              (exists sig, file_sender C h key = Some sig /\ sig <> zeros 64 /\
                ((x = ErrNoSenderPK /\ spk = None) \/
                 (x = ErrBadSender /\ exists pk, spk = Some pk /\ ~ signed_by C (pk_Pk pk) (sender_message C h key) sig)))
  | Panic _ => exists pk, spk = Some pk /\ len (pk_Pk pk) <> 32
  end.
Proof.
  intros HC. unfold verify_sender, file_sender, sender_keys, expand.
  change (aead_nonce_size + aes_key_size) with 44. change aes_key_size with 32. change wrap_sender with (str "Sender Sig").
  rewrite new_gcm_32 by (rewrite len_take_le; [reflexivity|]; rewrite len_hkdf by (assumption || lia); lia).
  cbn [wrapf bind].
  destruct (gcm_open C _ _ (h_sender h) []) as [sig|] eqn:Eo; [|left; reflexivity].
  change sig_size with 64. destruct (beq (zeros 64) sig) eqn:Ez.
  - apply beq_eq in Ez. rewrite Ez. reflexivity.
  - apply beq_neq in Ez. assert (Hz : sig <> zeros 64) by congruence.
    destruct spk as [pk|]; [|right; exists sig; auto].
    unfold verify_message, Ed_Verify. destruct (Z.eqb_spec (len (pk_Pk pk)) 32) as [Hl|Hl]; cbn [negb bind]; [|eauto].
    cbn [sig_Sig]. destruct (Z.eqb_spec (len sig) 64) as [Hs|Hs].
    + change (sender_cksum C (h_pk h) (h_salt h) key) with (sender_message C h key).
      destruct (ed_verify C (pk_Pk pk) (msg_digest C (sender_message C h key)) sig) eqn:Ev; cbn [negb].
      * exists pk, sig. split; [reflexivity|]. split; [exact Hl|]. split; [reflexivity|]. split; [exact Hz|]. split; [exact Hs|exact Ev].
      * right. exists sig. split; [reflexivity|]. split; [exact Hz|]. right. split; [reflexivity|]. exists pk. split; [reflexivity|].
        intros (_ & Hv). unfold msg_digest in Ev. congruence.
    + cbn [negb]. right. exists sig. split; [reflexivity|]. split; [exact Hz|]. right. split; [reflexivity|]. exists pk. split; [reflexivity|].
      intros (Hv & _). congruence.
Qed.

(** a decryptor on which SetPrivateKey has not yet succeeded *)
Definition unkeyed (d : decryptor) : Prop := d_auth d = false /\ 1 <= h_chunk (d_hdr d) < 2^30.

(** what SetPrivateKey establishes: [root] is the unwrapped root key *)
Definition keyed (C : crypto) (d : decryptor) (root : bytes) (spk : option pubkey) (signed : bool) (d' : decryptor) : Prop :=
  let fk := derive_keys C root (d_hdrsum d) in
  d' = mkDec (d_hdr d) (Some (fk_data fk)) (Some (fk_mac fk, [])) spk (d_rd d) [] (h_chunk (d_hdr d) + 16)
             (fk_base fk) (Some root) (d_hdrsum d) signed (d_eof d) (d_stream d).

Lemma keyed_live C d root spk signed d' : crypto_ok C -> unkeyed d -> keyed C d root spk signed d' ->
  (signed = true -> exists pk, spk = Some pk /\ len (pk_Pk pk) = 32) ->
  let fk := derive_keys C root (d_hdrsum d) in dlive d' (fk_data fk) (fk_base fk) (fk_mac fk) [].
Proof.
  intros HC [Ha Hc] Hk Hs. unfold keyed in Hk. cbv zeta in *. subst d'.
  destruct (derive_lens C root (d_hdrsum d) HC) as (H1 & _).
  constructor; cbn; auto. discriminate.
Qed.

Lemma set_private_key_spec C d seed sk spk d' sk' rs : crypto_ok C -> unkeyed d -> keypair C seed sk ->
  set_private_key C d sk spk = (d', sk', rs) ->
  let h := d_hdr d in
  let found := unwraps C h seed in
  keypair C seed sk' /\ d_rd d' = d_rd d /\
  match rs with
  | Ok _ => exists root signed, found root /\ keyed C d root spk signed d' /\
      verify_sender C h root spk = Ok signed
  | Fail x => d_auth d' = false /\ ((d' = d /\ exists ks, find_key C h (h_keys h) sk = (Fail x, ks)) \/
              exists root y, found root /\ x = EWrap "decrypt" y /\ verify_sender C h root spk = Fail y)
  | Panic _ => exists pk, spk = Some pk /\ len (pk_Pk pk) <> 32
  end.
Proof.
  intros HC Hu Hk H. cbv zeta. unfold set_private_key in H.
  destruct (find_key C (d_hdr d) (h_keys (d_hdr d)) sk) as [r sk1] eqn:Ef.
  pose proof (find_key_spec C (d_hdr d) seed HC _ _ _ _ Hk Ef) as (Hk1 & Hf). cbv zeta in Hf.
  destruct r as [root|x|]; [| |contradiction].
  2: { injection H as <- <- <-. split; [exact Hk1|]. split; [reflexivity|]. split; [apply Hu|]. left. split; [reflexivity|]. eauto. }
  assert (Hfound : unwraps C (d_hdr d) seed root).
  { destruct Hf as (pre & w & post & H1 & H2 & H3 & _). exists pre, w, post. auto. }
  cbv zeta in H. pose proof (verify_sender_spec C (d_hdr d) root spk HC) as Hv.
  destruct (verify_sender C (d_hdr d) root spk) as [signed|x|] eqn:Ev.
  - unfold expand in H. change (sha256_size + aes_key_size + aead_nonce_size) with 76 in H.
    change aead_nonce_size with 12 in H. change aes_key_size with 32 in H. change data_key_expansion with (str "Data Key Expansion") in H.
    pose proof (len_hkdf C root (d_hdrsum d) (str "Data Key Expansion") 76 HC ltac:(lia)) as Hkl.
    rewrite new_gcm_32 in H by (rewrite len_take_le; [reflexivity|]; rewrite len_drop by lia; lia).
    rewrite (proj1 Hu) in H. cbn [orb] in H.
    rewrite drop_drop in H by lia. change (32 + 12) with 44 in H. change gcm_overhead with 16 in H.
    injection H as <- <- <-. split; [exact Hk1|]. split; [reflexivity|]. exists root, signed.
    split; [exact Hfound|]. split; [reflexivity|exact Ev].
  - injection H as <- <- <-. split; [exact Hk1|]. split; [reflexivity|]. cbn. split; [apply Hu|]. right. exists root, x. auto.
  - injection H as <- <- <-. split; [exact Hk1|]. split; [reflexivity|exact Hv].
Qed.

(** ** honest files *)
Lemma curve_pt_of C seed pk : crypto_ok C -> pubof C seed pk -> curve_pt pk = x25519 C (scalar_of C seed) basepoint.
Proof.
  intros HC [Hs Hp Hc]. unfold curve_pt. rewrite Hp. rewrite <- (ok_birational C HC seed Hs) at 1.
  destruct Hc as [->| ->]; rewrite (ok_birational C HC seed Hs); reflexivity.
Qed.

Lemma ready_opens C sender blk pks e seed pk w : crypto_ok C -> ready C sender blk pks e -> pubof C seed pk ->
  wrapped_for C (e_encSK e) (h_salt (e_hdr e)) (e_key e) pk w ->
  opens C (e_hdr e) (scalar_of C seed) (ed_public C seed) w = Some (e_key e).
Proof.
  intros HC Hr Hp (_ & _ & Hw). unfold opens, wrap_keys in *. rewrite (rd_epk _ _ _ _ _ Hr).
  rewrite (ok_dh C HC) by first [apply (rd_esk _ _ _ _ _ Hr)|apply len_scalar; exact HC].
  rewrite (curve_pt_of C seed pk HC Hp) in Hw. rewrite Hw, (po_pk _ _ _ Hp). apply (ok_open_seal C HC).
Qed.

Lemma Forall2_in_l {A B} (R : A -> B -> Prop) l1 l2 x : Forall2 R l1 l2 -> In x l1 -> exists y, In y l2 /\ R x y.
Proof.
  induction 1 as [|a b l1 l2 Hab H IH]; intros Hin; [destruct Hin|destruct Hin as [<-|Hin]].
  - exists b. split; [left; reflexivity|exact Hab].
  - destruct (IH Hin) as (z & ? & ?). exists z. split; [right; assumption|assumption].
Qed.
Lemma Forall2_in_r {A B} (R : A -> B -> Prop) l1 l2 y : Forall2 R l1 l2 -> In y l2 -> exists x, In x l1 /\ R x y.
Proof.
  induction 1 as [|a b l1 l2 Hab H IH]; intros Hin; [destruct Hin|destruct Hin as [<-|Hin]].
  - exists a. split; [left; reflexivity|exact Hab].
  - destruct (IH Hin) as (z & ? & ?). exists z. split; [right; assumption|assumption].
Qed.

Lemma ready_no_abort C sender blk pks e seed w : crypto_ok C -> ready C sender blk pks e -> In w (h_keys (e_hdr e)) ->
  ~ (len (h_pk (e_hdr e)) <> 32 \/ x25519 C (scalar_of C seed) (h_pk (e_hdr e)) = zeros 32 \/ len (w_dkey w) <> 48).
Proof.
  intros HC Hr Hin [H|[H|H]].
  - rewrite (rd_epk _ _ _ _ _ Hr), (ok_x25519_len C HC) in H. congruence.
  - rewrite (rd_epk _ _ _ _ _ Hr) in H. revert H. apply (ok_dh_nonzero C HC); [apply len_scalar; exact HC|apply (rd_esk _ _ _ _ _ Hr)].
  - destruct (Forall2_in_r _ _ _ _ (rd_keys _ _ _ _ _ Hr) Hin) as (pk & _ & Hw).
    destruct (len_wrapped _ _ _ _ _ _ HC (rd_key _ _ _ _ _ Hr) Hw) as (H1 & _). congruence.
Qed.

Lemma ready_find_key C sender blk pks e seed pk sk : crypto_ok C -> ready C sender blk pks e -> pubof C seed pk -> In pk pks ->
  keypair C seed sk -> no_accident C (e_hdr e) seed (e_key e) \/ (exists l, pks = pk :: l) ->
  exists sk', find_key C (e_hdr e) (h_keys (e_hdr e)) sk = (Ok (e_key e), sk').
Proof.
  intros HC Hr Hp Hin Hk Hna. destruct (find_key C (e_hdr e) (h_keys (e_hdr e)) sk) as [r sk'] eqn:Ef.
  pose proof (find_key_spec C (e_hdr e) seed HC _ _ _ _ Hk Ef) as (_ & H). cbv zeta in H.
  destruct (Forall2_in_l _ _ _ _ (rd_keys _ _ _ _ _ Hr) Hin) as (w0 & Hw0 & Hwr0).
  pose proof (ready_opens _ _ _ _ _ _ _ _ HC Hr Hp Hwr0) as Ho0.
  destruct r as [key|x|]; [| |contradiction].
  - exists sk'. f_equal. f_equal. destruct H as (pre & w & post & Hks & Ho & Hpre & _).
    destruct Hna as [Hna|(l & ->)].
    + apply (Hna w); [rewrite Hks; apply in_elt|exact Ho].
    + pose proof (rd_keys _ _ _ _ _ Hr) as HF. inversion HF as [|pk1 w1 l1 ws Hw1 HF1 Hx Hks1]. subst pk1 l1.
      pose proof (ready_opens _ _ _ _ _ _ _ _ HC Hr Hp Hw1) as Ho1. rewrite Hks in Hks1.
      destruct pre as [|p pre]; cbn in Hks1; injection Hks1 as -> _; [congruence|].
      inversion Hpre; congruence.
  - exfalso. destruct H as [(_ & Hf)|(pre & w & post & Hks & _ & Hx)].
    + rewrite Forall_forall in Hf. specialize (Hf _ Hw0). cbv beta in Hf. rewrite Ho0 in Hf. discriminate.
    + revert Hx. eapply ready_no_abort; [exact HC|exact Hr|]. rewrite Hks. apply in_elt.
Qed.

Lemma ready_file_sender C sender blk pks e : crypto_ok C -> ready C sender blk pks e ->
  file_sender C (e_hdr e) (e_key e) = Some (sender_sig C sender (h_pk (e_hdr e)) (h_salt (e_hdr e)) (e_key e)).
Proof.
  intros HC Hr. unfold file_sender. rewrite (rd_sender _ _ _ _ _ Hr). unfold sender_box, sender_keys. apply (ok_open_seal C HC).
Qed.

Lemma ready_verify_sender C sender blk pks e spk : crypto_ok C -> ready C sender blk pks e -> sender_matches C sender spk ->
  verify_sender C (e_hdr e) (e_key e) spk = Ok (match sender with Some _ => true | None => false end).
Proof.
  intros HC Hr Hm. pose proof (ready_file_sender _ _ _ _ _ HC Hr) as Hfs.
  pose proof (verify_sender_spec C (e_hdr e) (e_key e) spk HC) as Hv.
  destruct sender as [ssk|]; cbn [sender_sig] in Hfs.
  - destruct Hm as (sseed & pk & Hk & -> & Hp). pose proof (ok_sign_nonzero C HC) as Hnz.
    assert (Hsig : signed_by C (pk_Pk pk) (sender_message C (e_hdr e) (e_key e))
        (ed_sign C (sk_Sk ssk) (msg_digest C (sender_cksum C (h_pk (e_hdr e)) (h_salt (e_hdr e)) (e_key e))))).
    { split; [apply (ok_sign_len C HC)|]. rewrite (po_pk _ _ _ Hp), (kp_sk _ _ _ Hk). apply (ok_verify_sign C HC). apply (po_seed _ _ _ Hp). }
    destruct (verify_sender C (e_hdr e) (e_key e) (Some pk)) as [[|]|x|].
    + reflexivity.
    + rewrite Hfs in Hv. injection Hv as Hv. exfalso. eapply Hnz; exact Hv.
    + exfalso. destruct Hv as [Hv|(sig & Hs & Hz & [(_ & Hx)|(_ & pk' & Hpk & Hx)])]; try congruence.
    + exfalso. destruct Hv as (pk' & Hpk & Hl). injection Hpk as <-. rewrite (po_pk _ _ _ Hp), (ok_ed_public_len C HC) in Hl. congruence.
  - destruct (verify_sender C (e_hdr e) (e_key e) spk) as [[|]|x|] eqn:Evs.
    + exfalso. destruct Hv as (pk & sig & _ & _ & Hs & Hz & _). congruence.
    + reflexivity.
    + exfalso. destruct Hv as [Hv|(sig & Hs & Hz & _)]; congruence.
    + exfalso. revert Evs. unfold verify_sender, expand.
      change (aead_nonce_size + aes_key_size) with 44. change aes_key_size with 32. change wrap_sender with (str "Sender Sig").
      rewrite new_gcm_32 by (rewrite len_take_le; [reflexivity|]; rewrite len_hkdf by (assumption || lia); lia).
      cbn [wrapf bind]. unfold file_sender, sender_keys in Hfs. rewrite Hfs. change sig_size with 64. rewrite beq_refl. discriminate.
Qed.
