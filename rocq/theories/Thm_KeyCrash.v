(** C36: on which private key files the parser crashes. *)
From Verif Require Import Bytes BytesLemmas GoErr GoIO Crypto CryptoLaws Keys Sign SpecSign Base64 SpecBase64 Base64Proofs GoText TextProofs
  Ssh SpecSsh SshProofs SshKeyProofs KeyFiles ExtLaws IOProofs EncryptProofs Spec Thm_Ssh Thm_KeyFiles SpecCrash CrashProofs.
Require Import ZifyBool.
Ltac Zify.zify_post_hook ::= Z.div_mod_to_equations.
Local Notation length := List.length.

(** the base64 text of n bytes has 4 characters per 3 bytes *)
Lemma text_len t b : b64_text t b -> len t mod 4 = 0 /\ len b <= len t / 4 * 3.
Proof.
  intros H. induction H as [|c0 c1 c2 c3 d0 d1 d2 d3 x y z t b' _ _ _ _ _ _ IH|c0 c1 c2 d0 d1 d2 x y _ _ _ _|c0 c1 d0 d1 x _ _ _];
    repeat match goal with |- context [len (?a :: ?l)] => rewrite (len_cons a l) end; change (len (@nil byte)) with 0; lia.
Qed.
Lemma unbroken_len t : len (unbroken t) <= len t.
Proof. induction t as [|x t IH]; [unfold unbroken; cbn; lia|]. unfold unbroken in *. cbn [filter]. destruct (negb _); rewrite ?len_cons; lia. Qed.
Lemma spare_len s b : b64_text (unbroken s) b -> len (b ++ zeros (b64_spare s b)) = len s / 4 * 3.
Proof.
  intros H. apply text_len in H. pose proof (unbroken_len s). unfold b64_spare. rewrite len_app, len_zeros; lia.
Qed.

Lemma zeros_split k n : 0 <= k <= n -> zeros n = zeros k ++ zeros (n - k).
Proof. intros H. unfold zeros. rewrite <- repeat_app. f_equal. lia. Qed.
Lemma take_zeros k n : 0 <= k <= n -> take k (zeros n) = zeros k.
Proof. intros H. rewrite (zeros_split k n H). apply take_app_eq. rewrite len_zeros; lia. Qed.
Lemma drop_zeros k n : 0 <= k <= n -> drop k (zeros n) = zeros (n - k).
Proof. intros H. rewrite (zeros_split k n H). apply drop_app_eq. rewrite len_zeros; lia. Qed.

Lemma magic_short d spare : 0 <= spare -> len d < 15 -> (beq openssh_magic (take 15 (d ++ zeros spare)) = true <-> d = str "openssh-key-v1" /\ 1 <= spare).
Proof.
  intros Hs Hd. rewrite beq_iff. split.
  - intros H. pose proof (f_equal len H) as L. change (len openssh_magic) with 15 in L. rewrite len_take in L by lia. rewrite len_app, len_zeros in L by lia.
    assert (Hk : exists k, take 15 (d ++ zeros spare) = d ++ zeros k /\ k = 15 - len d).
    { exists (15 - len d). split; [|reflexivity]. rewrite take_app_r by lia. f_equal. rewrite take_zeros by lia. reflexivity. }
    destruct Hk as (k & Hk & Ek). rewrite Hk in H. clear Hk.
    assert (k = 1).
    { destruct (Z.eq_dec k 1) as [|N]; [assumption|exfalso]. assert (2 <= k) by lia.
      apply (f_equal (drop 13)) in H. change (drop 13 openssh_magic) with [x31; x00] in H.
      apply (f_equal (fun l => nth 0 l x00)) in H. cbn [nth] in H.
      rewrite drop_app_r in H by lia. rewrite drop_zeros in H by lia.
      assert (Z0 : forall n, nth 0 (zeros n) x00 = x00) by (intros n; unfold zeros; destruct (Z.to_nat n); reflexivity).
      rewrite Z0 in H. discriminate H. }
    subst k. assert (len d = 14) by lia. split; [|lia]. rewrite H1 in H. change (zeros 1) with [x00] in H. unfold openssh_magic in H. apply app_inj_tail in H. symmetry. apply H.
  - intros (-> & H). change (len (str "openssh-key-v1")) with 14 in *. rewrite take_app_r by (change (len (str "openssh-key-v1")) with 14; lia).
    change (15 - len (str "openssh-key-v1")) with 1. rewrite take_zeros by lia. reflexivity.
Qed.

(** what is parsed from a container *)
Lemma container_parse C cipher kdf opts pub block spare getpw : let d := container cipher kdf opts pub block in
  len d < 2^32 -> 0 <= spare ->
  parse_openssh_private C d spare getpw =
    (if beq kdf (str "bcrypt") && beq cipher (str "aes256-cbc") then
          pw <- call_getpw getpw ;; '(iv, key) <- extract_bcrypt C pw opts ;;
          if negb (len block mod 16 =? 0) then Panic "crypto/cipher: input not full blocks" else open_section C (aes256_cbc_dec C key iv block) true
        else if beq kdf (str "bcrypt") && beq cipher (str "aes256-ctr") then
          pw <- call_getpw getpw ;; '(iv, key) <- extract_bcrypt C pw opts ;; open_section C (aes256_ctr C key iv block) true
        else if beq kdf (str "none") && beq cipher (str "none") then open_section C block false
        else Fail (EMsg "ssh: unknown Cipher/KDF: %s:%s")).
Proof.
  intros d Hlen Hsp. unfold parse_openssh_private.
  assert (Hc2 : d = openssh_magic ++ (S4 cipher ++ S4 kdf ++ S4 opts ++ be32 1 ++ S4 pub ++ S4 block)). { unfold d, container, openssh_magic. rewrite <- !app_assoc. reflexivity. }
  clearbody d. subst d. set (body := S4 cipher ++ _) in *. pose proof (len_nonneg body). rewrite len_app in Hlen |- *. change (len openssh_magic) with 15 in *.
  destruct (Z.ltb_spec (15 + len body + spare) 15); [lia|]. rewrite <- app_assoc. rewrite (take_app_eq 15) by reflexivity. rewrite beq_refl. cbn [negb].
  destruct (Z.ltb_spec (15 + len body) 15); [lia|]. rewrite (drop_app_eq 15) by reflexivity.
  rewrite (unmarshal_ok _ _ [VBytes cipher; VBytes kdf; VBytes opts; VU32 1; VBytes pub; VBytes block]); [reflexivity|apply S4_nonnil|].
  unfold body in Hlen |- *. rewrite !len_app, !len_S4, len_be32 in Hlen. pose proof (len_nonneg cipher). pose proof (len_nonneg kdf). pose proof (len_nonneg opts). pose proof (len_nonneg pub). pose proof (len_nonneg block).
  apply fields_string; [rewrite !len_app, !len_S4, len_be32; lia|]. apply fields_string; [rewrite !len_app, !len_S4, len_be32; lia|].
  apply fields_string; [rewrite !len_app, !len_S4, len_be32; lia|]. apply fields_u32; [lia|]. apply fields_string; [rewrite len_S4; lia|].
  rewrite <- (app_nil_r (S4 block)). apply fields_string; [change (len (@nil byte)) with 0; lia|]. reflexivity.
Qed.

Lemma extract_inv C pw opts iv key : extract_bcrypt C pw opts = Ok (iv, key) ->
  exists salt rounds, opts = S4 salt ++ be32 rounds /\ pw <> [] /\ 0 < len salt <= 2^20 /\ 1 <= rounds < 2^32.
Proof.
  unfold extract_bcrypt. destruct (ssh_unmarshal [FString; FU32] opts) as [vs|] eqn:U; [|discriminate].
  apply unmarshal_inv in U. destruct U as (_ & U).
  apply fields_string_inv in U. destruct U as (salt & r1 & v1 & -> & Hs & -> & U).
  apply fields_u32_inv in U. destruct U as (rounds & r2 & v2 & -> & Hr & -> & U). apply fields_nil_inv in U. destruct U as (-> & <-).
  unfold bcrypt_key. destruct (Z.ltb_spec rounds 1) as [|L1]; [discriminate|]. destruct (Z.eqb_spec (len pw) 0) as [|L2]; [discriminate|].
  destruct (Z.eqb_spec (len salt) 0) as [|L3]; [discriminate|]. destruct (Z.ltb_spec (2^20) (len salt)) as [|L4]; [discriminate|]. intros _.
  exists salt, rounds. pose proof (len_nonneg salt). rewrite app_nil_r. split; [reflexivity|]. split; [intros ->; apply L2; reflexivity|]. lia.
Qed.

Lemma openssh_panic C d spare getpw : 0 <= spare -> len d < 2^32 -> (forall w, getpw <> Some (Panic w)) ->
  ((exists w, parse_openssh_private C d spare getpw = Panic w) <-> crashing_openssh d spare getpw).
Proof.
  intros Hsp Hd Hg. split.
  - intros (w & P). unfold parse_openssh_private in P. change (len openssh_magic) with 15 in P.
    destruct (Z.ltb_spec (len d + spare) 15) as [L|L]; [left; exact L|].
    destruct (beq openssh_magic (take 15 (d ++ zeros spare))) eqn:Em; cbn [negb] in P; [|discriminate P].
    destruct (Z.ltb_spec (len d) 15) as [L2|L2].
    { right. left. apply (magic_short d spare Hsp L2). exact Em. }
    apply beq_eq in Em. rewrite take_app_l in Em by lia. right. right.
    destruct (ssh_unmarshal _ (drop 15 d)) as [vs|] eqn:U; [|discriminate P]. apply unmarshal_inv in U. destruct U as (_ & U).
    apply fields_string_inv in U. destruct U as (cipher & r1 & v1 & E1 & Hcip & -> & U). apply fields_string_inv in U. destruct U as (kdf & r2 & v2 & -> & Hkdf & -> & U).
    apply fields_string_inv in U. destruct U as (opts & r3 & v3 & -> & Hopts & -> & U). apply fields_u32_inv in U. destruct U as (nk & r4 & v4 & -> & Hnk & -> & U).
    apply fields_string_inv in U. destruct U as (pub & r5 & v5 & -> & Hpub & -> & U). apply fields_string_inv in U. destruct U as (block & r6 & v6 & -> & Hblk & -> & U).
    apply fields_nil_inv in U. destruct U as (-> & <-). rewrite app_nil_r in E1. destruct (Z.eqb_spec nk 1) as [->|]; cbn [negb] in P; [|discriminate P].
    assert (Ed : d = container cipher kdf opts pub block).
    { rewrite <- (take_drop 15 d), E1, <- Em. unfold container, openssh_magic. rewrite <- !app_assoc. reflexivity. }
    destruct (beq kdf (str "bcrypt") && beq cipher (str "aes256-cbc")) eqn:K1.
    + apply andb_prop in K1. destruct K1 as (Ek & Ec). apply beq_eq in Ek, Ec. subst kdf cipher.
      destruct getpw as [[pw|e|w2]|]; cbn [call_getpw bind] in P; try discriminate P; [|exfalso; eapply Hg; reflexivity|left; split; [reflexivity|]; exists (str "aes256-cbc"), opts, pub, block; auto].
      right. destruct (extract_bcrypt C pw opts) as [[iv key]|e|w2] eqn:X; cbn [bind] in P; try discriminate P; [|exfalso; exact (extract_no_panic C _ _ _ X)].
      apply extract_inv in X. destruct X as (salt & rounds & -> & Hpw & Hs & Hr). exists pw, salt, rounds, pub, block.
      destruct (Z.eqb_spec (len block mod 16) 0) as [|N]; cbn [negb] in P; [exfalso; exact (open_section_no_panic C _ _ _ P)|]. repeat (split; [assumption || reflexivity|]). exact N.
    + destruct (beq kdf (str "bcrypt") && beq cipher (str "aes256-ctr")) eqn:K2.
      * apply andb_prop in K2. destruct K2 as (Ek & Ec). apply beq_eq in Ek, Ec. subst kdf cipher.
        destruct getpw as [[pw|e|w2]|]; cbn [call_getpw bind] in P; try discriminate P; [|exfalso; eapply Hg; reflexivity|left; split; [reflexivity|]; exists (str "aes256-ctr"), opts, pub, block; auto].
        exfalso. destruct (extract_bcrypt C pw opts) as [[iv key]|e|w2] eqn:X; cbn [bind] in P; try discriminate P; [|exact (extract_no_panic C _ _ _ X)]. exact (open_section_no_panic C _ _ _ P).
      * exfalso. destruct (beq kdf (str "none") && beq cipher (str "none")); [exact (open_section_no_panic C _ _ _ P)|discriminate P].
  - intros [H|[->|[(-> & cipher & opts & pub & block & -> & Hc)|(p & salt & rounds & pub & block & -> & -> & Hp & Hs & Hr & Hm)]]].
    + unfold parse_openssh_private. change (len openssh_magic) with 15. destruct (Z.ltb_spec (len d + spare) 15); [eauto|lia].
    + unfold parse_openssh_private. change (len openssh_magic) with 15. change (len (str "openssh-key-v1")) with 14. destruct (Z.ltb_spec (14 + spare) 15); [eauto|].
      rewrite (proj2 (magic_short (str "openssh-key-v1") spare Hsp ltac:(reflexivity))) by (split; [reflexivity|lia]). cbn [negb]. change (14 <? 15) with true. eauto.
    + rewrite (container_parse C) by assumption. destruct Hc as [-> | ->].
      * change (beq (str "bcrypt") (str "bcrypt") && beq (str "aes256-cbc") (str "aes256-cbc")) with true. cbv iota. cbn [call_getpw bind]. eauto.
      * change (beq (str "bcrypt") (str "bcrypt") && beq (str "aes256-ctr") (str "aes256-cbc")) with false.
        change (beq (str "bcrypt") (str "bcrypt") && beq (str "aes256-ctr") (str "aes256-ctr")) with true. cbv iota. cbn [call_getpw bind]. eauto.
    + rewrite (container_parse C) by assumption. change (beq (str "bcrypt") (str "bcrypt") && beq (str "aes256-cbc") (str "aes256-cbc")) with true. cbv iota. cbn [call_getpw bind].
      rewrite (extract_ok C p salt rounds Hp Hs Hr). cbn [bind]. destruct (Z.eqb_spec (len block mod 16) 0); [contradiction|]. cbn [negb]. eauto.
Qed.

Lemma looks_text b : looks_openssh b = true <-> openssh_text b.
Proof. exact (looks_iff b). Qed.

(** C36, private keys, exactly: reading a private key file crashes on the described files and on no other. *)
Theorem C36_private_panics_exactly : forall C E old b getpw, crypto_ok C -> (forall w, getpw <> Some (Panic w)) ->
  (forall blk, pem_decode E b = Some blk -> 0 <= pem_spare blk /\ len (pem_bytes blk) < 2^32) ->
  ((exists sk w, unmarshal_private C E old b getpw = (sk, Panic w)) <-> crashing_private E b getpw).
Proof.
  intros C E old b getpw HC Hg Hpem. unfold crashing_private, unmarshal_private. rewrite <- looks_text.
  destruct (looks_openssh b) eqn:Lk.
  - split.
    + intros (sk & w & H). left. split; [reflexivity|]. unfold parse_ssh_private in H. destruct (pem_decode E b) as [blk|]; [|discriminate H].
      exists blk. split; [reflexivity|]. destruct (pem_encrypted blk); [discriminate H|]. split; [reflexivity|].
      destruct (beq _ _) eqn:Et; [|discriminate H]. apply beq_eq in Et. split; [congruence|].
      destruct (Hpem blk eq_refl) as (H1 & H2). apply (openssh_panic C _ _ _ H1 H2 Hg).
      destruct (parse_openssh_private C _ _ _) as [|e|w']; try discriminate H. eauto.
    + intros [(_ & blk & Hb & He & Ht & Hc)|(N & _)]; [|exfalso; apply N; reflexivity].
      destruct (Hpem blk Hb) as (H1 & H2). apply (openssh_panic C _ _ _ H1 H2 Hg) in Hc. destruct Hc as (w & Hc).
      unfold parse_ssh_private. rewrite Hb, He, Ht, beq_refl, Hc. eauto.
  - split.
    + intros (sk & w & H). right. split; [discriminate|].
      match type of H with match ?x with Ok _ => _ | Fail _ => _ | Panic _ => _ end = _ => destruct x as [sk'|e|w'] eqn:X end; try discriminate H.
      split; [intros e ->; discriminate X|].
      assert (Hx : exists pw, match getpw with Some r => r | None => Ok [] end = Ok pw).
      { destruct getpw as [[pw|e|w2]|]; [eauto|discriminate X|exfalso; eapply Hg; reflexivity|eauto]. }
      destruct Hx as (pw & Hx). rewrite Hx in X. cbn [bind] in X. destruct (y_priv E b) as [r|]; [|discriminate X]. exists r. split; [reflexivity|].
      destruct ((len (sp_salt r) =? 0) || (len (sp_esk r) =? 0)) eqn:Z0; [discriminate X|]. apply orb_false_iff in Z0. destruct Z0 as (Z1 & Z2).
      split; [intros Ez; rewrite Ez in Z1; discriminate Z1|]. split; [intros Ez; rewrite Ez in Z2; discriminate Z2|].
      destruct (decode_cases (sp_salt r)) as [(salt & Es & Ts)|((e & Es) & _)]; rewrite Es in X; [|discriminate X].
      destruct (decode_cases (sp_esk r)) as [(esk & Ee & Te)|((e & Ee) & _)]; rewrite Ee in X; [|discriminate X].
      split; [eauto|]. split; [eauto|].
      pose proof (scrypt_cases C (sha512 C pw) salt (sp_N r) (sp_R r) (sp_P r)) as S.
      destruct (scrypt_key C _ _ _ _ _) as [key|e|w2]; [|discriminate X|left; exact S]. destruct S as (S & ->). right. split; [exact S|].
      rewrite new_gcm_32 in X by apply (ok_scrypt_len C HC). rewrite (spare_len _ _ Ts) in X. change gcm_nonce_size with 12 in X.
      destruct (Z.ltb_spec (len (sp_salt r) / 4 * 3) 12) as [L|L]; [lia|]. exfalso.
      destruct (gcm_open C _ _ _ _) as [skb|]; [|discriminate X]. unfold make_private_from_bytes in X. destruct (negb _); discriminate X.
    + intros [(H & _)|(_ & Hf & r & Hy & Hs0 & He0 & (salt & Ts) & (esk & Te) & Hc)]; [discriminate H|].
      assert (Hx : exists pw, match getpw with Some r => r | None => Ok [] end = Ok pw).
      { destruct getpw as [[pw|e|w2]|]; [eauto|exfalso; eapply Hf; reflexivity|exfalso; eapply Hg; reflexivity|eauto]. }
      destruct Hx as (pw & Hx). rewrite Hx. cbn [bind]. rewrite Hy.
      assert (Z1 : (len (sp_salt r) =? 0) = false). { apply Z.eqb_neq. intros Z0. apply len_0_nil in Z0. contradiction. }
      assert (Z2 : (len (sp_esk r) =? 0) = false). { apply Z.eqb_neq. intros Z0. apply len_0_nil in Z0. contradiction. }
      rewrite Z1, Z2. cbn [orb].
      assert (Es : b64_decode (sp_salt r) = Ok salt) by (apply b64_decode_iff; exact Ts).
      assert (Ee : b64_decode (sp_esk r) = Ok esk) by (apply b64_decode_iff; exact Te). rewrite Es, Ee.
      pose proof (scrypt_cases C (sha512 C pw) salt (sp_N r) (sp_R r) (sp_P r)) as S.
      destruct (scrypt_key C _ _ _ _ _) as [key|e|w2]; [|exfalso; tauto|eauto]. destruct S as (S & ->).
      rewrite new_gcm_32 by apply (ok_scrypt_len C HC). rewrite (spare_len _ _ Ts). change gcm_nonce_size with 12.
      destruct Hc as [Hc|(_ & Hl)].
      * exfalso. unfold scrypt_crash, scrypt_fits in *. lia.
      * destruct (Z.ltb_spec (len (sp_salt r) / 4 * 3) 12) as [L|L]; [eauto|]. lia.
Qed.
Print Assumptions C36_private_panics_exactly.
(** Instances: each kind of crashing file, and a sound one *)
Example C36_exact_instance :
  crashing_yaml (evil_yaml (b64_encode (zeros 32)) (2^19) 8 0) /\ crashing_yaml (evil_yaml (b64_encode (str "salt")) (2^19) 8 1) /\
  crashing_yaml (evil_yaml (b64_encode (zeros 32)) (2^40) 8 1) /\ ~ crashing_yaml (evil_yaml (b64_encode (zeros 32)) (2^19) 8 1) /\
  crashing_openssh (str "abc") 0 (Some (Ok [])) /\ ~ crashing_openssh lockedA 0 (Some (Ok (str "secret"))).
Proof.
  assert (T : forall b, exists s, b64_text (unbroken (b64_encode b)) s) by (intros b; exists b; apply b64_decode_iff, b64_decode_encode).
  assert (P : forall k, 1 <= k -> power_of_2 (2^k)) by (intros k Hk; exists k; auto).
  assert (Y : forall salt N r p, salt <> [] -> (scrypt_crash N r p \/ scrypt_fits N r p /\ len (b64_encode salt) < 16) -> crashing_yaml (evil_yaml (b64_encode salt) N r p)).
  { intros salt N r p Hs H. split; [|split; [|split; [apply T|split; [apply T|exact H]]]].
    - intros E. apply (f_equal len) in E. cbn [sp_salt evil_yaml] in E. rewrite len_b64_encode in E. change (len (@nil byte)) with 0 in E.
      destruct salt as [|x s]; [contradiction|]. rewrite len_cons in E. pose proof (len_nonneg s). lia.
    - discriminate. }
  split; [apply Y; [discriminate|]; left; split; [apply P; lia|]; left; reflexivity|].
  split; [apply Y; [discriminate|]; right; split; [|reflexivity]; split; [apply P; lia|]; vm_compute; intuition congruence|].
  split; [apply Y; [discriminate|]; left; split; [apply P; lia|]; right; right; vm_compute; intuition congruence|].
  split. { intros (_ & _ & _ & _ & [(_ & H)|(_ & H)]); [|vm_compute in H; discriminate H].
    cbn [sp_N sp_R sp_P evil_yaml] in H. destruct H as [H|[(H & _)|(_ & _ & _ & H & _)]]; [discriminate H|discriminate H|vm_compute in H; discriminate H]. }
  split; [left; reflexivity|].
  intros [H|[H|[(H & _)|(p & salt & rounds & pub & block & H & _)]]].
  - vm_compute in H. discriminate H.
  - vm_compute in H. discriminate H.
  - discriminate H.
  - apply (f_equal (fun d => take 10 (drop 19 d))) in H. vm_compute in H. discriminate H.
Qed.
