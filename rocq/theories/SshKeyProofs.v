(** Proofs about the OpenSSH private key container and the one-line public key form (Ssh.v). *)
From Verif Require Import Bytes BytesLemmas GoErr Crypto CryptoLaws Keys Base64 SpecBase64 Base64Proofs GoText TextProofs Ssh SpecSsh SshProofs.
Require Import ZifyBool.
Ltac Zify.zify_post_hook ::= Z.div_mod_to_equations.
Local Notation length := List.length.
Local Notation concat := List.concat.

(** ** three pieces *)
Lemma split_true_inv s : forall v, split_blanks s [] true = v -> exists bl r, s = bl ++ r /\ Forall blank bl /\
  ((exists c r', r = c :: r' /\ ~ blank c) \/ r = []) /\ v = split_blanks r [] false.
Proof.
  induction s as [|c s IH]; intros v H.
  - exists [], []. repeat split; auto.
  - cbn [split_blanks] in H. destruct (is_blank c) eqn:E.
    + apply IH in H. destruct H as (bl & r & -> & Hb & Hr & Hv). exists (c :: bl), r. repeat split; auto. constructor; [apply is_blank_spec; exact E|exact Hb].
    + exists [], (c :: s). apply is_blank_false in E. split; [reflexivity|]. split; [constructor|]. split; [left; eauto|].
      cbn [split_blanks]. apply is_blank_false in E. rewrite E. cbn [app]. symmetry. exact H.
Qed.
Lemma split_false_inv s : forall cur v, split_blanks s cur false = v ->
  (lone s /\ v = [cur ++ s]) \/
  exists u bl r, s = u ++ bl ++ r /\ lone u /\ blanks bl /\ ((exists c r', r = c :: r' /\ ~ blank c) \/ r = []) /\ v = (cur ++ u) :: split_blanks r [] false.
Proof.
  induction s as [|c s IH]; intros cur v H.
  - left. split; [constructor|]. rewrite app_nil_r. symmetry. exact H.
  - cbn [split_blanks] in H. destruct (is_blank c) eqn:E.
    + right. destruct (split_true_inv s _ eq_refl) as (bl & r & -> & Hb & Hr & Hv). exists [], (c :: bl), r.
      split; [reflexivity|]. split; [constructor|]. split; [split; [discriminate|constructor; [apply is_blank_spec; exact E|exact Hb]]|]. split; [exact Hr|].
      rewrite app_nil_r. rewrite <- Hv. symmetry. exact H.
    + apply is_blank_false in E. apply IH in H. destruct H as [(Hl & ->)|(u & bl & r & -> & Hu & Hb & Hr & ->)].
      * left. split; [constructor; assumption|]. rewrite <- app_assoc. reflexivity.
      * right. exists (c :: u), bl, r. split; [reflexivity|]. split; [constructor; assumption|]. split; [exact Hb|]. split; [exact Hr|]. rewrite <- app_assoc. reflexivity.
Qed.
Lemma split3 s a b c : split_blanks s [] false = [a; b; c] <->
  exists bl1 bl2, s = a ++ bl1 ++ b ++ bl2 ++ c /\ blanks bl1 /\ blanks bl2 /\ lone a /\ lone b /\ lone c /\ b <> [].
Proof.
  split.
  - intros H. destruct (split_false_inv _ _ _ H) as [(_ & K)|(u & bl1 & r & -> & Hu & Hb1 & Hr & K)]; [discriminate K|]. cbn [app] in K. injection K as <- K.
    symmetry in K. destruct (split_false_inv _ _ _ K) as [(_ & K2)|(u2 & bl2 & r2 & -> & Hu2 & Hb2 & Hr2 & K2)]; [discriminate K2|]. cbn [app] in K2. injection K2 as <- K2.
    symmetry in K2. destruct (split_false_inv _ _ _ K2) as [(Hc & K3)|(u3 & bl3 & r3 & -> & Hu3 & Hb3 & Hr3 & K3)].
    + cbn [app] in K3. injection K3 as <-. exists bl1, bl2. split; [reflexivity|]. repeat (split; [assumption|]).
      intros ->. destruct Hr as [(x & r' & E & Hx)|E].
      * destruct Hb2 as (Hn & Hb2). destruct bl2 as [|y bl2]; [contradiction|]. cbn [app] in E. injection E as -> _. inversion Hb2; subst. contradiction.
      * destruct Hb2 as (Hn & _). apply app_eq_nil in E. destruct E as (_ & E). apply app_eq_nil in E. tauto.
    + cbn [app] in K3. destruct (split_inv r3 [] false _ eq_refl) as (? & ? & E3). rewrite E3 in K3. discriminate K3.
  - intros (bl1 & bl2 & -> & Hb1 & Hb2 & Ha & Hb & Hc & Hn).
    assert (N : (exists x r', c = x :: r' /\ ~ blank x) \/ c = []) by (destruct c as [|x c]; [auto|left; inversion Hc; subst; eauto]).
    rewrite split_at; [|exact Ha|exact Hb1|destruct b as [|x b]; [contradiction|left; inversion Hb; subst; cbn [app]; eauto]].
    rewrite split_at by assumption. rewrite split_last by auto. reflexivity.
Qed.

(** ** padding *)
Lemma good_pad_inv pad : forall i, 0 <= i <= 255 -> good_pad pad i = true -> exists n, pad = map (fun k => z2b (Z.of_nat k)) (seq (Z.to_nat i + 1) n) /\ i + Z.of_nat n <= 255.
Proof.
  induction pad as [|b pad IH]; intros i Hi; cbn [good_pad].
  - intros _. exists O. split; [reflexivity|]. lia.
  - intros H. apply andb_prop in H. destruct H as (H1 & H2). pose proof (b2z_range b) as Hb.
    apply IH in H2; [|lia]. destruct H2 as (n & -> & Hn). exists (S n). split; [|lia]. cbn [seq map].
    replace (Z.to_nat (i + 1) + 1)%nat with (S (Z.to_nat i + 1)) by lia. f_equal.
    replace (Z.of_nat (Z.to_nat i + 1)) with (b2z b) by lia. symmetry. apply z2b_b2z.
Qed.
Lemma good_pad_ok n : forall i, 0 <= i -> i + Z.of_nat n <= 255 -> good_pad (map (fun k => z2b (Z.of_nat k)) (seq (Z.to_nat i + 1) n)) i = true.
Proof.
  induction n as [|n IH]; intros i Hi Hn; [reflexivity|]. cbn [seq map good_pad]. rewrite b2z_z2b. rewrite Z.mod_small by lia.
  replace (S (Z.to_nat i + 1))%nat with (Z.to_nat (i + 1) + 1)%nat by lia. rewrite IH by lia. lia.
Qed.
Lemma good_pad_iff pad : good_pad pad 0 = true <-> exists n, pad = padding n /\ (n <= 255)%nat.
Proof.
  split.
  - intros H. destruct (good_pad_inv pad 0 ltac:(lia) H) as (n & E & Hn). exists n. split; [exact E|lia].
  - intros (n & -> & Hn). apply (good_pad_ok n 0); lia.
Qed.

(** ** the private section *)
Lemma len_nil0 : len (@nil byte) = 0. Proof. reflexivity. Qed.
Lemma S4_nonnil s r : S4 s ++ r <> [].
Proof. apply app_nonnil. rewrite len_S4. pose proof (len_nonneg s). lia. Qed.
Lemma section_ok C priv sect enc : private_section priv sect -> len sect < 2^32 -> open_section C sect enc = Ok (private_key_of C priv).
Proof.
  intros (check & pub & comment & n & Hp & Hc & Hn & Hpub & Hcom & ->) Hl.
  rewrite !len_app, !len_S4, !len_be32 in Hl. change (len (str "ssh-ed25519")) with 11 in Hl.
  pose proof (len_nonneg pub). pose proof (len_nonneg comment). pose proof (len_nonneg (padding n)).
  unfold open_section.
  rewrite (unmarshal_ok _ _ [VU32 check; VU32 check; VBytes (str "ssh-ed25519"); VBytes (S4 pub ++ S4 priv ++ S4 comment ++ padding n)]).
  - rewrite Z.eqb_refl. cbn [negb]. unfold algo_ed25519. rewrite beq_refl. cbn [negb].
    rewrite (unmarshal_ok _ _ [VBytes pub; VBytes priv; VBytes comment; VBytes (padding n)]).
    + rewrite Hp. cbn [Z.eqb Pos.eqb negb]. rewrite (proj2 (good_pad_iff _)) by eauto. cbn [negb].
      unfold make_private_from_bytes. rewrite Hp. reflexivity.
    + apply S4_nonnil.
    + apply fields_string; [rewrite !len_app, !len_S4; lia|]. apply fields_string; [rewrite !len_app, !len_S4; lia|].
      apply fields_string; [lia|]. reflexivity.
  - apply app_nonnil. rewrite len_be32. lia.
  - apply fields_u32; [lia|]. apply fields_u32; [lia|]. apply fields_string; [rewrite !len_app, !len_S4; change (len (str "ssh-ed25519")) with 11; lia|]. reflexivity.
Qed.
Lemma section_inv C sect enc sk : open_section C sect enc = Ok sk -> exists priv, private_section priv sect /\ sk = private_key_of C priv.
Proof.
  unfold open_section. destruct (ssh_unmarshal [FU32; FU32; FString; FRest] sect) as [vs|] eqn:E; [|discriminate].
  apply unmarshal_inv in E. destruct E as (_ & E). apply fields_u32_inv in E. destruct E as (c1 & r1 & v1 & -> & Hc1 & -> & E).
  apply fields_u32_inv in E. destruct E as (c2 & r2 & v2 & -> & Hc2 & -> & E). apply fields_string_inv in E. destruct E as (kt & r3 & v3 & -> & Hkt & -> & E).
  apply fields_rest_inv in E. destruct E as (-> & _).
  destruct (Z.eqb_spec c1 c2) as [<-|]; cbn [negb]; [|discriminate]. destruct (beq kt algo_ed25519) eqn:Ek; cbn [negb]; [|discriminate]. apply beq_eq in Ek. subst kt.
  destruct (ssh_unmarshal [FString; FString; FString; FRest] r3) as [vs|] eqn:E; [|discriminate].
  apply unmarshal_inv in E. destruct E as (_ & E). apply fields_string_inv in E. destruct E as (pub & r4 & v4 & -> & Hpub & -> & E).
  apply fields_string_inv in E. destruct E as (priv & r5 & v5 & -> & Hpriv & -> & E).
  apply fields_string_inv in E. destruct E as (comm & r6 & v6 & -> & Hcomm & -> & E). apply fields_rest_inv in E. destruct E as (-> & _).
  destruct (Z.eqb_spec (len priv) 64) as [Hp|]; cbn [negb]; [|discriminate]. destruct (good_pad r6 0) eqn:Eg; cbn [negb]; [|discriminate].
  apply good_pad_iff in Eg. destruct Eg as (n & -> & Hn). unfold make_private_from_bytes. rewrite Hp. cbn [Z.eqb Pos.eqb negb].
  intros H. injection H as <-. exists priv. split; [|reflexivity]. exists c1, pub, comm, n. repeat split; auto; lia.
Qed.

(** ** the container *)
Lemma extract_ok C pw salt rounds : pw <> [] -> 0 < len salt <= 2^20 -> 1 <= rounds < 2^32 ->
  extract_bcrypt C pw (S4 salt ++ be32 rounds) = Ok (take 16 (drop 32 (bcrypt_kdf C pw salt rounds)), take 32 (bcrypt_kdf C pw salt rounds)).
Proof.
  intros Hp Hs Hr. unfold extract_bcrypt. rewrite (unmarshal_ok _ _ [VBytes salt; VU32 rounds]).
  - unfold bcrypt_key. destruct (Z.ltb_spec rounds 1); [lia|]. destruct (Z.eqb_spec (len pw) 0) as [E|]; [apply len_0_nil in E; contradiction|].
    destruct (Z.eqb_spec (len salt) 0); [lia|]. destruct (Z.ltb_spec (2^20) (len salt)); [lia|]. reflexivity.
  - apply S4_nonnil.
  - apply fields_string; [rewrite len_be32; lia|]. rewrite <- (app_nil_r (be32 rounds)). apply fields_u32; [lia|]. reflexivity.
Qed.
Lemma extract_inv C pw opts r : extract_bcrypt C pw opts = Ok r -> exists salt rounds, opts = S4 salt ++ be32 rounds /\ pw <> [] /\ 0 < len salt <= 2^20 /\ 1 <= rounds < 2^32 /\
  r = (take 16 (drop 32 (bcrypt_kdf C pw salt rounds)), take 32 (bcrypt_kdf C pw salt rounds)).
Proof.
  unfold extract_bcrypt. destruct (ssh_unmarshal [FString; FU32] opts) as [vs|] eqn:E; [|discriminate]. apply unmarshal_inv in E. destruct E as (_ & E).
  apply fields_string_inv in E. destruct E as (salt & r1 & v1 & -> & Hs & -> & E). apply fields_u32_inv in E. destruct E as (rounds & r2 & v2 & -> & Hr & -> & E).
  apply fields_nil_inv in E. destruct E as (-> & <-). unfold bcrypt_key. destruct (Z.ltb_spec rounds 1); [discriminate|].
  destruct (Z.eqb_spec (len pw) 0) as [|Hp]; [discriminate|]. destruct (Z.eqb_spec (len salt) 0); [discriminate|]. destruct (Z.ltb_spec (2^20) (len salt)); [discriminate|].
  cbn [orb bind]. intros K. injection K as <-. exists salt, rounds. rewrite app_nil_r. pose proof (len_nonneg salt). split; [reflexivity|]. split; [intros ->; apply Hp; reflexivity|]. split; [lia|]. split; [lia|reflexivity].
Qed.
Lemma unlocks_len C (HC : crypto_ok C) pw cipher kdf opts block sect : unlocks C pw cipher kdf opts block sect -> len sect = len block.
Proof. intros H. destruct H; [reflexivity|apply (ok_cbc_len C HC)|apply (ok_ctr_len C HC)]. Qed.

Lemma container_ok C (HC : crypto_ok C) cipher kdf opts pub block sect priv spare getpw :
  unlocks C (password getpw) cipher kdf opts block sect -> private_section priv sect -> len (container cipher kdf opts pub block) < 2^32 -> 0 <= spare ->
  parse_openssh_private C (container cipher kdf opts pub block) spare getpw = Ok (private_key_of C priv).
Proof.
  intros Hu Hs Hl Hsp. pose proof (unlocks_len C HC _ _ _ _ _ _ Hu) as Hsect. unfold parse_openssh_private.
  assert (Hc : container cipher kdf opts pub block = openssh_magic ++ (S4 cipher ++ S4 kdf ++ S4 opts ++ be32 1 ++ S4 pub ++ S4 block)).
  { unfold container, openssh_magic. rewrite <- !app_assoc. reflexivity. }
  rewrite Hc in Hl |- *. set (body := S4 cipher ++ _) in *.
  pose proof (len_nonneg body) as Hb0. rewrite len_app in Hl |- *. change (len openssh_magic) with 15 in *.
  destruct (Z.ltb_spec (15 + len body + spare) 15); [lia|].
  rewrite <- app_assoc. rewrite (take_app_eq 15) by reflexivity. rewrite beq_refl. cbn [negb].
  destruct (Z.ltb_spec (15 + len body) 15); [lia|]. rewrite (drop_app_eq 15) by reflexivity.
  rewrite (unmarshal_ok _ _ [VBytes cipher; VBytes kdf; VBytes opts; VU32 1; VBytes pub; VBytes block]).
  - cbn [Z.eqb Pos.eqb negb]. assert (Hls : len sect < 2^32).
    { unfold body in Hl. rewrite !len_app, !len_S4, len_be32 in Hl. pose proof (len_nonneg cipher). pose proof (len_nonneg kdf). pose proof (len_nonneg opts). pose proof (len_nonneg pub). lia. }
    destruct getpw as [[p|e|w]|]; cbn [password] in Hu; destruct Hu as [opts block|p' salt rounds block Hpw Hp Hsalt Hr Hm k|p' salt rounds block Hpw Hp Hsalt Hr k];
      try discriminate Hpw; try (injection Hpw as <-);
      repeat match goal with |- context [beq (str ?a) (str ?b)] => let v := eval vm_compute in (beq (str a) (str b)) in change (beq (str a) (str b)) with v end; cbn [andb];
      try (apply section_ok; assumption); cbn [call_getpw bind]; rewrite (extract_ok C p salt rounds Hp Hsalt Hr); cbn [bind].
    + rewrite Hm. cbn [Z.eqb negb]. apply section_ok; assumption.
    + apply section_ok; assumption.
  - apply S4_nonnil.
  - unfold body in Hl |- *. rewrite !len_app, !len_S4, len_be32 in Hl.
    pose proof (len_nonneg cipher). pose proof (len_nonneg kdf). pose proof (len_nonneg opts). pose proof (len_nonneg pub). pose proof (len_nonneg block).
    apply fields_string; [rewrite !len_app, !len_S4, len_be32; lia|]. apply fields_string; [rewrite !len_app, !len_S4, len_be32; lia|].
    apply fields_string; [rewrite !len_app, !len_S4, len_be32; lia|]. apply fields_u32; [lia|]. apply fields_string; [rewrite len_S4; lia|].
    rewrite <- (app_nil_r (S4 block)). apply fields_string; [change (len (@nil byte)) with 0; lia|]. reflexivity.
Qed.
Lemma container_inv C data spare getpw sk : parse_openssh_private C data spare getpw = Ok sk ->
  exists cipher kdf opts pub block sect priv, data = container cipher kdf opts pub block /\ unlocks C (password getpw) cipher kdf opts block sect /\
    private_section priv sect /\ sk = private_key_of C priv.
Proof.
  unfold parse_openssh_private. change (len openssh_magic) with 15. destruct (len data + spare <? 15); [discriminate|].
  destruct (beq openssh_magic (take 15 (data ++ zeros spare))) eqn:Em; cbn [negb]; [|discriminate]. apply beq_eq in Em.
  destruct (Z.ltb_spec (len data) 15) as [|Hd]; [discriminate|]. rewrite take_app_l in Em by lia.
  destruct (ssh_unmarshal _ (drop 15 data)) as [vs|] eqn:E; [|discriminate]. apply unmarshal_inv in E. destruct E as (_ & E).
  apply fields_string_inv in E. destruct E as (cipher & r1 & v1 & E1 & Hcip & -> & E). apply fields_string_inv in E. destruct E as (kdf & r2 & v2 & -> & Hkdf & -> & E).
  apply fields_string_inv in E. destruct E as (opts & r3 & v3 & -> & Hopts & -> & E). apply fields_u32_inv in E. destruct E as (nk & r4 & v4 & -> & Hnk & -> & E).
  apply fields_string_inv in E. destruct E as (pub & r5 & v5 & -> & Hpub & -> & E). apply fields_string_inv in E. destruct E as (block & r6 & v6 & -> & Hblk & -> & E).
  apply fields_nil_inv in E. destruct E as (-> & <-). rewrite app_nil_r in E1.
  destruct (Z.eqb_spec nk 1) as [->|]; cbn [negb]; [|discriminate]. intros H.
  assert (Hdata : data = container cipher kdf opts pub block).
  { rewrite <- (take_drop 15 data), E1, <- Em. unfold container, openssh_magic. rewrite <- !app_assoc. reflexivity. }
  assert (F : forall sect enc, open_section C sect enc = Ok sk -> unlocks C (password getpw) cipher kdf opts block sect ->
    exists cipher' kdf' opts' pub' block' sect' priv, data = container cipher' kdf' opts' pub' block' /\ unlocks C (password getpw) cipher' kdf' opts' block' sect' /\ private_section priv sect' /\ sk = private_key_of C priv).
  { intros sect enc Ho Hu. apply section_inv in Ho. destruct Ho as (priv & Hs & ->). exists cipher, kdf, opts, pub, block, sect, priv. auto. }
  destruct (beq kdf (str "bcrypt") && beq cipher (str "aes256-cbc")) eqn:Ek1; [|destruct (beq kdf (str "bcrypt") && beq cipher (str "aes256-ctr")) eqn:Ek2; [|destruct (beq kdf (str "none") && beq cipher (str "none")) eqn:Ek3; [|discriminate H]]].
  - apply andb_prop in Ek1. destruct Ek1 as (Ek & Ec). apply beq_eq in Ek, Ec. subst kdf cipher.
    destruct getpw as [[p|e|w]|]; cbn [call_getpw bind] in H; try discriminate H.
    destruct (extract_bcrypt C p opts) as [[iv key]|e|w] eqn:Ex; cbn [bind] in H; try discriminate H. apply extract_inv in Ex.
    destruct Ex as (salt & rounds & -> & Hp & Hs & Hr & Eq). injection Eq as -> ->.
    destruct (Z.eqb_spec (len block mod 16) 0) as [Hm|]; cbn [negb] in H; [|discriminate H]. apply (F _ _ H). cbn [password]. apply un_cbc; auto.
  - apply andb_prop in Ek2. destruct Ek2 as (Ek & Ec). apply beq_eq in Ek, Ec. subst kdf cipher.
    destruct getpw as [[p|e|w]|]; cbn [call_getpw bind] in H; try discriminate H.
    destruct (extract_bcrypt C p opts) as [[iv key]|e|w] eqn:Ex; cbn [bind] in H; try discriminate H. apply extract_inv in Ex.
    destruct Ex as (salt & rounds & -> & Hp & Hs & Hr & Eq). injection Eq as -> ->. apply (F _ _ H). cbn [password]. apply un_ctr; auto.
  - apply andb_prop in Ek3. destruct Ek3 as (Ek & Ec). apply beq_eq in Ek, Ec. subst kdf cipher. apply (F _ _ H). apply un_none.
Qed.
