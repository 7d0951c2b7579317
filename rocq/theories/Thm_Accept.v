(** C67: exactly which key files are accepted, and as which key. *)
From Verif Require Import Bytes BytesLemmas GoErr GoIO Crypto CryptoLaws Keys Sign SpecSign Base64 SpecBase64 Base64Proofs GoText TextProofs SpecTrim TrimProofs
  Ssh SpecSsh SshProofs SshKeyProofs KeyFiles ExtLaws IOProofs EncryptProofs Spec Thm_Ssh Thm_KeyFiles SpecCrash CrashProofs Thm_KeyCrash Toy Scene ToyExt.
Require Import ZifyBool.
Ltac Zify.zify_post_hook ::= Z.div_mod_to_equations.
Local Notation length := List.length.

(** ** Specification *)
(** the file [b], with the password that the callback gives, holds the 64 private key bytes [priv]: it is an OpenSSH file with one
    unencrypted PEM block of the right type whose container unlocks to [priv]; or it is a YAML record whose salt and key are
    base64, whose scrypt parameters are accepted and whose key opens with AES-GCM to [priv].  The nonce is the first 12 bytes
    of the salt; if the salt is shorter but its text is long enough (it has line breaks), zeros are added. *)
Definition key_file (C : crypto) (E : ext) (getpw : getpw_fn) (b priv : bytes) : Prop :=
  (openssh_text b /\ exists blk cipher kdf opts pub block sect,
     pem_decode E b = Some blk /\ pem_encrypted blk = false /\ pem_type blk = str "OPENSSH PRIVATE KEY" /\
     pem_bytes blk = container cipher kdf opts pub block /\ unlocks C (password getpw) cipher kdf opts block sect /\ private_section priv sect) \/
  (~ openssh_text b /\ exists pw r salt esk,
     (getpw = Some (Ok pw) \/ getpw = None /\ pw = []) /\ y_priv E b = Some r /\ sp_esk r <> [] /\ 16 <= len (sp_salt r) /\
     b64_text (unbroken (sp_salt r)) salt /\ b64_text (unbroken (sp_esk r)) esk /\ scrypt_fits (sp_N r) (sp_R r) (sp_P r) /\
     gcm_open C (scrypt C (sha512 C pw) salt (sp_N r) (sp_R r) (sp_P r)) (take 12 (salt ++ zeros 12)) esk [] = Some priv /\ len priv = 64).
(** the text [b] holds the 32 public key bytes [key]: an OpenSSH line, or else a YAML record *)
Definition ssh_line (b blob comment : bytes) : Prop := exists k t, three_fields b k t comment /\ b64_text (unbroken t) blob.
Definition pub_file (E : ext) (b key comment : bytes) : Prop :=
  len key = 32 /\
  ((exists c, ssh_line b (wire_key key) c /\ trimmed c comment) \/
   (comment = [] /\ (forall blob c, ssh_line b blob c -> ~ foreign_blob blob /\ forall k, len k = 32 -> blob <> wire_key k) /\
    exists r, y_pub E b = Some r /\ b64_text (unbroken (su_pk r)) key)).

Lemma openssh_iff b : looks_openssh b = true <-> openssh_text b.
Proof. exact (looks_iff b). Qed.
Lemma nonce_full salt n : 0 <= n -> 12 <= len salt + n -> take 12 (salt ++ zeros n) = take 12 (salt ++ zeros 12).
Proof.
  intros Hn H. destruct (Z.leb_spec 12 (len salt)) as [L|L]; [rewrite !take_app_l by lia; reflexivity|].
  pose proof (len_nonneg salt). rewrite !take_app_r by lia. f_equal. rewrite !take_zeros by lia. reflexivity.
Qed.

Theorem C67_private_exact :
  forall C E, crypto_ok C -> forall b getpw, (forall blk, pem_decode E b = Some blk -> len (pem_bytes blk) < 2^32 /\ 0 <= pem_spare blk) ->
  forall sk, make_private_key C E b getpw = Ok sk <-> exists priv, key_file C E getpw b priv /\ sk = private_key_of C priv.
Proof.
  intros C E HC b getpw Hb sk. unfold make_private_key, unmarshal_private, key_file. destruct (looks_openssh b) eqn:Lo.
  - assert (HO : openssh_text b) by (apply openssh_iff; exact Lo). unfold parse_ssh_private. destruct (pem_decode E b) as [blk|] eqn:Ep.
    2:{ split; [discriminate|]. intros (priv & [(_ & blk & ? & ? & ? & ? & ? & ? & X & _)|(X & _)] & _); [discriminate X|contradiction]. }
    destruct (Hb _ eq_refl) as (Hl & Hs). destruct (pem_encrypted blk) eqn:En.
    { split; [discriminate|]. intros (priv & [(_ & blk' & ? & ? & ? & ? & ? & ? & X & Y & _)|(X & _)] & _); [injection X as <-; congruence|contradiction]. }
    destruct (beq (pem_type blk) (str "OPENSSH PRIVATE KEY")) eqn:Et.
    2:{ split; [discriminate|]. intros (priv & [(_ & blk' & ? & ? & ? & ? & ? & ? & X & _ & Y & _)|(X & _)] & _); [injection X as <-|contradiction]. rewrite Y in Et. rewrite beq_refl in Et. discriminate Et. }
    apply beq_eq in Et. split.
    + intros H. destruct (parse_openssh_private C (pem_bytes blk) (pem_spare blk) getpw) as [xk|e|w] eqn:P; [|discriminate H|discriminate H]. injection H as ->.
      apply (C39_container_exact C HC _ _ _ sk Hl Hs) in P. destruct P as (ci & kd & op & pu & bl & se & priv & P1 & P2 & P3 & P4). exists priv. split; [left|exact P4]. split; [exact HO|]. exists blk, ci, kd, op, pu, bl, se. auto 8.
    + intros (priv & [(_ & blk' & ci & kd & op & pu & bl & se & X1 & _ & _ & X2 & X3 & X4)|(N & _)] & ->); [|contradiction]. injection X1 as <-.
      assert (P : parse_openssh_private C (pem_bytes blk) (pem_spare blk) getpw = Ok (private_key_of C priv)) by (apply (C39_container_exact C HC _ _ _ _ Hl Hs); exists ci, kd, op, pu, bl, se, priv; auto). rewrite P. reflexivity.
  - assert (HO : ~ openssh_text b) by (rewrite <- openssh_iff; congruence).
    split.
    + intros H. match type of H with match (match ?x with Ok _ => _ | Fail _ => _ | Panic _ => _ end) with _ => _ end = _ => destruct x as [sk'|e|w] eqn:X end; try discriminate H. injection H as ->.
      destruct (match getpw with Some r => r | None => Ok [] end) as [pw| |] eqn:Epw; cbn [bind] in X; try discriminate X.
      destruct (y_priv E b) as [r|] eqn:Ey; [|discriminate X]. destruct (Z.eqb_spec (len (sp_salt r)) 0) as [|Z1]; [discriminate X|]. destruct (Z.eqb_spec (len (sp_esk r)) 0) as [|Z2]; [discriminate X|]. cbn [orb] in X.
      destruct (decode_cases (sp_salt r)) as [(salt & D1 & T1)|((e & D1) & _)]; rewrite D1 in X; [|discriminate X].
      destruct (decode_cases (sp_esk r)) as [(esk & D2 & T2)|((e & D2) & _)]; rewrite D2 in X; [|discriminate X].
      pose proof (scrypt_cases C (sha512 C pw) salt (sp_N r) (sp_R r) (sp_P r)) as K. destruct (scrypt_key C _ _ _ _ _) as [key|e|w]; [|discriminate X|discriminate X]. destruct K as (K & ->).
      rewrite new_gcm_32 in X by apply (ok_scrypt_len C HC). rewrite (spare_len _ _ T1) in X. change gcm_nonce_size with 12 in X. destruct (Z.ltb_spec (len (sp_salt r) / 4 * 3) 12) as [|L12]; [discriminate X|].
      pose proof (text_len _ _ T1) as (_ & TL). pose proof (unbroken_len (sp_salt r)).
      rewrite nonce_full in X by (unfold b64_spare; lia).
      destruct (gcm_open C _ _ esk []) as [skb|] eqn:G; [|discriminate X]. unfold make_private_from_bytes in X. destruct (Z.eqb_spec (len skb) 64) as [L|]; cbn [negb] in X; [|discriminate X]. injection X as <-.
      exists skb. split; [right|reflexivity]. split; [exact HO|]. exists pw, r, salt, esk.
      split; [destruct getpw as [g|]; [left; rewrite Epw; reflexivity|right; split; [reflexivity|congruence]]|]. split; [reflexivity|]. split; [intros Z; apply Z2; rewrite Z; reflexivity|]. split; [lia|]. auto.
    + intros (priv & [(N & _)|(_ & pw & r & salt & esk & Hp & Hy & He & Hs & T1 & T2 & K & G & L)] & ->); [contradiction|].
      assert (Epw : match getpw with Some r => r | None => Ok [] end = Ok pw) by (destruct Hp as [->|(-> & ->)]; reflexivity). rewrite Epw. cbn [bind]. rewrite Hy.
      destruct (Z.eqb_spec (len (sp_salt r)) 0); [lia|]. destruct (Z.eqb_spec (len (sp_esk r)) 0) as [Z|_]; [apply len_0_nil in Z; contradiction|]. cbn [orb].
      destruct (decode_cases (sp_salt r)) as [(salt' & D1 & T1')|(_ & D1)]; [|exfalso; exact (D1 _ T1)]. rewrite D1. rewrite (b64_text_fun _ _ _ T1' T1) in *.
      destruct (decode_cases (sp_esk r)) as [(esk' & D2 & T2')|(_ & D2)]; [|exfalso; exact (D2 _ T2)]. rewrite D2. rewrite (b64_text_fun _ _ _ T2' T2) in *.
      pose proof (scrypt_cases C (sha512 C pw) salt (sp_N r) (sp_R r) (sp_P r)) as KK.
      destruct (scrypt_key C _ _ _ _ _) as [key|e|w]; [|exfalso; apply KK; exact K|exfalso].
      2:{ destruct KK as (_ & [Z|[(Z & _)|(_ & _ & _ & Z)]]); destruct K as (_ & K1 & K2 & _ & K3); lia. }
      destruct KK as (_ & ->). rewrite new_gcm_32 by apply (ok_scrypt_len C HC). rewrite (spare_len _ _ T1). change gcm_nonce_size with 12. destruct (Z.ltb_spec (len (sp_salt r) / 4 * 3) 12) as [|L12]; [lia|].
      pose proof (text_len _ _ T1) as (_ & TL). pose proof (unbroken_len (sp_salt r)). rewrite nonce_full by (unfold b64_spare; lia). rewrite G. unfold make_private_from_bytes. rewrite L. cbn [negb Z.eqb Pos.eqb]. reflexivity.
Qed.
Print Assumptions C67_private_exact.

Lemma line_foreign C b blob c : len b < 2^32 -> ssh_line b blob c -> foreign_blob blob -> parse_ssh_pubkey C b = Ok None.
Proof.
  intros Hb (k & t & S & T) F. unfold parse_ssh_pubkey. pose proof S as S'. apply split3 in S'. rewrite S'. apply (parse_enc_foreign C t c blob T F).
  pose proof (text_len _ _ T). pose proof (unbroken_len t). destruct S as (b1 & b2 & -> & _). rewrite !len_app in Hb.
  pose proof (len_nonneg k). pose proof (len_nonneg b1). pose proof (len_nonneg b2). pose proof (len_nonneg c). lia.
Qed.
Lemma line_key C b key c : ssh_line b (wire_key key) c -> len key = 32 -> parse_ssh_pubkey C b = Ok (Some (mkPub key (trim_space c) None (take 16 (sha256 C key)))).
Proof. intros (k & t & S & T) L. apply line_exact. exists k, t, c, key. repeat (split; [assumption|]). reflexivity. Qed.
Theorem C67_public_exact :
  forall C E b pk, len b < 2^32 ->
  (make_public_key C E b = Ok pk <-> exists key comment, pub_file E b key comment /\ pk = mkPub key comment None (take 16 (sha256 C key))).
Proof.
  intros C E b pk Hb. unfold make_public_key, unmarshal_public.
  assert (Fw : forall key comment p, pub_file E b key comment -> parse_ssh_pubkey C b = Ok p -> p = Some (mkPub key comment None (take 16 (sha256 C key)))).
  { intros key comment p (L & [(c & S & Tr)|(-> & N & r & Hr & T)]) P.
    - apply trimmed_iff in Tr. subst comment. rewrite (line_key C b key c S L) in P. congruence.
    - exfalso. destruct p as [xk|].
      + apply line_exact in P. destruct P as (k & t & c & key' & S & L' & T' & _). destruct (N (wire_key key') c) as (_ & X); [exists k, t; auto|]. exact (X key' L' eq_refl).
      + unfold parse_ssh_pubkey in P. destruct (split_blanks b [] false) as [|k [|t [|c [|? ?]]]] eqn:S; try discriminate P. apply parse_enc_none in P. destruct P as (blob & T' & F).
        destruct (N blob c) as (X & _); [exists k, t; split; [apply split3; exact S|exact T']|]. exact (X F). }
  destruct (parse_ssh_pubkey C b) as [[xk|]|e|w] eqn:P.
  - split.
    + intros H. injection H as <-. pose proof P as P'. apply line_exact in P'. destruct P' as (k & t & c & key & S & L & T & Ld). exists key, (trim_space c). split; [|exact Ld].
      split; [exact L|]. left. exists c. split; [exists k, t; auto|apply trimmed_iff; reflexivity].
    + intros (key & comment & H & ->). specialize (Fw _ _ _ H eq_refl). congruence.
  - split; [discriminate|]. intros (key & comment & H & ->). specialize (Fw _ _ _ H eq_refl). discriminate Fw.
  - assert (NL : forall blob c, ssh_line b blob c -> ~ foreign_blob blob /\ forall k, len k = 32 -> blob <> wire_key k).
    { intros blob c S. split; [intros F; rewrite (line_foreign C b blob c Hb S F) in P; discriminate P|]. intros k L ->. rewrite (line_key C b k c S L) in P. discriminate P. }
    destruct (y_pub E b) as [r|] eqn:Er.
    2:{ split; [discriminate|]. intros (key & comment & (L & [(c & S & _)|(_ & _ & r & X & _)]) & _); [rewrite (line_key C b key c S L) in P; discriminate P|congruence]. }
    assert (Bw : forall key comment, pub_file E b key comment -> len key = 32 /\ comment = [] /\ b64_text (unbroken (su_pk r)) key).
    { intros key comment (L & [(c & S & _)|(-> & _ & r' & X & T)]); [rewrite (line_key C b key c S L) in P; discriminate P|]. split; [exact L|]. split; [reflexivity|congruence]. }
    destruct (Z.eqb_spec (len (su_pk r)) 0) as [Z|Z].
    { split; [discriminate|]. intros (key & comment & H & _). apply Bw in H. destruct H as (L & _ & T). apply text_len in T. pose proof (unbroken_len (su_pk r)). lia. }
    destruct (decode_cases (su_pk r)) as [(x & D & T)|((e' & D) & N)]; rewrite D.
    2:{ split; [discriminate|]. intros (key & comment & H & _). apply Bw in H. destruct H as (_ & _ & T). exfalso. exact (N _ T). }
    unfold make_public_from_bytes. destruct (Z.eqb_spec (len x) 32) as [L|L]; cbn [negb].
    + split.
      * intros H. injection H as <-. exists x, []. split; [|reflexivity]. split; [exact L|]. right. split; [reflexivity|]. split; [exact NL|]. exists r. auto.
      * intros (key & comment & H & ->). apply Bw in H. destruct H as (_ & -> & T'). rewrite (b64_text_fun _ _ _ T' T). reflexivity.
    + split; [discriminate|]. intros (key & comment & H & _). apply Bw in H. destruct H as (L' & _ & T'). rewrite (b64_text_fun _ _ _ T' T) in L'. contradiction.
  - exfalso. unfold parse_ssh_pubkey in P. destruct (split_blanks b [] false) as [|k [|t [|c [|? ?]]]]; try discriminate P. exact (parse_enc_no_panic C t c w P).
Qed.
Print Assumptions C67_public_exact.

(** a file holds at most one key *)
Theorem C67_one_key :
  forall C E, crypto_ok C -> forall b getpw, (forall blk, pem_decode E b = Some blk -> len (pem_bytes blk) < 2^32 /\ 0 <= pem_spare blk) ->
  forall p q, key_file C E getpw b p -> key_file C E getpw b q -> p = q.
Proof.
  intros C E HC b getpw Hb p q Hp Hq.
  assert (X : make_private_key C E b getpw = Ok (private_key_of C p)) by (apply C67_private_exact; eauto).
  assert (Y : make_private_key C E b getpw = Ok (private_key_of C q)) by (apply C67_private_exact; eauto).
  rewrite X in Y. injection Y as Y. exact Y.
Qed.
Print Assumptions C67_one_key.
(** each of the forms occurs: a YAML private key, an encrypted OpenSSH one, a YAML and an OpenSSH public key *)
Definition yamlA : bytes := Eval vm_compute in match fst (marshal_private toy toyE skA odd_comment (str "secret") g0) with Ok f => f | _ => [] end.
Definition sshA : bytes := Eval vm_compute in pem_of lockedA.
Definition lineA : bytes := Eval vm_compute in str "ssh-ed25519 " ++ b64_encode (wire_key (pk_Pk pkA)) ++ str " a@b" ++ [x0a].
Definition ypubA : bytes := Eval vm_compute in marshal_public toyE pkA odd_comment.
Example C67_instance :
  (forall b, In b [yamlA; sshA] -> forall blk, pem_decode toyE b = Some blk -> len (pem_bytes blk) < 2^32 /\ 0 <= pem_spare blk) /\
  key_file toy toyE (Some (Ok (str "secret"))) yamlA (sk_Sk skA) /\ ~ openssh_text yamlA /\ key_file toy toyE (Some (Ok (str "secret"))) sshA skbytes /\ openssh_text sshA /\
  (forall p, ~ key_file toy toyE (Some (Ok (str "Secret"))) yamlA p) /\ (forall p, ~ key_file toy toyE (Some (Ok (str "Secret"))) sshA p) /\
  pub_file toyE lineA (pk_Pk pkA) (str "a@b") /\ pub_file toyE ypubA (pk_Pk pkA) [] /\ len lineA < 2^32 /\ len ypubA < 2^32.
Proof.
  assert (B : forall b, In b [yamlA; sshA] -> forall blk, pem_decode toyE b = Some blk -> len (pem_bytes blk) < 2^32 /\ 0 <= pem_spare blk).
  { intros b [<-|[<-|[]]] blk H.
    - assert (X : pem_decode toyE yamlA = None) by (vm_compute; reflexivity). congruence.
    - assert (X : option_map (fun k => (len (pem_bytes k), pem_spare k)) (pem_decode toyE sshA) = Some (len lockedA, 0)) by (vm_compute; reflexivity). rewrite H in X. cbn [option_map] in X.
      injection X as Y1 Y2. rewrite Y1, Y2. split; [vm_compute; reflexivity|lia]. }
  assert (I1 : In yamlA [yamlA; sshA]) by (left; reflexivity). assert (I2 : In sshA [yamlA; sshA]) by (right; left; reflexivity).
  split; [exact B|]. split.
  { assert (X : make_private_key toy toyE yamlA (Some (Ok (str "secret"))) = Ok (private_key_of toy (sk_Sk skA))) by (vm_compute; reflexivity).
    apply (C67_private_exact toy toyE toy_ok _ _ (B _ I1)) in X. destruct X as (p & K & Ep). apply (f_equal sk_Sk) in Ep. unfold private_key_of in Ep. cbn [sk_Sk] in Ep. rewrite Ep. exact K. }
  split; [rewrite <- openssh_iff; vm_compute; discriminate|]. split.
  { assert (X : make_private_key toy toyE sshA (Some (Ok (str "secret"))) = Ok (private_key_of toy skbytes)) by (vm_compute; reflexivity).
    apply (C67_private_exact toy toyE toy_ok _ _ (B _ I2)) in X. destruct X as (p & K & Ep). apply (f_equal sk_Sk) in Ep. unfold private_key_of in Ep. cbn [sk_Sk] in Ep. rewrite Ep. exact K. }
  split; [rewrite <- openssh_iff; vm_compute; reflexivity|]. split.
  { intros p K. assert (X : make_private_key toy toyE yamlA (Some (Ok (str "Secret"))) = Ok (private_key_of toy p)) by (apply (C67_private_exact toy toyE toy_ok _ _ (B _ I1)); eauto).
    assert (Y : match make_private_key toy toyE yamlA (Some (Ok (str "Secret"))) with Ok _ => false | _ => true end = true) by (vm_compute; reflexivity). rewrite X in Y. discriminate Y. }
  split.
  { intros p K. assert (X : make_private_key toy toyE sshA (Some (Ok (str "Secret"))) = Ok (private_key_of toy p)) by (apply (C67_private_exact toy toyE toy_ok _ _ (B _ I2)); eauto).
    assert (Y : match make_private_key toy toyE sshA (Some (Ok (str "Secret"))) with Ok _ => false | _ => true end = true) by (vm_compute; reflexivity). rewrite X in Y. discriminate Y. }
  assert (L1 : len lineA < 2^32) by (vm_compute; reflexivity). assert (L2 : len ypubA < 2^32) by (vm_compute; reflexivity).
  split.
  { assert (X : make_public_key toy toyE lineA = Ok (mkPub (pk_Pk pkA) (str "a@b") None (take 16 (sha256 toy (pk_Pk pkA))))) by (vm_compute; reflexivity).
    apply (C67_public_exact toy toyE _ _ L1) in X. destruct X as (k & c & K & Ek). pose proof (f_equal pk_Pk Ek) as E1. pose proof (f_equal pk_comment Ek) as E2. cbn [pk_Pk pk_comment] in E1, E2. rewrite E1, E2. exact K. }
  split; [|auto].
  assert (X : make_public_key toy toyE ypubA = Ok (mkPub (pk_Pk pkA) [] None (take 16 (sha256 toy (pk_Pk pkA))))) by (vm_compute; reflexivity).
  apply (C67_public_exact toy toyE _ _ L2) in X. destruct X as (k & c & K & Ek). pose proof (f_equal pk_Pk Ek) as E1. pose proof (f_equal pk_comment Ek) as E2. cbn [pk_Pk pk_comment] in E1, E2. rewrite E1, E2. exact K.
Qed.
