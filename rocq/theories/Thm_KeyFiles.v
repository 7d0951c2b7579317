(** Theorems on serialized keys and signatures (C32-C36). *)
From Verif Require Import Bytes BytesLemmas GoErr GoIO Crypto CryptoLaws Keys Sign SpecSign Base64 SpecBase64 Base64Proofs GoText TextProofs SpecTrim TrimProofs
  Ssh SpecSsh SshProofs SshKeyProofs KeyFiles SpecCrash ExtLaws ToyExt IOProofs EncryptProofs Spec Toy Scene Thm_Ssh.
Require Import ZifyBool.
Ltac Zify.zify_post_hook ::= Z.div_mod_to_equations.
Local Notation length := List.length.
Local Notation concat := List.concat.

Lemma decode_text t b : b64_text t b -> b64_decode t = Ok b.
Proof. intros H. apply b64_decode_iff. rewrite (b64_text_unbroken _ _ H). exact H. Qed.
Lemma decode_cases s : (exists b, b64_decode s = Ok b /\ b64_text (unbroken s) b) \/ ((exists e, b64_decode s = Fail e) /\ forall b, ~ b64_text (unbroken s) b).
Proof.
  destruct (b64_decode s) as [b|e|w] eqn:E.
  - left. exists b. split; [reflexivity|]. apply b64_decode_iff. exact E.
  - right. split; [eauto|]. intros b H. apply b64_decode_iff in H. rewrite H in E. discriminate E.
  - unfold b64_decode in E. destruct (b64_dec s []); discriminate E.
Qed.

(** ** C32: signatures.  What was marshalled is read back, into whatever signature object. *)
Theorem C32_signature_round_trip :
  forall E comment, yaml_keeps E comment ->
  forall s old, unmarshal_signature E old (marshal_signature E s comment) = (s, Ok tt) /\
    read_signature E (Ok (marshal_signature E s comment)) = Ok s.
Proof.
  intros E comment (_ & H & _) s old. unfold read_signature, marshal_signature, unmarshal_signature. cbn [bind]. specialize (H (sig_pkhash s) (sig_Sig s)). cbv zeta in H.
  rewrite H. cbn [ss_sig ss_pkhash]. rewrite !b64_decode_encode. destruct s; auto.
Qed.
Print Assumptions C32_signature_round_trip.
(** In general: reading succeeds exactly if the YAML record can be read and both fields are base64, and then gives those
    bytes; otherwise there is an error and the object is unchanged. *)
Theorem C32_signature_reading_exact :
  forall E b old,
  (forall s, unmarshal_signature E old b = (s, Ok tt) <->
     exists r, y_sig E b = Some r /\ b64_text (unbroken (ss_sig r)) (sig_Sig s) /\ b64_text (unbroken (ss_pkhash r)) (sig_pkhash s)) /\
  ((exists s, unmarshal_signature E old b = (s, Ok tt)) \/ (exists e, unmarshal_signature E old b = (old, Fail e))).
Proof.
  intros E b old. unfold unmarshal_signature. destruct (y_sig E b) as [r|]; [|split; [|right; eauto]].
  2:{ intros s. split; [intros H; discriminate H|intros (r & H & _); discriminate H]. }
  destruct (decode_cases (ss_sig r)) as [(x & -> & Tx)|((e & ->) & Nx)].
  2:{ split; [|right; eauto]. intros s. split; [intros H; discriminate H|intros (r' & H & H1 & _); injection H as <-; exfalso; eapply Nx; exact H1]. }
  destruct (decode_cases (ss_pkhash r)) as [(y & -> & Ty)|((e & ->) & Ny)].
  2:{ split; [|right; eauto]. intros s. split; [intros H; discriminate H|intros (r' & H & _ & H1); injection H as <-; exfalso; eapply Ny; exact H1]. }
  split; [|left; eauto]. intros s. split.
  - intros H. injection H as <-. exists r. auto.
  - intros (r' & H & H1 & H2). injection H as <-. destruct s as [sg h]. cbn [sig_Sig sig_pkhash] in H1, H2. rewrite (b64_text_fun _ _ _ H1 Tx), (b64_text_fun _ _ _ H2 Ty). reflexivity.
Qed.
Print Assumptions C32_signature_reading_exact.
Definition odd_comment : bytes := str " ""quoted""" ++ [x0a] ++ str "pk: x".
Example C32_instance : exists s, sign_message toy skA text = Ok s /\ yaml_keeps toyE odd_comment /\ len (marshal_signature toyE s odd_comment) > 100 /\
  read_signature toyE (Ok (marshal_signature toyE s odd_comment)) = Ok s /\
  (exists e, read_signature toyE (Ok (str "signature: a!b" ++ [x0a])) = Fail e).
Proof.
  eexists. split; [vm_compute; reflexivity|]. split; [apply toyE_keeps|]. split; [vm_compute; reflexivity|].
  split; [vm_compute; reflexivity|]. eexists. vm_compute. reflexivity.
Qed.

(** ** C33: public keys *)
Lemma y_field_str k v : y_field k v = str k ++ str ": " ++ v ++ [x0a]. Proof. reflexivity. Qed.
Lemma text_lone t b : b64_text t b -> lone t.
Proof. intros H. apply lone_graphic. eapply b64_text_graphic. exact H. Qed.
Lemma encode_head b : 0 < len b -> exists c t, b64_encode b = c :: t /\ ~ blank c.
Proof.
  intros H. pose proof (b64_text_graphic _ _ (b64_encode_text b)) as G. pose proof (len_b64_encode b) as L.
  destruct (b64_encode b) as [|c t]; [change (len (@nil byte)) with 0 in L; lia|]. exists c, t. split; [reflexivity|]. apply graphic_not_blank. inversion G; assumption.
Qed.
Lemma two_fields_split a b : 0 < len a -> 0 < len b ->
  split_blanks (y_field "pk" (b64_encode a) ++ y_field "hash" (b64_encode b)) [] false = [str "pk:"; b64_encode a ++ [x0a] ++ str "hash:"; b64_encode b ++ [x0a]].
Proof.
  intros Ha Hb. rewrite !y_field_str.
  replace ((str "pk" ++ str ": " ++ b64_encode a ++ [x0a]) ++ str "hash" ++ str ": " ++ b64_encode b ++ [x0a])
    with (str "pk:" ++ [x20] ++ (b64_encode a ++ [x0a] ++ str "hash:") ++ [x20] ++ (b64_encode b ++ [x0a])).
  2:{ cbn [str String.list_byte_of_string app]. rewrite <- ?app_assoc. reflexivity. }
  assert (N : ~ blank x0a) by (unfold blank; cbn; lia).
  rewrite split_at; [|apply lone_graphic; repeat (constructor; [unfold graphic; cbn; lia|]); constructor|apply bl1|].
  2:{ left. destruct (encode_head a Ha) as (c & t & -> & Hc). cbn [app]. eauto. }
  rewrite split_at; [|apply Forall_app; split; [apply (text_lone _ a), b64_encode_text|repeat (constructor; [unfold blank; cbn; lia|]); constructor]|apply bl1|].
  2:{ left. destruct (encode_head b Hb) as (c & t & -> & Hc). cbn [app]. eauto. }
  rewrite split_last; [reflexivity| |auto]. apply Forall_app. split; [apply (text_lone _ b), b64_encode_text|constructor; [exact N|constructor]].
Qed.
Lemma not_base64_colon t u : forall b, ~ b64_text (unbroken (t ++ x3a :: u)) b.
Proof.
  intros b H. apply b64_text_chars in H. rewrite Forall_forall in H. destruct (H x3a) as [(d & Hd)|Hd]; [|apply b64_val_digit in Hd; discriminate Hd|discriminate Hd].
  apply filter_In. split; [apply in_or_app; right; left; reflexivity|reflexivity].
Qed.
(** the YAML form is not an OpenSSH line *)
Lemma yaml_not_ssh C E : ext_ok E -> forall comment a b, len a mod 3 <> 0 -> len b mod 3 <> 0 ->
  exists e, parse_ssh_pubkey C (yaml_pub E (mkSpub comment (b64_encode a) (b64_encode b))) = Fail e.
Proof.
  intros HE comment a b Ha Hb. unfold yaml_pub. cbn [su_comment su_pk su_hash]. rewrite !(ok_y_base64 E HE) by assumption.
  pose proof (len_nonneg a). pose proof (len_nonneg b).
  assert (Ha0 : 0 < len a) by (destruct (Z.eq_dec (len a) 0) as [Z|]; [rewrite Z in Ha; contradiction|lia]).
  assert (Hb0 : 0 < len b) by (destruct (Z.eq_dec (len b) 0) as [Z|]; [rewrite Z in Hb; contradiction|lia]).
  pose proof (two_fields_split a b Ha0 Hb0) as S3. set (rest := y_field "pk" _ ++ _) in *. unfold parse_ssh_pubkey, y_opt.
  destruct (len comment =? 0).
  - cbn [app]. rewrite S3.
    replace (b64_encode a ++ [x0a] ++ str "hash:") with ((b64_encode a ++ [x0a] ++ str "hash") ++ x3a :: []) by (rewrite <- !app_assoc; reflexivity).
    apply parse_enc_not_base64. apply not_base64_colon.
  - rewrite y_field_str.
    replace ((str "comment" ++ str ": " ++ y_scalar E comment ++ [x0a]) ++ rest) with (str "comment:" ++ x20 :: ((y_scalar E comment ++ [x0a]) ++ rest)).
    2:{ cbn [str String.list_byte_of_string app]. rewrite <- ?app_assoc. reflexivity. }
    assert (L : split_blanks (str "comment:" ++ x20 :: ((y_scalar E comment ++ [x0a]) ++ rest)) [] false = str "comment:" :: split_blanks ((y_scalar E comment ++ [x0a]) ++ rest) [] true) by reflexivity.
    rewrite L. pose proof (split_len_app (y_scalar E comment ++ [x0a]) rest [] true) as G. rewrite S3 in G. cbn [length] in G.
    specialize (G ltac:(exists x70, (skipn 1 rest); split; [reflexivity|unfold blank; cbn; lia])).
    destruct (split_blanks ((y_scalar E comment ++ [x0a]) ++ rest) [] true) as [|p1 [|p2 [|p3 ps]]]; cbn [length] in G; try lia. eauto.
Qed.
(** What was marshalled is read back: the same 32 bytes and the same name, for every comment that YAML keeps; in
    particular the text is not taken for an OpenSSH key. *)
Theorem C33_public_round_trip :
  forall C E, crypto_ok C -> ext_ok E -> forall comment, yaml_keeps E comment ->
  forall pk old, len (pk_Pk pk) = 32 -> named C pk ->
  exists pk', unmarshal_public C E old (marshal_public E pk comment) = (pk', Ok tt) /\ pk_Pk pk' = pk_Pk pk /\ pk_hash pk' = pk_hash pk.
Proof.
  intros C E HC HE comment (K & _) pk old Hl Hn. unfold marshal_public, unmarshal_public.
  assert (Hh : len (pk_hash pk) = 16) by (rewrite Hn; apply len_take_le; rewrite (ok_sha256_len C HC); lia).
  destruct (yaml_not_ssh C E HE comment (pk_Pk pk) (pk_hash pk)) as (e & ->); [rewrite Hl; discriminate|rewrite Hh; discriminate|].
  specialize (K (pk_Pk pk) (pk_hash pk)). cbv zeta in K. rewrite K. cbn [su_pk]. rewrite len_b64_encode, Hl. change (4 * ((32 + 2) / 3) =? 0) with false. cbv iota.
  rewrite b64_decode_encode. unfold make_public_from_bytes. rewrite Hl. cbn [Z.eqb Pos.eqb negb]. eexists. split; [reflexivity|]. cbn. split; [reflexivity|]. symmetry. exact Hn.
Qed.
Print Assumptions C33_public_round_trip.
(** A text whose second field is not base64 (so: not an OpenSSH line) is accepted exactly if the YAML record can be read
    and its pk field is base64 of 32 bytes.  The hash in the file is not used: it is computed from the key. *)
Theorem C33_yaml_exact :
  forall C E b old, (forall k t c blob, three_fields b k t c -> ~ b64_text (unbroken t) blob) ->
  (forall pk', unmarshal_public C E old b = (pk', Ok tt) <->
     exists r key, y_pub E b = Some r /\ b64_text (unbroken (su_pk r)) key /\ len key = 32 /\
       pk' = mkPub key (pk_comment old) (pk_ck old) (take 16 (sha256 C key))) /\
  ((exists pk', unmarshal_public C E old b = (pk', Ok tt)) \/ exists e, unmarshal_public C E old b = (old, Fail e)).
Proof.
  intros C E b old H. unfold unmarshal_public.
  assert (S : exists e, parse_ssh_pubkey C b = Fail e).
  { unfold parse_ssh_pubkey. destruct (split_blanks b [] false) as [|k [|t [|c [|? ?]]]] eqn:S; eauto. apply parse_enc_not_base64. intros blob. apply (H k t c). apply split3. exact S. }
  destruct S as (e & ->). destruct (y_pub E b) as [r|].
  2:{ split; [|right; eauto]. intros pk'. split; [intros K; discriminate K|intros (r & key & K & _); discriminate K]. }
  destruct (Z.eqb_spec (len (su_pk r)) 0) as [Z|Z].
  { split; [|right; eauto]. intros pk'. split; [intros K; discriminate K|]. intros (r' & key & K & T & L & _). injection K as <-. apply len_0_nil in Z. rewrite Z in T. cbn in T. inversion T; subst. discriminate L. }
  destruct (decode_cases (su_pk r)) as [(key & -> & T)|((e' & ->) & N)].
  2:{ split; [|right; eauto]. intros pk'. split; [intros K; discriminate K|]. intros (r' & key & K & T & _). injection K as <-. exfalso. eapply N. exact T. }
  unfold make_public_from_bytes. destruct (Z.eqb_spec (len key) 32) as [L|L]; cbn [negb].
  - split; [|left; eauto]. intros pk'. split; [intros K; injection K as <-; exists r, key; auto|].
    intros (r' & key' & K & T' & L' & ->). injection K as <-. rewrite (b64_text_fun _ _ _ T' T). reflexivity.
  - split; [|right; eauto]. intros pk'. split; [intros K; discriminate K|]. intros (r' & key' & K & T' & L' & _). injection K as <-. rewrite (b64_text_fun _ _ _ T' T) in L'. contradiction.
Qed.
Print Assumptions C33_yaml_exact.
(** an OpenSSH line that is accepted replaces the object as a whole *)
Theorem C33_openssh_line :
  forall C E line ktype blob comment key, three_fields line ktype blob comment -> len key = 32 -> b64_text (unbroken blob) (wire_key key) ->
  forall old c, trimmed comment c -> unmarshal_public C E old line = (mkPub key c None (take 16 (sha256 C key)), Ok tt).
Proof.
  intros C E line k t c key H1 H2 H3 old c' Hc. apply trimmed_iff in Hc. subst c'. unfold unmarshal_public.
  rewrite (proj2 (line_exact C line (mkPub key (trim_space c) None (take 16 (sha256 C key))))); [reflexivity|].
  exists k, t, c, key. split; [exact H1|]. split; [exact H2|]. split; [exact H3|]. reflexivity.
Qed.
Print Assumptions C33_openssh_line.
Example C33_instance : len (pk_Pk pkA) = 32 /\ named toy pkA /\ ext_ok toyE /\ yaml_keeps toyE odd_comment /\ yaml_keeps toyE [] /\
  (exists pk, make_public_key toy toyE (marshal_public toyE pkA odd_comment) = Ok pk /\ pk_Pk pk = pk_Pk pkA) /\
  (exists pk, make_public_key toy toyE (marshal_public toyE pkA []) = Ok pk /\ pk_Pk pk = pk_Pk pkA) /\
  (* without comment the YAML text has three fields *)
  (exists k t c, three_fields (marshal_public toyE pkA []) k t c) /\
  (* a wrong hash in the file is not noticed and not used *)
  make_public_key toy toyE (yaml_pub toyE (mkSpub [] (b64_encode (pk_Pk pkA)) (b64_encode (pk_hash pkB)))) = Ok pkA /\
  (* 31 bytes *)
  (exists e, make_public_key toy toyE (yaml_pub toyE (mkSpub [] (b64_encode (drop 1 (pk_Pk pkA))) (b64_encode (pk_hash pkA)))) = Fail e).
Proof.
  split; [vm_compute; reflexivity|]. split; [vm_compute; reflexivity|]. split; [apply toyE_ok|]. split; [apply toyE_keeps|]. split; [apply toyE_keeps|].
  split; [eexists; split; vm_compute; reflexivity|]. split; [eexists; split; vm_compute; reflexivity|]. split.
  - eexists _, _, _. apply split3. vm_compute. reflexivity.
  - split; [vm_compute; reflexivity|]. eexists. vm_compute. reflexivity.
Qed.

(** ** C34: private keys *)
Lemma occurs_skip a : forall c sub r, hd_error sub = Some c -> ~ In c a -> occurs sub (a ++ r) -> occurs sub r.
Proof.
  intros c sub r Hh Hn (p & q & E). destruct sub as [|x sub]; [discriminate Hh|]. injection Hh as ->.
  apply app_eq_app in E. destruct E as (m & [(H1 & H2)|(H1 & H2)]).
  - destruct m as [|y m]; [exists [], q; cbn in *; symmetry; exact H2|]. cbn [app] in H2. injection H2 as <- _. exfalso. apply Hn. rewrite H1. apply in_or_app. right. left. reflexivity.
  - exists m, q. exact H2.
Qed.
Lemma marker_line k v r : ~ In x4f (str k ++ str ": " ++ v) -> occurs ssh_marker (y_field k v ++ r) -> occurs ssh_marker r.
Proof.
  intros Hn H. rewrite y_field_str in H. apply (occurs_skip (str k ++ str ": " ++ v ++ [x0a]) x4f); [reflexivity| |exact H].
  rewrite !app_assoc. rewrite in_app_iff. intros [K|[K|[]]]; [apply Hn; rewrite app_assoc; exact K|discriminate K].
Qed.
Lemma marker_base64 k v b r : ~ In x2d (str k ++ str ": ") -> b64_text v b -> occurs ssh_marker (y_field k v ++ r) -> occurs ssh_marker r.
Proof.
  intros Hn T H. rewrite y_field_str in H.
  replace ((str k ++ str ": " ++ v ++ [x0a]) ++ r) with ((str k ++ str ": " ++ v) ++ x0a :: r) in H by (rewrite <- !app_assoc; reflexivity).
  apply occurs_split in H; [|intros K; cbn in K; repeat (destruct K as [K|K]; [discriminate K|]); destruct K]. destruct H as [H|H]; [|exact H]. exfalso.
  assert (D : In x2d (str k ++ str ": " ++ v)). { apply (occurs_chars _ _ x2d H). cbn. tauto. }
  rewrite app_assoc in D. apply in_app_iff in D. destruct D as [D|D]; [exact (Hn D)|]. apply b64_text_chars in T. rewrite Forall_forall in T.
  destruct (T _ D) as [(d & Hd)|Hd]; [apply b64_val_digit in Hd; discriminate Hd|discriminate Hd].
Qed.
Lemma looks_iff b : looks_openssh b = true <-> exists p q, p <> [] /\ b = p ++ ssh_marker ++ q /\ (forall r, b <> ssh_marker ++ r).
Proof.
  unfold looks_openssh. pose proof (index_sub_spec ssh_marker b) as I. destruct (index_sub ssh_marker b) as [i|] eqn:Ei.
  - destruct I as (p & q & E & Hp). split.
    + intros H. exists p, q. split; [intros ->; change (len (@nil byte)) with 0 in Hp; lia|]. split; [exact E|]. intros r Er. rewrite Er in Ei.
      assert (P : is_prefix ssh_marker (ssh_marker ++ r) = true) by (apply is_prefix_iff; eauto).
      unfold index_sub in Ei. destruct (ssh_marker ++ r) as [|x l]; [discriminate P|]. rewrite P in Ei. injection Ei as <-. discriminate H.
    + intros (p' & q' & Hp' & E' & N). destruct p as [|x p]; [exfalso; exact (N q E)|]. rewrite len_cons in Hp. pose proof (len_nonneg p). lia.
  - split; [discriminate|]. intros (p & q & _ & E & _). exfalso. apply I. exists p, q. exact E.
Qed.
Lemma not_openssh b : ~ openssh_text b <-> looks_openssh b = false.
Proof. unfold openssh_text. rewrite <- (looks_iff b). destruct (looks_openssh b); split; congruence. Qed.
Lemma not_looks b : ~ occurs ssh_marker b -> looks_openssh b = false.
Proof. intros H. destruct (looks_openssh b) eqn:E; [|reflexivity]. apply looks_iff in E. destruct E as (p & q & _ & E & _). exfalso. apply H. exists p, q. exact E. Qed.
Lemma yaml_priv_marker E : ext_ok E -> forall comment esk salt, len esk mod 3 <> 0 -> len salt mod 3 <> 0 ->
  occurs ssh_marker (yaml_priv E (mkSpriv comment (b64_encode esk) (b64_encode salt) sk_algo scrypt_N scrypt_r scrypt_p)) ->
  comment <> [] /\ occurs ssh_marker (y_scalar E comment).
Proof.
  intros HE comment esk salt He Hs H. unfold yaml_priv in H. cbn [sp_comment sp_esk sp_salt sp_algo sp_N sp_R sp_P] in H. unfold y_opt, y_optint in H.
  assert (Hl : len (b64_encode salt) =? 0 = false). { rewrite len_b64_encode. pose proof (len_nonneg salt). destruct (Z.eq_dec (len salt) 0) as [Z|]; [rewrite Z in Hs; contradiction|]. lia. }
  rewrite Hl in H. change (len sk_algo =? 0) with false in H. change (scrypt_N =? 0) with false in H. change (scrypt_r =? 0) with false in H. change (scrypt_p =? 0) with false in H. cbv iota in H.
  unfold scrypt_N, scrypt_r, scrypt_p, sk_algo in H. rewrite (ok_y_algo E HE), (ok_y_N E HE), (ok_y_r E HE), (ok_y_p E HE), !(ok_y_base64 E HE) in H by assumption.
  assert (R : forall u, u = y_field "esk" (b64_encode esk) ++ y_field "salt" (b64_encode salt) ++ y_field "algo" (str "scrypt-sha256") ++ y_field "Z" (str "524288") ++ y_field "r" (str "8") ++ y_field "p" (str "1") ->
    ~ occurs ssh_marker u).
  { intros u -> K. apply marker_base64 with (b := esk) in K; [|cbn; intuition discriminate|apply b64_encode_text]. apply marker_base64 with (b := salt) in K; [|cbn; intuition discriminate|apply b64_encode_text].
    apply marker_line in K; [|cbn; intuition discriminate]. apply marker_line in K; [|cbn; intuition discriminate]. apply marker_line in K; [|cbn; intuition discriminate].
    rewrite <- (app_nil_r (y_field "p" _)) in K. apply marker_line in K; [|cbn; intuition discriminate]. destruct K as (p & q & K). destruct p; discriminate K. }
  destruct (Z.eqb_spec (len comment) 0) as [Z|Z]; cbn [app] in H.
  - exfalso. exact (R _ eq_refl H).
  - split; [intros ->; apply Z; reflexivity|]. rewrite y_field_str in H. rewrite <- !app_assoc in H.
    apply (occurs_skip (str "comment") x4f) in H; [|reflexivity|cbn; intuition discriminate]. apply (occurs_skip (str ": ") x4f) in H; [|reflexivity|cbn; intuition discriminate].
    cbn [app] in H. apply occurs_split in H; [|cbn; intuition discriminate]. destruct H as [H|H]; [exact H|]. exfalso. exact (R _ eq_refl H).
Qed.
(** the encrypted blob: AES-GCM under the scrypt key of the hashed password, with the first 12 salt bytes as nonce *)
Definition file_key (C : crypto) (pw salt : bytes) : bytes := scrypt C (sha512 C pw) salt (2^19) 8 1.
Definition sealed (C : crypto) (pw salt skb : bytes) : bytes := gcm_seal C (file_key C pw salt) (take 12 salt) skb [].

Lemma marshal_private_spec C E sk comment pw g : crypto_ok C ->
  let '(salt, g') := rand_buf 32 g in
  marshal_private C E sk comment pw g =
    (Ok (yaml_priv E (mkSpriv comment (b64_encode (sealed C pw salt (sk_Sk sk))) (b64_encode salt) (str "scrypt-sha256") (2^19) 8 1)), g').
Proof.
  intros HC. destruct (rand_buf 32 g) as [salt g'] eqn:Eg. unfold marshal_private. rewrite Eg. unfold scrypt_key.
  change ((scrypt_N <=? 1) || negb (is_pow2 scrypt_N)) with false. change (2 ^ 30 <=? u64 (u64 scrypt_r * u64 scrypt_p)) with false. change (scrypt_p =? 0) with false.
  change (max_int ÷ 128 ÷ scrypt_p <? scrypt_r) with false. change (max_int ÷ 256 <? scrypt_r) with false. change (scrypt_r =? 0) with false.
  change (max_int ÷ 128 ÷ scrypt_r <? scrypt_N) with false. change (2 ^ 48 <? 128 * scrypt_N * scrypt_r) with false. cbv iota.
  rewrite new_gcm_32 by apply (ok_scrypt_len C HC). reflexivity.
Qed.
Lemma unmarshal_yaml C E sk b pw esk salt comment : crypto_ok C -> looks_openssh b = false -> len salt = 32 -> 0 < len esk ->
  y_priv E b = Some (mkSpriv comment (b64_encode esk) (b64_encode salt) (str "scrypt-sha256") (2^19) 8 1) ->
  unmarshal_private C E sk b (Some (Ok pw)) =
    match gcm_open C (file_key C pw salt) (take 12 salt) esk [] with
    | None => (sk, Fail (EMsg "unmarshal priv key: wrong password"))
    | Some skb => match make_private_from_bytes C sk skb with Ok sk' => (sk', Ok tt) | Fail e => (sk, Fail e) | Panic w => (sk, Panic w) end
    end.
Proof.
  intros HC Hm Hs He Hy. unfold unmarshal_private. rewrite Hm. cbn [bind]. rewrite Hy. cbn [sp_salt sp_esk sp_N sp_R sp_P].
  rewrite !len_b64_encode, Hs. change (4 * ((32 + 2) / 3) =? 0) with false. destruct (Z.eqb_spec (4 * ((len esk + 2) / 3)) 0); [lia|]. cbn [orb].
  rewrite !b64_decode_encode. unfold scrypt_key.
  change ((2^19 <=? 1) || negb (is_pow2 (2^19))) with false. change (2 ^ 30 <=? u64 (u64 8 * u64 1)) with false. change (1 =? 0) with false.
  change (max_int ÷ 128 ÷ 1 <? 8) with false. change (max_int ÷ 256 <? 8) with false. change (8 =? 0) with false.
  change (max_int ÷ 128 ÷ 8 <? 2^19) with false. change (2 ^ 48 <? 128 * 2^19 * 8) with false. cbv iota.
  rewrite new_gcm_32 by apply (ok_scrypt_len C HC). unfold b64_spare. rewrite len_b64_encode, Hs, len_app, Hs. change (len (zeros _)) with 1. change (32 + 1 <? gcm_nonce_size) with false. cbv iota.
  change gcm_nonce_size with 12. rewrite take_app_l by lia. fold (file_key C pw salt). destruct (gcm_open C _ _ esk []) as [skb|]; [|reflexivity].
  destruct (make_private_from_bytes C sk skb); reflexivity.
Qed.
(** What was marshalled under a password is read back with that password: the same 64 key bytes, the same public key and
    name.  With any password whose derived key does not open the blob there is an error and the object is unchanged.
    Partial: the comment (as YAML writes it) must not contain the text "OPENSSH PRIVATE KEY-". *)
Theorem C34_private_round_trip_partial :
  forall C E, crypto_ok C -> ext_ok E -> forall comment, yaml_keeps E comment -> ~ part_of (str "OPENSSH PRIVATE KEY-") (y_scalar E comment) ->
  forall sk pw g, len (sk_Sk sk) = 64 -> named C (sk_pk sk) -> pk_Pk (sk_pk sk) = drop 32 (sk_Sk sk) ->
  exists file g' salt, marshal_private C E sk comment pw g = (Ok file, g') /\ len salt = 32 /\
    (forall old, exists sk', unmarshal_private C E old file (Some (Ok pw)) = (sk', Ok tt) /\
       sk_Sk sk' = sk_Sk sk /\ pk_Pk (sk_pk sk') = pk_Pk (sk_pk sk) /\ pk_hash (sk_pk sk') = pk_hash (sk_pk sk)) /\
    (forall old pw', gcm_open C (file_key C pw' salt) (take 12 salt) (sealed C pw salt (sk_Sk sk)) [] = None ->
       exists e, unmarshal_private C E old file (Some (Ok pw')) = (old, Fail e)).
Proof.
  intros C E HC HE comment (_ & _ & K) Hm sk pw g Hl Hn Hp. pose proof (marshal_private_spec C E sk comment pw g HC) as M.
  destruct (rand_buf 32 g) as [salt g'] eqn:Eg. assert (Hs : len salt = 32) by (eapply len_rand_buf; [|exact Eg]; lia).
  eexists _, g', salt. split; [exact M|]. split; [exact Hs|]. clear M.
  set (file := yaml_priv E _). assert (He : len (sealed C pw salt (sk_Sk sk)) = 80) by (unfold sealed; rewrite (ok_seal_len C HC), Hl; reflexivity).
  assert (Hk : looks_openssh file = false).
  { apply not_looks. intros H. apply (yaml_priv_marker E HE) in H; [|rewrite He; discriminate|rewrite Hs; discriminate]. apply Hm. apply H. }
  specialize (K (sealed C pw salt (sk_Sk sk)) salt). cbv zeta in K. fold file in K.
  assert (U : forall old p, unmarshal_private C E old file (Some (Ok p)) = _) by (intros old p; apply (unmarshal_yaml C E old file p (sealed C pw salt (sk_Sk sk)) salt comment HC Hk Hs); [rewrite He; lia|exact K]).
  split.
  - intros old. rewrite U. unfold sealed. rewrite (ok_open_seal C HC). unfold make_private_from_bytes. rewrite Hl. cbn [Z.eqb Pos.eqb negb]. eexists. split; [reflexivity|]. cbn.
    split; [reflexivity|]. split; [symmetry; exact Hp|]. rewrite <- Hp. symmetry. exact Hn.
  - intros old pw' Ho. rewrite U, Ho. eauto.
Qed.
Print Assumptions C34_private_round_trip_partial.
(** An error or a panic never changes the object. *)
Theorem C34_failure_changes_nothing :
  forall C E old b getpw sk r, unmarshal_private C E old b getpw = (sk, r) -> r = Ok tt \/ sk = old.
Proof.
  intros C E old b getpw sk r. unfold unmarshal_private. destruct (looks_openssh b).
  - destruct (parse_ssh_private C _ getpw); intros H; injection H as <- <-; auto.
  - match goal with |- context [match ?x with Ok _ => _ | Fail _ => _ | Panic _ => _ end = (sk, r)] => destruct x end; intros H; injection H as <- <-; auto.
Qed.
Print Assumptions C34_failure_changes_nothing.
(** Refuted as stated: with such a comment the file cannot be read back, whatever the key and password: it is taken for an
    OpenSSH file. *)
Theorem C34_comment_refuted :
  forall C E, crypto_ok C -> ext_ok E -> forall comment p q, comment <> [] -> y_scalar E comment = p ++ str "OPENSSH PRIVATE KEY-" ++ q ->
  forall sk pw g file g', marshal_private C E sk comment pw g = (Ok file, g') -> pem_decode E file = None ->
  forall old, unmarshal_private C E old file (Some (Ok pw)) = (old, Fail ErrNoPEMFound).
Proof.
  intros C E HC HE comment p q Hc Hm sk pw g file g' H Hpem old. pose proof (marshal_private_spec C E sk comment pw g HC) as M.
  destruct (rand_buf 32 g) as [salt g2]. rewrite M in H. apply (f_equal fst) in H. cbn [fst] in H.
  set (yml := yaml_priv E _) in H. assert (Ef : file = yml) by congruence. subst file. unfold yml in *. clear yml H. unfold unmarshal_private.
  assert (L : looks_openssh (yaml_priv E (mkSpriv comment (b64_encode (sealed C pw salt (sk_Sk sk))) (b64_encode salt) (str "scrypt-sha256") (2^19) 8 1)) = true).
  { apply looks_iff. unfold yaml_priv, y_opt. cbn [sp_comment]. destruct (Z.eqb_spec (len comment) 0) as [Z|_]; [apply len_0_nil in Z; contradiction|].
    rewrite y_field_str, Hm. eexists (str "comment: " ++ p), _. split; [discriminate|]. split; [|intros r R; discriminate R].
    change (str "comment: ") with (str "comment" ++ str ": "). rewrite <- !app_assoc. reflexivity. }
  rewrite L, Hpem. reflexivity.
Qed.
Print Assumptions C34_comment_refuted.
Definition bad_comment : bytes := str "not an OPENSSH PRIVATE KEY-file".
Example C34_instance : yaml_keeps toyE odd_comment /\ ~ part_of (str "OPENSSH PRIVATE KEY-") (y_scalar toyE odd_comment) /\
  len (sk_Sk skA) = 64 /\ named toy (sk_pk skA) /\ pk_Pk (sk_pk skA) = drop 32 (sk_Sk skA) /\
  (exists file g', marshal_private toy toyE skA odd_comment (str "secret") g0 = (Ok file, g') /\
     unmarshal_private toy toyE skB file (Some (Ok (str "secret"))) = (skA, Ok tt) /\
     (exists e, unmarshal_private toy toyE skB file (Some (Ok (str "Secret"))) = (skB, Fail e))) /\
  (exists p q, y_scalar toyE bad_comment = p ++ str "OPENSSH PRIVATE KEY-" ++ q) /\
  (exists file g', marshal_private toy toyE skA bad_comment (str "secret") g0 = (Ok file, g') /\ pem_decode toyE file = None).
Proof.
  split; [apply toyE_keeps|]. split.
  { intros H. pose proof (index_sub_spec (str "OPENSSH PRIVATE KEY-") (y_scalar toyE odd_comment)) as I. assert (N : index_sub (str "OPENSSH PRIVATE KEY-") (y_scalar toyE odd_comment) = None) by (vm_compute; reflexivity). rewrite N in I. exact (I H). }
  split; [vm_compute; reflexivity|]. split; [vm_compute; reflexivity|]. split; [vm_compute; reflexivity|]. split.
  - eexists _, _. split; [vm_compute; reflexivity|]. split; [vm_compute; reflexivity|]. eexists. vm_compute. reflexivity.
  - split; [exists (str "not an "), (str "file"); vm_compute; reflexivity|]. eexists _, _. split; vm_compute; reflexivity.
Qed.

(** ** C35: loading into an existing key object *)
(** what an operation sees of a public key object: key bytes, X25519 key and name *)
Definition is_key (C : crypto) (pk : pubkey) (key : bytes) : Prop :=
  pk_Pk pk = key /\ pk_hash pk = take 16 (sha256 C key) /\ exists pk', to_curve_pk pk = Ok (curve_of key, pk').
Definition is_private_key (C : crypto) (sk : privkey) (skb : bytes) : Prop :=
  sk_Sk sk = skb /\ fst (to_curve_sk C sk) = clamp (take 32 (sha512 C (take 32 skb))) /\ pk_Pk (sk_pk sk) = drop 32 skb /\
  pk_hash (sk_pk sk) = take 16 (sha256 C (drop 32 skb)).
(** Loading from an OpenSSH line or container replaces everything.  Partial: loading from YAML does so only if the object's
    curve key has not been computed yet (a fresh object; see below), and it keeps the old comment. *)
Theorem C35_public_partial :
  forall C E old b pk, unmarshal_public C E old b = (pk, Ok tt) ->
  pk_ck old = None \/ (exists k t c key, three_fields b k t c /\ len key = 32 /\ b64_text (unbroken t) (wire_key key)) ->
  exists key, len key = 32 /\ is_key C pk key.
Proof.
  assert (G : forall C key c h, len key = 32 -> h = take 16 (sha256 C key) -> is_key C (mkPub key c None h) key).
  { intros C key c h L ->. split; [reflexivity|]. split; [reflexivity|]. unfold to_curve_pk. cbn [pk_ck pk_Pk]. rewrite L. change (32 <? 32) with false. cbv iota. eexists. reflexivity. }
  intros C E old b pk H Hc. destruct (parse_ssh_pubkey C b) as [[xk|]|e|w] eqn:P.
  - unfold unmarshal_public in H. rewrite P in H. injection H as <-. apply line_exact in P. destruct P as (k & t & c & key & _ & L & _ & ->). exists key. split; [exact L|]. apply G; auto.
  - unfold unmarshal_public in H. rewrite P in H. discriminate H.
  - destruct Hc as [Hc|(k & t & c & key & H1 & H2 & H3)].
    2:{ exfalso. rewrite (proj2 (line_exact C b (mkPub key (trim_space c) None (take 16 (sha256 C key))))) in P; [discriminate P|]. exists k, t, c, key. unfold loaded. auto. }
    unfold unmarshal_public in H. rewrite P in H. destruct (y_pub E b) as [r|]; [|discriminate H]. destruct (len (su_pk r) =? 0); [discriminate H|].
    destruct (b64_decode (su_pk r)) as [key| |]; [|discriminate H|discriminate H]. unfold make_public_from_bytes in H. destruct (Z.eqb_spec (len key) 32) as [L|]; cbn [negb] in H; [|discriminate H].
    injection H as <-. exists key. split; [exact L|]. rewrite Hc. apply G; auto.
  - unfold unmarshal_public in H. rewrite P in H. discriminate H.
Qed.
Print Assumptions C35_public_partial.
Lemma priv_ok C skb : is_private_key C (private_key_of C skb) skb.
Proof. repeat split. Qed.
Theorem C35_private_partial :
  forall C E old b getpw sk, unmarshal_private C E old b getpw = (sk, Ok tt) -> sk_ck old = None \/ openssh_text b ->
  exists skb, len skb = 64 /\ is_private_key C sk skb.
Proof.
  intros C E old b getpw sk H Hc. unfold openssh_text in Hc. rewrite <- looks_iff in Hc. unfold unmarshal_private in H. destruct (looks_openssh b).
  - destruct (parse_ssh_private C (pem_decode E b) getpw) as [xk| |] eqn:P; try discriminate H. injection H as <-. unfold parse_ssh_private in P.
    destruct (pem_decode E b) as [blk|]; [|discriminate P]. destruct (pem_encrypted blk); [discriminate P|]. destruct (beq _ _); [|discriminate P].
    apply container_inv in P. destruct P as (? & ? & ? & ? & ? & ? & priv & _ & _ & (? & ? & ? & ? & L & _) & ->). exists priv. split; [exact L|apply priv_ok].
  - destruct Hc as [Hc|Hc]; [|discriminate Hc].
    match type of H with match ?x with Ok _ => _ | Fail _ => _ | Panic _ => _ end = _ => destruct x as [sk'|e|w] eqn:X end; try discriminate H. injection H as <-.
    destruct (match getpw with Some r => r | None => Ok [] end) as [pw| |]; cbn [bind] in X; try discriminate X.
    destruct (y_priv E b) as [r|]; [|discriminate X]. destruct (_ || _); [discriminate X|]. destruct (b64_decode (sp_salt r)); try discriminate X. destruct (b64_decode (sp_esk r)); try discriminate X.
    destruct (scrypt_key C _ _ _ _ _); try discriminate X. destruct (new_gcm _); try discriminate X. destruct (_ <? _); [discriminate X|]. destruct (gcm_open C _ _ _ _) as [skb|]; [|discriminate X].
    unfold make_private_from_bytes in X. destruct (Z.eqb_spec (len skb) 64) as [L|]; cbn [negb] in X; [|discriminate X]. injection X as <-. exists skb. split; [exact L|].
    rewrite Hc. apply priv_ok.
Qed.
Print Assumptions C35_private_partial.
(** Refuted as stated: after the curve key has been computed once, loading another key from YAML keeps the old curve
    key: what is encrypted to the object is encrypted to the old key (and the comment is the old one). *)
Theorem C35_stale_refuted :
  forall C E old ck, pk_ck old = Some ck ->
  (forall b pk, unmarshal_public C E old b = (pk, Ok tt) -> (exists e, parse_ssh_pubkey C b = Fail e) ->
     to_curve_pk pk = Ok (ck, pk) /\ pk_comment pk = pk_comment old) /\
  (forall oldsk ck' b getpw sk, sk_ck oldsk = Some ck' -> unmarshal_private C E oldsk b getpw = (sk, Ok tt) -> ~ openssh_text b ->
     to_curve_sk C sk = (ck', sk)).
Proof.
  intros C E old ck Hck. split.
  - intros b pk H (e & P). unfold unmarshal_public in H. rewrite P in H. destruct (y_pub E b) as [r|]; [|discriminate H]. destruct (len (su_pk r) =? 0); [discriminate H|].
    destruct (b64_decode (su_pk r)) as [key| |]; [|discriminate H|discriminate H]. unfold make_public_from_bytes in H. destruct (negb _); [discriminate H|].
    injection H as <-. unfold to_curve_pk. cbn [pk_ck]. rewrite Hck. auto.
  - intros oldsk ck' b getpw sk Hc H Hl. apply not_openssh in Hl. unfold unmarshal_private in H. rewrite Hl in H.
    match type of H with match ?x with Ok _ => _ | Fail _ => _ | Panic _ => _ end = _ => destruct x as [sk'|e|w] eqn:X end; try discriminate H. injection H as <-.
    destruct (match getpw with Some r => r | None => Ok [] end) as [pw| |]; cbn [bind] in X; try discriminate X.
    destruct (y_priv E b) as [r|]; [|discriminate X]. destruct (_ || _); [discriminate X|]. destruct (b64_decode (sp_salt r)); try discriminate X. destruct (b64_decode (sp_esk r)); try discriminate X.
    destruct (scrypt_key C _ _ _ _ _); try discriminate X. destruct (new_gcm _); try discriminate X. destruct (_ <? _); [discriminate X|]. destruct (gcm_open C _ _ _ _) as [skb|]; [|discriminate X].
    unfold make_private_from_bytes in X. destruct (negb _); [discriminate X|]. injection X as <-. unfold to_curve_sk. cbn [sk_ck]. rewrite Hc. reflexivity.
Qed.
Print Assumptions C35_stale_refuted.
(** the history: use A's public key object once, load B's key into it: it has B's key bytes and A's curve key *)
Example C35_instance :
  (exists ckA pkA' pk, to_curve_pk pkA = Ok (ckA, pkA') /\ unmarshal_public toy toyE pkA' (marshal_public toyE pkB []) = (pk, Ok tt) /\
     pk_Pk pk = pk_Pk pkB /\ pk_ck pkA' = Some ckA /\ (exists e, parse_ssh_pubkey toy (marshal_public toyE pkB []) = Fail e) /\
     to_curve_pk pk = Ok (ckA, pk) /\ forall p, to_curve_pk pkB <> Ok (ckA, p)) /\
  (* without the use in between the object is B's key *)
  (exists pk, pk_ck pkA = None /\ unmarshal_public toy toyE pkA (marshal_public toyE pkB []) = (pk, Ok tt) /\ is_key toy pk (pk_Pk pkB)).
Proof.
  split.
  - eexists _, _, _. split; [vm_compute; reflexivity|]. split; [vm_compute; reflexivity|]. split; [vm_compute; reflexivity|]. split; [vm_compute; reflexivity|].
    split; [eexists; vm_compute; reflexivity|]. split; [vm_compute; reflexivity|]. intros p H. vm_compute in H. discriminate H.
  - eexists. split; [reflexivity|]. split; [vm_compute; reflexivity|]. split; [vm_compute; reflexivity|]. split; [vm_compute; reflexivity|]. eexists. vm_compute. reflexivity.
Qed.

(** ** C36: hostile key files *)
(** UnmarshalBinary of a public key panics exactly on an OpenSSH line (three fields) whose second field is base64 of a blob
    of another key type (ssh-rsa, ...); MakePublicKeyFromString never panics, but for such a blob returns neither a key nor
    an error. *)
Theorem C36_public_panics_exactly :
  forall C E old b, len b < 2^32 ->
  ((exists pk w, unmarshal_public C E old b = (pk, Panic w)) <->
   exists k t c blob, three_fields b k t c /\ b64_text (unbroken t) blob /\ foreign_blob blob) /\
  (forall w, make_public_from_string C b <> Panic w) /\
  (make_public_from_string C b = Ok None <-> exists blob, b64_text (unbroken b) blob /\ foreign_blob blob).
Proof.
  intros C E old b Hb.
  assert (TL : forall t blob, b64_text t blob -> len blob <= len t).
  { intros t blob H. induction H as [|c0 c1 c2 c3 d0 d1 d2 d3 x y z t b' _ _ _ _ _ _ IH|c0 c1 c2 d0 d1 d2 x y _ _ _ _|c0 c1 d0 d1 x _ _ _];
      repeat match goal with |- context [len (?a :: ?l)] => rewrite (len_cons a l) end; change (len (@nil byte)) with 0; lia. }
  assert (FL : forall t, len (unbroken t) <= len t).
  { induction t as [|x t IH]; [unfold unbroken; cbn; lia|]. unfold unbroken in *. cbn [filter]. destruct (negb _); rewrite ?len_cons; lia. }
  split; [|split].
  - split.
    + intros (pk & w & H). unfold unmarshal_public in H. destruct (parse_ssh_pubkey C b) as [[xk|]|e|w'] eqn:P.
      * discriminate H.
      * unfold parse_ssh_pubkey in P. destruct (split_blanks b [] false) as [|k [|t [|c [|? ?]]]] eqn:S; try discriminate P. apply parse_enc_none in P. destruct P as (blob & T & F).
        exists k, t, c, blob. split; [apply split3; exact S|]. auto.
      * destruct (y_pub E b) as [r|]; [|discriminate H]. destruct (len (su_pk r) =? 0); [discriminate H|]. destruct (decode_cases (su_pk r)) as [(x & D & _)|((e' & D) & _)]; rewrite D in H; [|discriminate H].
        unfold make_public_from_bytes in H. destruct (negb _); discriminate H.
      * exfalso. unfold parse_ssh_pubkey in P. destruct (split_blanks b [] false) as [|k [|t [|c [|? ?]]]]; try discriminate P. exact (parse_enc_no_panic C t c w' P).
    + intros (k & t & c & blob & S & T & F). unfold unmarshal_public, parse_ssh_pubkey. pose proof S as S'. apply split3 in S'. rewrite S'.
      rewrite (parse_enc_foreign C t c blob T F); [eauto|]. pose proof (TL _ _ T). pose proof (FL t). destruct S as (b1 & b2 & -> & _). rewrite !len_app in Hb.
      pose proof (len_nonneg k). pose proof (len_nonneg b1). pose proof (len_nonneg b2). pose proof (len_nonneg c). lia.
  - intros w H. unfold make_public_from_string in H. destruct (parse_enc_pubkey C b _) as [r|e|w'] eqn:P; [discriminate H| |exact (parse_enc_no_panic C _ _ _ P)].
    destruct (decode_cases b) as [(x & Hx & _)|((e' & Hx) & _)]; rewrite Hx in H; cbn [bind] in H; [|discriminate H]. unfold make_public_from_bytes in H. destruct (negb _); discriminate H.
  - split.
    + intros H. unfold make_public_from_string in H. destruct (parse_enc_pubkey C b _) as [r|e|w'] eqn:P; [|exfalso|discriminate H].
      * injection H as ->. apply parse_enc_none in P. exact P.
      * destruct (b64_decode b); cbn [bind] in H; try discriminate H. destruct (make_public_from_bytes C zero_pub _); discriminate H.
    + intros (blob & T & F). unfold make_public_from_string. rewrite (parse_enc_foreign C b _ blob T F); [reflexivity|]. pose proof (TL _ _ T). pose proof (FL b). lia.
Qed.
Print Assumptions C36_public_panics_exactly.
(** A private key file whose parameters are like those that sigtool and ssh-keygen write makes no panic: YAML with r, p
    at least 1, at most 2^48 bytes of scrypt memory and a salt of at least 12 bytes; an OpenSSH container with a password
    callback, at least 15 bytes and a block length that fits the cipher. *)
Definition sane_yaml (r : spriv) : Prop :=
  1 <= sp_R r /\ 1 <= sp_P r /\ sp_N r * sp_R r <= 2^41 /\ (forall salt, b64_text (unbroken (sp_salt r)) salt -> 12 <= len salt).
Definition sane_openssh (d : bytes) : Prop :=
  15 <= len d /\ forall opts pub block kdf, d = container (str "aes256-cbc") kdf opts pub block -> len block mod 16 = 0.
Definition honest_callback (f : getpw_fn) : Prop := match f with Some (Panic _) => False | Some _ => True | None => False end.
Lemma open_section_no_panic C sect enc w : open_section C sect enc <> Panic w.
Proof.
  unfold open_section. destruct (ssh_unmarshal [FU32; FU32; FString; FRest] sect) as [vs|]; [|discriminate].
  destruct vs as [|[c1|] [|[c2|] [|[|kt] [|[|rest] [|? ?]]]]]; try discriminate. destruct (negb _); [discriminate|]. destruct (negb _); [discriminate|].
  destruct (ssh_unmarshal [FString; FString; FString; FRest] rest) as [vs|]; [|discriminate]. destruct vs as [|[|a] [|[|b] [|[|c] [|[|d] [|? ?]]]]]; try discriminate.
  destruct (negb _); [discriminate|]. destruct (negb _); [discriminate|]. unfold make_private_from_bytes. destruct (negb _); discriminate.
Qed.
Lemma extract_no_panic C pw opts w : extract_bcrypt C pw opts <> Panic w.
Proof.
  unfold extract_bcrypt. destruct (ssh_unmarshal _ opts) as [vs|]; [|discriminate]. destruct vs as [|[|salt] [|[rounds|] [|? ?]]]; try discriminate.
  unfold bcrypt_key. destruct (rounds <? 1); [discriminate|]. destruct (len pw =? 0); [discriminate|]. destruct (_ || _); discriminate.
Qed.
Lemma scrypt_no_panic C pw salt N r p w : 1 <= r -> 1 <= p -> N * r <= 2^41 -> scrypt_key C pw salt N r p <> Panic w.
Proof.
  intros Hr Hp Hn. unfold scrypt_key. destruct (_ || _); [discriminate|]. destruct (_ <=? _); [discriminate|]. destruct (Z.eqb_spec p 0); [lia|]. destruct (_ <? r); [discriminate|].
  destruct (_ <? r); [discriminate|]. destruct (Z.eqb_spec r 0); [lia|]. destruct (_ <? N); [discriminate|]. destruct (Z.ltb_spec (2^48) (128 * N * r)); [|discriminate]. nia.
Qed.
Theorem C36_private_partial :
  forall C E old b getpw, honest_callback getpw ->
  (forall r, y_priv E b = Some r -> sane_yaml r) ->
  (forall blk, pem_decode E b = Some blk -> 0 <= pem_spare blk /\ (pem_type blk = str "OPENSSH PRIVATE KEY" -> sane_openssh (pem_bytes blk))) ->
  forall sk w, unmarshal_private C E old b getpw <> (sk, Panic w).
Proof.
  intros C E old b getpw Hg Hy Hp sk w H. unfold unmarshal_private in H. destruct (looks_openssh b).
  - destruct (parse_ssh_private C (pem_decode E b) getpw) as [xk|e|w'] eqn:P; try discriminate H. unfold parse_ssh_private in P.
    destruct (pem_decode E b) as [blk|]; [|discriminate P]. destruct (pem_encrypted blk); [discriminate P|]. destruct (beq _ _) eqn:Et; [|discriminate P]. apply beq_eq in Et.
    destruct (Hp blk eq_refl) as (Hsp & Ho). destruct (Ho Et) as (Hlen & Hcbc). clear Hp Ho.
    unfold parse_openssh_private in P. change (len openssh_magic) with 15 in P. destruct (Z.ltb_spec (len (pem_bytes blk) + pem_spare blk) 15); [lia|].
    destruct (beq openssh_magic _) eqn:Em; cbn [negb] in P; [|discriminate P]. apply beq_eq in Em. rewrite take_app_l in Em by lia.
    destruct (Z.ltb_spec (len (pem_bytes blk)) 15); [lia|].
    destruct (ssh_unmarshal _ (drop 15 (pem_bytes blk))) as [vs|] eqn:U; [|discriminate P]. apply unmarshal_inv in U. destruct U as (_ & U).
    apply fields_string_inv in U. destruct U as (cipher & r1 & v1 & E1 & Hcip & -> & U). apply fields_string_inv in U. destruct U as (kdf & r2 & v2 & -> & Hkdf & -> & U).
    apply fields_string_inv in U. destruct U as (opts & r3 & v3 & -> & Hopts & -> & U). apply fields_u32_inv in U. destruct U as (nk & r4 & v4 & -> & Hnk & -> & U).
    apply fields_string_inv in U. destruct U as (pub & r5 & v5 & -> & Hpub & -> & U). apply fields_string_inv in U. destruct U as (block & r6 & v6 & -> & Hblk & -> & U).
    apply fields_nil_inv in U. destruct U as (-> & <-). rewrite app_nil_r in E1. destruct (Z.eqb_spec nk 1) as [->|]; cbn [negb] in P; [|discriminate P].
    destruct (beq kdf (str "bcrypt") && beq cipher (str "aes256-cbc")) eqn:K1.
    + apply andb_prop in K1. destruct K1 as (_ & Ec). apply beq_eq in Ec. subst cipher. destruct getpw as [[pw|e|w2]|]; cbn [call_getpw bind honest_callback] in *; try discriminate P; try contradiction.
      destruct (extract_bcrypt C pw opts) as [[iv key]|e|w2] eqn:X; cbn [bind] in P; try discriminate P; [|exact (extract_no_panic C _ _ _ X)].
      rewrite (Hcbc opts pub block kdf) in P. { cbn [Z.eqb negb] in P. exact (open_section_no_panic C _ _ _ P). }
      rewrite <- (take_drop 15 (pem_bytes blk)), E1, <- Em. unfold container, openssh_magic. rewrite <- !app_assoc. reflexivity.
    + destruct (beq kdf (str "bcrypt") && beq cipher (str "aes256-ctr")).
      * destruct getpw as [[pw|e|w2]|]; cbn [call_getpw bind honest_callback] in *; try discriminate P; try contradiction.
        destruct (extract_bcrypt C pw opts) as [[iv key]|e|w2] eqn:X; cbn [bind] in P; try discriminate P; [|exact (extract_no_panic C _ _ _ X)]. exact (open_section_no_panic C _ _ _ P).
      * destruct (beq kdf (str "none") && beq cipher (str "none")); [exact (open_section_no_panic C _ _ _ P)|discriminate P].
  - match type of H with match ?x with Ok _ => _ | Fail _ => _ | Panic _ => _ end = _ => destruct x as [sk'|e|w'] eqn:X end; try discriminate H.
    destruct getpw as [[pw|e|w2]|]; cbn [bind honest_callback] in *; try discriminate X; try contradiction.
    destruct (y_priv E b) as [r|]; [|discriminate X]. destruct (Hy r eq_refl) as (Hr & Hpp & Hn & Hs). destruct (_ || _); [discriminate X|].
    destruct (decode_cases (sp_salt r)) as [(salt & Es & Ts)|((e & Es) & _)]; rewrite Es in X; [|discriminate X].
    destruct (decode_cases (sp_esk r)) as [(esk & Ee & _)|((e & Ee) & _)]; rewrite Ee in X; [|discriminate X].
    destruct (scrypt_key C (sha512 C pw) salt (sp_N r) (sp_R r) (sp_P r)) as [key|e|w2] eqn:K; try discriminate X; [|exact (scrypt_no_panic C _ _ _ _ _ _ Hr Hpp Hn K)].
    assert (G : new_gcm key = Ok key \/ exists e, new_gcm key = Fail e) by (unfold new_gcm; destruct (_ || _); eauto).
    destruct G as [G|(e & G)]; rewrite G in X; [|discriminate X]. specialize (Hs salt Ts). change gcm_nonce_size with 12 in X.
    destruct (Z.ltb_spec (len (salt ++ zeros (b64_spare (sp_salt r) salt))) 12) as [L|L]; [rewrite len_app in L; pose proof (len_nonneg (zeros (b64_spare (sp_salt r) salt))); lia|].
    destruct (gcm_open C key _ esk []) as [skb|]; [|discriminate X]. unfold make_private_from_bytes in X. destruct (negb _); discriminate X.
Qed.
Print Assumptions C36_private_partial.
(** Refuted as stated: each of these files makes UnmarshalBinary panic. *)
Definition evil_yaml (salt : bytes) (n r p : Z) : spriv := mkSpriv [] (b64_encode (zeros 80)) salt (str "scrypt-sha256") n r p.
Theorem C36_private_refuted :
  forall C E old b pw, crypto_ok C -> ~ openssh_text b ->
  (* p missing (0), or r missing *)
  (forall salt k r, y_priv E b = Some (evil_yaml (b64_encode salt) (2^k) r 0) -> 1 <= k -> 0 < len salt ->
     exists w, unmarshal_private C E old b (Some (Ok pw)) = (old, Panic w)) /\
  (forall salt k p, y_priv E b = Some (evil_yaml (b64_encode salt) (2^k) 0 p) -> 1 <= k -> 1 <= p -> 0 < len salt ->
     exists w, unmarshal_private C E old b (Some (Ok pw)) = (old, Panic w)) /\
  (* a salt of 1 to 8 bytes *)
  (forall salt, y_priv E b = Some (evil_yaml (b64_encode salt) (2^19) 8 1) -> 1 <= len salt <= 9 ->
     exists w, unmarshal_private C E old b (Some (Ok pw)) = (old, Panic w)).
Proof.
  intros C E old b pw HC Hl. apply not_openssh in Hl.
  assert (P2 : forall k, 1 <= k -> (2^k <=? 1) || negb (is_pow2 (2^k)) = false).
  { intros k Hk. assert (2 <= 2^k) by (change 2 with (2^1) at 1; apply Z.pow_le_mono_r; lia). destruct (Z.leb_spec (2^k) 1); [lia|]. cbn [orb]. apply negb_false_iff. unfold is_pow2. apply Z.eqb_eq.
    replace (2^k - 1) with (Z.ones k) by (rewrite Z.ones_equiv; lia). rewrite Z.land_ones by lia. apply Z.mod_same. lia. }
  assert (HS : forall salt n r p, 0 < len salt -> (len (sp_salt (evil_yaml (b64_encode salt) n r p)) =? 0) || (len (sp_esk (evil_yaml (b64_encode salt) n r p)) =? 0) = false).
  { intros salt n r p Hs. cbn [sp_salt sp_esk evil_yaml]. rewrite !len_b64_encode. change (len (zeros 80)) with 80. destruct (Z.eqb_spec (4 * ((len salt + 2) / 3)) 0); [lia|]. reflexivity. }
  unfold unmarshal_private. rewrite Hl. cbn [bind]. split; [|split].
  - intros salt k r Hy Hk Hs. rewrite Hy, HS by exact Hs. cbn [sp_salt sp_esk sp_N sp_R sp_P evil_yaml]. rewrite !b64_decode_encode. unfold scrypt_key. rewrite P2 by exact Hk.
    unfold u64 at 1 3. change (0 mod 2 ^ 64) with 0. rewrite Z.mul_0_r. change (2 ^ 30 <=? 0 mod 2 ^ 64) with false. change (0 =? 0) with true. cbv iota. eauto.
  - intros salt k p Hy Hk Hp Hs. rewrite Hy, HS by exact Hs. cbn [sp_salt sp_esk sp_N sp_R sp_P evil_yaml]. rewrite !b64_decode_encode. unfold scrypt_key. rewrite P2 by exact Hk.
    unfold u64 at 1 2. change (0 mod 2 ^ 64) with 0. rewrite Z.mul_0_l. change (2 ^ 30 <=? 0 mod 2 ^ 64) with false. cbv iota. destruct (Z.eqb_spec p 0); [lia|].
    destruct (Z.ltb_spec (max_int ÷ 128 ÷ p) 0) as [N|_]; [pose proof (Z.quot_pos (max_int ÷ 128) p ltac:(vm_compute; discriminate) ltac:(lia)); lia|].
    change (max_int ÷ 256 <? 0) with false. change (0 =? 0) with true. cbv iota. eauto.
  - intros salt Hy Hs. rewrite Hy, HS by lia. cbn [sp_salt sp_esk sp_N sp_R sp_P evil_yaml]. rewrite !b64_decode_encode. unfold scrypt_key.
    change ((2^19 <=? 1) || negb (is_pow2 (2^19))) with false. change (2 ^ 30 <=? u64 (u64 8 * u64 1)) with false. change (1 =? 0) with false.
    change (max_int ÷ 128 ÷ 1 <? 8) with false. change (max_int ÷ 256 <? 8) with false. change (8 =? 0) with false.
    change (max_int ÷ 128 ÷ 8 <? 2^19) with false. change (2 ^ 48 <? 128 * 2^19 * 8) with false. cbv iota.
    rewrite new_gcm_32 by apply (ok_scrypt_len C HC). unfold b64_spare. rewrite len_b64_encode, len_app, len_zeros by lia. change gcm_nonce_size with 12.
    match goal with |- context [?x <? 12] => destruct (Z.ltb_spec x 12) as [|L]; [eauto|exfalso; lia] end.
Qed.
Print Assumptions C36_private_refuted.
Theorem C36_openssh_refuted :
  forall C E old b blk, openssh_text b -> pem_decode E b = Some blk -> pem_encrypted blk = false -> pem_type blk = str "OPENSSH PRIVATE KEY" ->
  (* fewer than 15 bytes in the PEM block *)
  (len (pem_bytes blk) + pem_spare blk < 15 -> forall getpw, exists w, unmarshal_private C E old b getpw = (old, Panic w)) /\
  (* an encrypted block that is not a multiple of 16 bytes *)
  (forall salt pub block pw, pem_bytes blk = container (str "aes256-cbc") (str "bcrypt") (S4 salt ++ be32 16) pub block ->
     len (pem_bytes blk) < 2^32 -> 0 <= pem_spare blk -> 0 < len salt <= 2^20 -> pw <> [] -> len block mod 16 <> 0 ->
     exists w, unmarshal_private C E old b (Some (Ok pw)) = (old, Panic w)) /\
  (* an encrypted key and no password callback *)
  (forall opts pub block, pem_bytes blk = container (str "aes256-ctr") (str "bcrypt") opts pub block ->
     len (pem_bytes blk) < 2^32 -> 0 <= pem_spare blk -> exists w, unmarshal_private C E old b None = (old, Panic w)).
Proof.
  intros C E old b blk Hl Hpem He Ht. apply looks_iff in Hl.
  assert (R : forall getpw w, parse_openssh_private C (pem_bytes blk) (pem_spare blk) getpw = Panic w -> exists w, unmarshal_private C E old b getpw = (old, Panic w)).
  { intros getpw w H. unfold unmarshal_private. rewrite Hl. unfold parse_ssh_private. rewrite Hpem, He, Ht, beq_refl, H. eauto. }
  assert (U : forall cipher kdf opts pub block getpw r, pem_bytes blk = container cipher kdf opts pub block -> len (pem_bytes blk) < 2^32 -> 0 <= pem_spare blk ->
    (if beq kdf (str "bcrypt") && beq cipher (str "aes256-cbc") then
          pw <- call_getpw getpw ;; '(iv, key) <- extract_bcrypt C pw opts ;;
          if negb (len block mod 16 =? 0) then Panic "crypto/cipher: input not full blocks" else open_section C (aes256_cbc_dec C key iv block) true
        else if beq kdf (str "bcrypt") && beq cipher (str "aes256-ctr") then
          pw <- call_getpw getpw ;; '(iv, key) <- extract_bcrypt C pw opts ;; open_section C (aes256_ctr C key iv block) true
        else if beq kdf (str "none") && beq cipher (str "none") then open_section C block false
        else Fail (EMsg "ssh: unknown Cipher/KDF: %s:%s")) = r -> parse_openssh_private C (pem_bytes blk) (pem_spare blk) getpw = r).
  { intros cipher kdf opts pub block getpw r Hc Hlen Hsp Hr. unfold parse_openssh_private.
    assert (Hc2 : pem_bytes blk = openssh_magic ++ (S4 cipher ++ S4 kdf ++ S4 opts ++ be32 1 ++ S4 pub ++ S4 block)). { rewrite Hc. unfold container, openssh_magic. rewrite <- !app_assoc. reflexivity. }
    rewrite Hc2 in Hlen |- *. set (body := S4 cipher ++ _) in *. pose proof (len_nonneg body). rewrite len_app in Hlen |- *. change (len openssh_magic) with 15 in *.
    destruct (Z.ltb_spec (15 + len body + pem_spare blk) 15); [lia|]. rewrite <- app_assoc. rewrite (take_app_eq 15) by reflexivity. rewrite beq_refl. cbn [negb].
    destruct (Z.ltb_spec (15 + len body) 15); [lia|]. rewrite (drop_app_eq 15) by reflexivity.
    rewrite (unmarshal_ok _ _ [VBytes cipher; VBytes kdf; VBytes opts; VU32 1; VBytes pub; VBytes block]); [exact Hr|apply S4_nonnil|].
    unfold body in Hlen |- *. rewrite !len_app, !len_S4, len_be32 in Hlen. pose proof (len_nonneg cipher). pose proof (len_nonneg kdf). pose proof (len_nonneg opts). pose proof (len_nonneg pub). pose proof (len_nonneg block).
    apply fields_string; [rewrite !len_app, !len_S4, len_be32; lia|]. apply fields_string; [rewrite !len_app, !len_S4, len_be32; lia|].
    apply fields_string; [rewrite !len_app, !len_S4, len_be32; lia|]. apply fields_u32; [lia|]. apply fields_string; [rewrite len_S4; lia|].
    rewrite <- (app_nil_r (S4 block)). apply fields_string; [change (len (@nil byte)) with 0; lia|]. reflexivity. }
  split; [|split].
  - intros H getpw. eapply R. unfold parse_openssh_private. change (len openssh_magic) with 15. destruct (Z.ltb_spec (len (pem_bytes blk) + pem_spare blk) 15); [reflexivity|lia].
  - intros salt pub block pw Hc Hlen Hsp Hs Hpw Hm. eapply R. eapply (U _ _ _ _ _ _ _ Hc Hlen Hsp).
    change (beq (str "bcrypt") (str "bcrypt") && beq (str "aes256-cbc") (str "aes256-cbc")) with true. cbv iota. cbn [call_getpw bind].
    rewrite (extract_ok C pw salt 16 Hpw Hs) by lia. cbn [bind]. destruct (Z.eqb_spec (len block mod 16) 0); [contradiction|]. reflexivity.
  - intros opts pub block Hc Hlen Hsp. eapply R. eapply (U _ _ _ _ _ _ _ Hc Hlen Hsp). reflexivity.
Qed.
Print Assumptions C36_openssh_refuted.
Definition pem_of (d : bytes) : bytes := pem_begin ++ [x0a] ++ b64_encode d ++ [x0a] ++ str "-----END OPENSSH PRIVATE KEY-----".
Example C36_instance :
  (* panics: a foreign public key line; YAML without p; a short salt; a 3-byte OpenSSH block *)
  (exists w, unmarshal_public toy toyE pkA entryR = (pkA, Panic w)) /\
  y_priv toyE (yaml_priv toyE (evil_yaml (b64_encode (zeros 32)) (2^19) 8 0)) = Some (evil_yaml (b64_encode (zeros 32)) (2^19) 8 0) /\
  ~ openssh_text (yaml_priv toyE (evil_yaml (b64_encode (zeros 32)) (2^19) 8 0)) /\
  (exists w, unmarshal_private toy toyE skA (yaml_priv toyE (evil_yaml (b64_encode (zeros 32)) (2^19) 8 0)) (Some (Ok (str "x"))) = (skA, Panic w)) /\
  (exists w, unmarshal_private toy toyE skA (yaml_priv toyE (evil_yaml (b64_encode (str "salt")) (2^19) 8 1)) (Some (Ok (str "x"))) = (skA, Panic w)) /\
  (exists w, unmarshal_private toy toyE skA (pem_of (str "abc")) (Some (Ok (str "x"))) = (skA, Panic w)) /\
  (* a good OpenSSH file, locked with a password *)
  unmarshal_private toy toyE skB (pem_of lockedA) (Some (Ok (str "secret"))) = (private_key_of toy skbytes, Ok tt) /\
  honest_callback (Some (Ok (str "secret"))) /\ y_priv toyE (pem_of lockedA) = None /\
  (exists blk, pem_decode toyE (pem_of lockedA) = Some blk /\ sane_openssh (pem_bytes blk)).
Proof.
  split; [eexists; vm_compute; reflexivity|]. split; [vm_compute; reflexivity|]. split; [apply not_openssh; vm_compute; reflexivity|]. split; [eexists; vm_compute; reflexivity|]. split; [eexists; vm_compute; reflexivity|].
  split; [eexists; vm_compute; reflexivity|]. split; [vm_compute; reflexivity|]. split; [exact I|]. split; [vm_compute; reflexivity|].
  eexists. split; [vm_compute; reflexivity|]. cbn [pem_bytes]. split; [vm_compute; discriminate|].
  intros opts pub block kdf H. exfalso. apply (f_equal (fun d => take 10 (drop 19 d))) in H. vm_compute in H. discriminate H.
Qed.
