(** Theorems on OpenSSH keys (C37-C39) and on base64 text (C40). *)
From Verif Require Import Bytes BytesLemmas GoErr Crypto CryptoLaws Keys Base64 SpecBase64 Base64Proofs GoText TextProofs SpecTrim TrimProofs Ssh SpecSsh SshProofs SshKeyProofs
  Spec Toy Scene.
Require Import ZifyBool.
Ltac Zify.zify_post_hook ::= Z.div_mod_to_equations.
Local Notation length := List.length.
Local Notation concat := List.concat.

(** ** C40: base64.  Decoding is exactly the inverse image of the RFC 4648 text format with line breaks removed: it
    yields [b] iff the text, without its CR and LF characters, is a base64 text of [b]; otherwise it is an error, never a
    panic. *)
Theorem C40_decode_exact :
  forall s, (forall b, b64_decode s = Ok b <-> b64_text (unbroken s) b) /\
            ((forall b, ~ b64_text (unbroken s) b) -> exists e, b64_decode s = Fail e).
Proof.
  intros s. split; [intros b; apply b64_decode_iff|]. intros H. destruct (b64_decode s) as [b|e|w] eqn:E; [|eauto|].
  - apply b64_decode_iff in E. exfalso. exact (H b E).
  - unfold b64_decode in E. destruct (b64_dec s []); discriminate E.
Qed.
Print Assumptions C40_decode_exact.
(** Encoding gives a base64 text of the bytes, of length 4*ceil(n/3), made of the 64 digits and '='; decoding it - even
    after line breaks were inserted anywhere - gives the bytes back; different bytes have different texts. *)
Theorem C40_round_trip :
  forall b, b64_text (b64_encode b) b /\ len (b64_encode b) = 4 * ((len b + 2) / 3) /\
    Forall (fun c => c = x3d \/ In c rfc4648) (b64_encode b) /\
    (forall s, unbroken s = b64_encode b -> b64_decode s = Ok b) /\
    (forall b', b64_encode b' = b64_encode b -> b' = b).
Proof.
  intros b. pose proof (b64_encode_text b) as T. split; [exact T|]. split; [apply len_b64_encode|]. split; [|split].
  - eapply Forall_impl; [|apply (b64_text_chars _ _ T)]. intros c [(d & _ & Hd)|Hc]; [right; eapply nth_error_In; exact Hd|left; exact Hc].
  - intros s Hs. apply b64_decode_iff. rewrite Hs. exact T.
  - intros b' E. pose proof (b64_encode_text b') as T'. rewrite E in T'. eapply b64_text_fun; eassumption.
Qed.
Print Assumptions C40_round_trip.
(** What is refused: any other character, a number of characters (without line breaks) that is not a multiple of 4, and
    anything after a '='. *)
Lemma text_len4 t b : b64_text t b -> len t mod 4 = 0.
Proof.
  induction 1 as [|c0 c1 c2 c3 d0 d1 d2 d3 x y z t b _ _ _ _ _ _ IH|c0 c1 c2 d0 d1 d2 x y _ _ _ _|c0 c1 d0 d1 x _ _ _]; [reflexivity| |reflexivity|reflexivity].
  rewrite !len_cons. lia.
Qed.
Lemma text_pad_tail t b : b64_text t b -> forall u c v, t = u ++ x3d :: c :: v -> c = x3d /\ v = [].
Proof.
  assert (D : forall d, ~ digit x3d d). { intros d Hd. apply b64_val_digit in Hd. discriminate Hd. }
  induction 1 as [|c0 c1 c2 c3 d0 d1 d2 d3 x y z t b H0 H1 H2 H3 _ _ IH|c0 c1 c2 d0 d1 d2 x y H0 H1 H2 _|c0 c1 d0 d1 x H0 H1 _]; intros u c v E.
  - destruct u; discriminate E.
  - destruct u as [|a0 [|a1 [|a2 [|a3 u]]]]; cbn in E; injection E; intros; subst; try (exfalso; eapply D; eassumption). apply (IH u). reflexivity.
  - destruct u as [|a0 [|a1 [|a2 [|a3 [|? u]]]]]; cbn in E; try discriminate E; injection E; intros; subst; exfalso; eapply D; eassumption.
  - destruct u as [|a0 [|a1 [|a2 [|a3 [|? u]]]]]; cbn in E; try discriminate E; injection E; intros; subst; try (exfalso; eapply D; eassumption). auto.
Qed.
Theorem C40_refused :
  forall s, (exists c, In c s /\ c <> x0a /\ c <> x0d /\ c <> x3d /\ ~ In c rfc4648) \/ len (unbroken s) mod 4 <> 0 \/
            (exists u c v, unbroken s = u ++ x3d :: c :: v /\ (c <> x3d \/ v <> [])) ->
  exists e, b64_decode s = Fail e.
Proof.
  intros s H. apply C40_decode_exact. intros b T. destruct H as [(c & Hi & H1 & H2 & H3 & H4)|[H|(u & c & v & E & H)]].
  - assert (Hu : In c (unbroken s)). { apply filter_In. split; [exact Hi|]. unfold is_crlf. apply eqb_neq in H1, H2. rewrite H1, H2. reflexivity. }
    pose proof (b64_text_chars _ _ T) as F. rewrite Forall_forall in F. destruct (F c Hu) as [(d & _ & Hd)|Hc]; [apply H4; eapply nth_error_In; exact Hd|contradiction].
  - apply H. eapply text_len4. exact T.
  - destruct (text_pad_tail _ _ T _ _ _ E) as (H1 & H2). destruct H; contradiction.
Qed.
Print Assumptions C40_refused.
Example C40_instance : b64_encode (str "any carnal pleas") = str "YW55IGNhcm5hbCBwbGVhcw==" /\ b64_decode (str "YW55IGNhcm5hbCBw" ++ [x0d; x0a] ++ str "bGVhcw=" ++ [x0a] ++ str "=") = Ok (str "any carnal pleas") /\
  (exists e, b64_decode (str "YW55IG-h") = Fail e) /\ (exists e, b64_decode (str "YQ==YQ==") = Fail e) /\ (exists e, b64_decode (str "YQ=") = Fail e) /\
  (* the unused bits of the last digit are not looked at *)
  b64_decode (str "YQ==") = Ok (str "a") /\ b64_decode (str "YR==") = Ok (str "a").
Proof. repeat split; try (vm_compute; reflexivity); eexists; vm_compute; reflexivity. Qed.

(** ** C37: OpenSSH public keys.
    The blob of a line is accepted exactly if it is base64 (line breaks ignored) of an RFC 8709 Ed25519 key blob - name,
    32 bytes, nothing after - and then gives those 32 bytes, the trimmed comment and the key's name. *)
Lemma blob_exact :
  forall C t comment pk, parse_enc_pubkey C t comment = Ok (Some pk) <->
    exists key, len key = 32 /\ b64_text (unbroken t) (wire_key key) /\ loaded C key (trim_space comment) pk.
Proof.
  intros C t comment pk. unfold loaded. split.
  - intros H. apply parse_enc_inv in H. destruct H as (key & H1 & H2 & H3). eauto.
  - intros (key & H1 & H2 & ->). apply parse_enc_ok; assumption.
Qed.
Theorem C37_blob_exact :
  forall C t comment pk, parse_enc_pubkey C t comment = Ok (Some pk) <->
    exists key c, len key = 32 /\ b64_text (unbroken t) (wire_key key) /\ trimmed comment c /\ loaded C key c pk.
Proof.
  intros C t comment pk. rewrite blob_exact. split.
  - intros (key & H1 & H2 & H3). exists key, (trim_space comment). repeat (split; [assumption|]). split; [apply trimmed_iff; reflexivity|exact H3].
  - intros (key & c & H1 & H2 & H3 & H4). apply trimmed_iff in H3. subst c. eauto.
Qed.
Print Assumptions C37_blob_exact.
(** The whole line is accepted exactly if it has three fields and the second is such a blob; the first is not looked at. *)
Lemma line_exact :
  forall C line pk, parse_ssh_pubkey C line = Ok (Some pk) <->
    exists ktype blob comment key, three_fields line ktype blob comment /\ len key = 32 /\ b64_text (unbroken blob) (wire_key key) /\
      loaded C key (trim_space comment) pk.
Proof.
  intros C line pk. unfold parse_ssh_pubkey. split.
  - intros H. destruct (split_blanks line [] false) as [|a [|b [|c [|? ?]]]] eqn:E; try discriminate H.
    apply blob_exact in H. destruct H as (key & H1 & H2 & H3). exists a, b, c, key. split; [apply split3; exact E|]. auto.
  - intros (a & b & c & key & H1 & H2 & H3 & H4). apply split3 in H1. rewrite H1. apply blob_exact. eauto.
Qed.
Theorem C37_line_exact :
  forall C line pk, parse_ssh_pubkey C line = Ok (Some pk) <->
    exists ktype blob comment key c, three_fields line ktype blob comment /\ len key = 32 /\ b64_text (unbroken blob) (wire_key key) /\
      trimmed comment c /\ loaded C key c pk.
Proof.
  intros C line pk. rewrite line_exact. split.
  - intros (a & b & comment & key & H1 & H2 & H3 & H4). exists a, b, comment, key, (trim_space comment). repeat (split; [assumption|]). split; [apply trimmed_iff; reflexivity|exact H4].
  - intros (a & b & comment & key & c & H1 & H2 & H3 & H4 & H5). apply trimmed_iff in H4. subst c. exists a, b, comment, key. auto.
Qed.
Print Assumptions C37_line_exact.
(** What the property says of a line "ssh-ed25519 <blob> <comment>", with optional final newline, whose comment is one
    word. *)
Lemma lone_graphic s : Forall graphic s -> lone s.
Proof. intros H. eapply Forall_impl; [|exact H]. intros c Hc. apply graphic_not_blank. exact Hc. Qed.
Lemma trim_end c nl : neat c -> Forall space nl -> trim_space (c ++ nl) = c.
Proof. intros H1 H2. exact (trim_core [] c nl ltac:(constructor) H2 H1). Qed.
Theorem C37_line_partial :
  forall C key comment nl, len key = 32 -> word comment -> nl = [] \/ nl = [x0a] \/ nl = [x0d; x0a] ->
  exists pk, parse_ssh_pubkey C (str "ssh-ed25519 " ++ b64_encode (wire_key key) ++ [x20] ++ comment ++ nl) = Ok (Some pk) /\
    loaded C key comment pk.
Proof.
  intros C key comment nl Hk (Hc0 & Hc) Hnl. eexists. split; [|reflexivity]. apply line_exact.
  pose proof (b64_encode_text (wire_key key)) as T.
  exists (str "ssh-ed25519"), (b64_encode (wire_key key)), (comment ++ nl), key. split.
  - exists [x20], [x20]. split; [change (str "ssh-ed25519 ") with (str "ssh-ed25519" ++ [x20]); rewrite <- app_assoc; reflexivity|].
    assert (B : blanks [x20]) by (split; [discriminate|constructor; [left; reflexivity|constructor]]). split; [exact B|]. split; [exact B|].
    split; [apply lone_graphic; repeat (constructor; [unfold graphic; cbn; lia|]); constructor|].
    split; [apply lone_graphic; eapply b64_text_graphic; exact T|]. split.
    + apply Forall_app. split; [apply lone_graphic; exact Hc|]. destruct Hnl as [->|[->| ->]]; repeat constructor; unfold blank; cbn; lia.
    + intros E. apply (f_equal len) in E. rewrite len_b64_encode in E. unfold wire_key in E. rewrite len_app, !len_S4, Hk in E. discriminate E.
  - split; [exact Hk|]. split; [rewrite (b64_text_unbroken _ _ T); exact T|]. unfold loaded. f_equal. symmetry. apply trim_end; [apply neat_word; assumption|].
    destruct Hnl as [->|[->| ->]]; repeat constructor; unfold space; cbn; lia.
Qed.
Print Assumptions C37_line_partial.
(** a key whose blob is no Ed25519 key blob is never loaded: truncated, with trailing bytes, or with another key length *)
Theorem C37_bad_blob_rejected :
  forall C line ktype blob comment bad, three_fields line ktype blob comment -> b64_text (unbroken blob) bad ->
  (forall key, len key = 32 -> bad <> wire_key key) -> forall pk, parse_ssh_pubkey C line <> Ok (Some pk).
Proof.
  intros C line a b c bad H1 H2 H3 pk H. apply line_exact in H. destruct H as (a' & b' & c' & key & E & Hk & T & _).
  apply split3 in H1, E. rewrite H1 in E. injection E as <- <- <-. eapply H3; [exact Hk|]. eapply b64_text_fun; eassumption.
Qed.
Print Assumptions C37_bad_blob_rejected.
(** Refuted as stated: a line without a comment, or with a comment of several words, as ssh-keygen writes them, is not
    accepted. *)
Theorem C37_comment_refuted :
  forall C key, len key = 32 ->
  parse_ssh_pubkey C (str "ssh-ed25519 " ++ b64_encode (wire_key key)) = Fail ErrBadPublicKey /\
  (forall w1 w2, word w1 -> word w2 ->
     parse_ssh_pubkey C (str "ssh-ed25519 " ++ b64_encode (wire_key key) ++ [x20] ++ w1 ++ [x20] ++ w2) = Fail ErrBadPublicKey).
Proof.
  intros C key Hk. pose proof (b64_encode_text (wire_key key)) as T. pose proof (b64_text_graphic _ _ T) as G.
  assert (B : blanks [x20]) by (split; [discriminate|constructor; [left; reflexivity|constructor]]).
  assert (L : lone (str "ssh-ed25519")) by (apply lone_graphic; repeat (constructor; [unfold graphic; cbn; lia|]); constructor).
  assert (N : exists c r, b64_encode (wire_key key) = c :: r /\ ~ blank c).
  { destruct (b64_encode (wire_key key)) as [|c r] eqn:E; [|exists c, r; split; [reflexivity|apply graphic_not_blank; inversion G; assumption]].
    apply (f_equal len) in E. rewrite len_b64_encode in E. unfold wire_key in E. rewrite len_app, !len_S4, Hk in E. discriminate E. }
  change (str "ssh-ed25519 ") with (str "ssh-ed25519" ++ [x20]). unfold parse_ssh_pubkey. split.
  - rewrite <- app_assoc. rewrite split_at; [|exact L|exact B|left; exact N]. rewrite split_last; [reflexivity|apply lone_graphic; exact G|auto].
  - intros w1 w2 (W1 & G1) (W2 & G2). rewrite <- app_assoc. rewrite split_at; [|exact L|exact B|left; destruct N as (c & r & -> & Hc); cbn [app]; eauto].
    rewrite split_at; [|apply lone_graphic; exact G|exact B|left; destruct w1 as [|x w1]; [contradiction|]; inversion G1; subst; cbn [app]; eauto using graphic_not_blank].
    rewrite split_at; [|apply lone_graphic; exact G1|exact B|left; destruct w2 as [|x w2]; [contradiction|]; inversion G2; subst; eauto using graphic_not_blank].
    rewrite split_last; [reflexivity|apply lone_graphic; exact G2|auto].
Qed.
Print Assumptions C37_comment_refuted.

Definition keyA : bytes := Eval vm_compute in pk_Pk pkA.
Definition keyB : bytes := Eval vm_compute in pk_Pk pkB.
Definition blobA : bytes := Eval vm_compute in b64_encode (wire_key keyA).
Definition blobB : bytes := Eval vm_compute in b64_encode (wire_key keyB).
Lemma word_str s : forallb (fun c => (33 <=? b2z c) && (b2z c <=? 126)) s = true -> s <> [] -> word s.
Proof. intros H H0. split; [exact H0|]. apply Forall_forall. intros c Hc. rewrite forallb_forall in H. specialize (H c Hc). unfold graphic. lia. Qed.
Example C37_instance : len keyA = 32 /\ word (str "joe@host") /\
  parse_ssh_pubkey toy (str "ssh-ed25519 " ++ blobA ++ str " joe@host") = Ok (Some (mkPub keyA (str "joe@host") None (take 16 (sha256 toy keyA)))) /\
  (* the blob with a byte too many, and cut short *)
  (exists e, parse_ssh_pubkey toy (str "ssh-ed25519 " ++ b64_encode (wire_key keyA ++ [x00]) ++ str " joe@host") = Fail e) /\
  (exists e, parse_ssh_pubkey toy (str "ssh-ed25519 " ++ b64_encode (take 50 (wire_key keyA)) ++ str " joe@host") = Fail e) /\
  (* the key type of the line is not looked at *)
  parse_ssh_pubkey toy (str "ssh-rsa " ++ blobA ++ str " joe@host") = Ok (Some (mkPub keyA (str "joe@host") None (take 16 (sha256 toy keyA)))).
Proof.
  split; [reflexivity|]. split; [apply word_str; [reflexivity|discriminate]|].
  split; [vm_compute; reflexivity|]. split; [eexists; vm_compute; reflexivity|]. split; [eexists; vm_compute; reflexivity|]. vm_compute. reflexivity.
Qed.

(** ** C38: authorized_keys.
    Parsing never fails or panics, whatever the file; lines are independent of each other: the keys of a file are those
    of its first line followed by those of the rest. *)
Theorem C38_total_and_linewise :
  forall C, (forall f, exists ks, parse_authorized_keys C f = Ok ks) /\
  (forall l f ks1 ks2, ~ In x0a l -> parse_authorized_keys C l = Ok ks1 -> parse_authorized_keys C f = Ok ks2 ->
     parse_authorized_keys C (l ++ x0a :: f) = Ok (ks1 ++ ks2)).
Proof. intros C. split; [apply parse_auth_total|]. intros l f ks1 ks2. apply parse_auth_split. Qed.
Print Assumptions C38_total_and_linewise.
(** For a file of blank lines, comments and entries ("[options] type blob [comment]" - whatever the key type, with or
    without a comment, which may contain blanks) it returns exactly the Ed25519 keys with their comments, in file order.
    Partial: in an entry with options, the second blank-separated word of the line must not happen to be base64 (see
    below); this only concerns options with blanks in quotes. *)
Theorem C38_entries_partial :
  forall C f ks, auth_file f ks ->
  exists pks, parse_authorized_keys C f = Ok pks /\ Forall2 (fun kc pk => loaded C (fst kc) (snd kc) pk) ks pks.
Proof.
  intros C f ks H. exists (map (the_key C) ks). split; [apply parse_auth_file; exact H|].
  clear H. induction ks as [|kc ks IH]; cbn [map]; constructor; [reflexivity|exact IH].
Qed.
Print Assumptions C38_entries_partial.
(** Whatever the file, every key returned is the 32-byte key of an Ed25519 blob that stands in the file, with a comment
    that stands in the file. *)
Theorem C38_sound :
  forall C f ks pk, parse_authorized_keys C f = Ok ks -> In pk ks ->
  exists t key comment, part_of t f /\ b64_text (unbroken t) (wire_key key) /\ len key = 32 /\ loaded C key comment pk /\ part_of comment f.
Proof.
  intros C f ks pk H Hi. destruct (parse_auth_sound C f ks pk H Hi) as (t & key & comm & H1 & H2 & H3 & H4 & H5).
  exists t, key, (trim_space comm). split; [exact H1|]. split; [exact H2|]. split; [exact H3|]. split; [exact H4|].
  eapply occurs_trans; [apply occurs_trim|exact H5].
Qed.
Print Assumptions C38_sound.

Ltac spaces := repeat (constructor; [unfold space, blank; cbn; lia|]); constructor.
Lemma not_in (c : byte) (s : bytes) : forallb (fun x => negb (Byte.eqb x c)) s = true -> ~ In c s.
Proof. intros H Hi. rewrite forallb_forall in H. specialize (H c Hi). rewrite (proj2 (eqb_iff c c) eq_refl) in H. discriminate H. Qed.
Definition entryA : bytes := str "ssh-ed25519 " ++ blobA ++ str " joe@host laptop".
Definition entryB : bytes := str "from=""10.0.0.1, 10.0.0.2"" ssh-ed25519 " ++ blobB.
Definition rsa_blob : bytes := S4 (str "ssh-rsa") ++ S4 [x01; x00; x01] ++ S4 (zeros 16).
Definition entryR : bytes := str "ssh-rsa " ++ b64_encode rsa_blob ++ str " old@host".
Definition keys_file : bytes := str "# my keys" ++ [x0a] ++ [x0a] ++ entryA ++ [x0d; x0a] ++ entryR ++ [x0a] ++ entryB ++ [x0a].
Lemma bA : b64_text blobA (wire_key keyA). Proof. apply (b64_encode_text (wire_key keyA)). Qed.
Lemma bB : b64_text blobB (wire_key keyB). Proof. apply (b64_encode_text (wire_key keyB)). Qed.
Lemma bl1 : blanks [x20]. Proof. split; [discriminate|spaces]. Qed.
Lemma neat_str (a b : byte) m : graphic a -> graphic b -> neat (a :: m ++ [b]).
Proof. intros H1 H2. right. exists a, b. split; [exact H1|]. split; [exact H2|]. right. exists m. reflexivity. Qed.
Lemma line_str s : forallb (fun c => negb (Byte.eqb c x0a) && negb (Byte.eqb c x0d)) s = true -> one_line s.
Proof. intros H. apply Forall_forall. intros c Hc. rewrite forallb_forall in H. specialize (H c Hc). apply andb_prop in H. destruct H as (H1 & H2).
  apply negb_true_iff in H1, H2. apply eqb_neq in H1, H2. auto. Qed.
Lemma file_ok : auth_file keys_file [(keyA, str "joe@host laptop"); (keyB, [])].
Proof.
  assert (GA : auth_entry (entryA ++ [x0d]) [(keyA, str "joe@host laptop")]).
  { change (entryA ++ [x0d]) with ([] ++ entryA ++ [x0d]). eapply (ae_key [] entryA [x0d] (str "ssh-ed25519") blobA (wire_key keyA) (str "joe@host laptop")).
    - constructor. - spaces. - intros []. 
    - exists [x20]. split; [apply bl1|]. split; [apply word_str; [reflexivity|discriminate]|]. right. split; [discriminate|]. split; [|split; [apply line_str; reflexivity|]].
      + apply (neat_str _ _ (str "oe@host lapto")); unfold graphic; cbn; lia.
      + exists [x20]. split; [apply bl1|]. reflexivity.
    - discriminate. - apply bA. - apply sf_key; reflexivity. }
  assert (GR : auth_entry entryR []).
  { rewrite <- (app_nil_r entryR). change (entryR ++ []) with ([] ++ entryR ++ []). eapply (ae_key [] entryR [] (str "ssh-rsa") (b64_encode rsa_blob) rsa_blob (str "old@host")).
    - constructor. - constructor. - intros [].
    - exists [x20]. split; [apply bl1|]. split; [apply word_str; [reflexivity|discriminate]|]. right. split; [discriminate|]. split; [|split; [apply line_str; reflexivity|]].
      + apply (neat_str _ _ (str "ld@hos")); unfold graphic; cbn; lia.
      + exists [x20]. split; [apply bl1|]. reflexivity.
    - discriminate. - apply b64_encode_text. - apply sf_other; [|vm_compute; reflexivity]. exists (str "ssh-rsa"), (S4 [x01; x00; x01] ++ S4 (zeros 16)). split; [reflexivity|]. split; [discriminate|reflexivity]. }
  assert (GB : auth_entry entryB [(keyB, [])]).
  { pose (o := str "from=" ++ x22 :: str "10.0.0.1, 10.0.0.2" ++ [x22]). pose (part := str "ssh-ed25519 " ++ blobB).
    replace entryB with ([] ++ (o ++ [x20] ++ part) ++ []) by reflexivity.
    apply (ae_options [] o [x20] part [] (str "ssh-ed25519") blobB (wire_key keyB) [] [(keyB, [])] (str "10.0.0.2" ++ [x22])).
    - constructor. - constructor. - intros [].
    - unfold o. repeat (apply o_char; [unfold graphic; cbn; lia|discriminate|discriminate|]). apply o_quoted; [|constructor].
      repeat (apply q_char; [discriminate|discriminate|discriminate|discriminate|]). constructor.
    - discriminate. - discriminate. - apply bl1.
    - exists [x20]. split; [apply bl1|]. split; [apply word_str; [reflexivity|discriminate]|]. left. split; reflexivity.
    - exists (str "from=" ++ x22 :: str "10.0.0.1,"), [x20], (x20 :: part). split; [reflexivity|]. split; [discriminate|]. split; [spaces|]. split; [apply bl1|].
      split; [exists x31, (str "0.0.0.2" ++ [x22]); split; [reflexivity|unfold graphic; cbn; lia]|]. split; [spaces|]. right. exists x20, part. split; [reflexivity|left; reflexivity].
    - intros b T. apply b64_text_chars in T. rewrite Forall_forall in T. destruct (T x2e) as [(d & Hd)|E]; [right; right; left; reflexivity| |discriminate E].
      apply b64_val_digit in Hd. discriminate Hd.
    - apply bB. - apply sf_key; reflexivity. }
  unfold keys_file.
  replace (str "# my keys" ++ [x0a] ++ [x0a] ++ entryA ++ [x0d; x0a] ++ entryR ++ [x0a] ++ entryB ++ [x0a])
    with (str "# my keys" ++ x0a :: [] ++ x0a :: (entryA ++ [x0d]) ++ x0a :: entryR ++ x0a :: entryB ++ x0a :: []) by reflexivity.
  change ([(keyA, str "joe@host laptop"); (keyB, [])]) with ([] ++ [] ++ [(keyA, str "joe@host laptop")] ++ [] ++ [(keyB, @nil byte)] ++ []).
  apply af_line; [apply not_in; reflexivity|apply (ae_comment [] (str " my keys")); constructor|].
  apply af_line; [intros []|apply ae_blank; constructor|].
  apply af_line; [apply not_in; reflexivity|exact GA|]. apply af_line; [apply not_in; reflexivity|exact GR|]. apply af_line; [apply not_in; reflexivity|exact GB|]. constructor.
Qed.
Example C38_instance : auth_file keys_file [(keyA, str "joe@host laptop"); (keyB, [])] /\
  exists pks, parse_authorized_keys toy keys_file = Ok pks /\ map pk_Pk pks = [keyA; keyB].
Proof. split; [exact file_ok|]. eexists. split; vm_compute; reflexivity. Qed.
(** Refuted without that restriction: an entry whose options contain a quoted blank and a second word that is itself base64
    - a perfectly good options field for sshd - loses its key, or is given another one. *)
Theorem C38_options_refuted :
  (* command="echo c3NoLWRzcw" ... : the key of the line is dropped *)
  (exists o, options o /\ parse_authorized_keys toy (o ++ str " ssh-ed25519 " ++ blobB) = Ok [] /\
     parse_authorized_keys toy (str "ssh-ed25519 " ++ blobB) = Ok [the_key toy (keyB, [])]) /\
  (* command="echo <blob of A> " ... : the key of A is returned, not that of B *)
  (exists o, options o /\ exists pk, parse_authorized_keys toy (o ++ str " ssh-ed25519 " ++ blobB) = Ok [pk] /\ pk_Pk pk = keyA).
Proof.
  split.
  - exists (str "command=" ++ x22 :: (str "echo " ++ b64_encode (S4 (str "ssh-dss")) ++ str " ") ++ [x22]). split; [|split; vm_compute; reflexivity].
    repeat (apply o_char; [unfold graphic; cbn; lia|discriminate|discriminate|]). apply o_quoted; [|constructor].
    repeat (apply q_char; [discriminate|discriminate|discriminate|discriminate|]). constructor.
  - exists (str "command=" ++ x22 :: (str "echo " ++ blobA ++ str " ") ++ [x22]). split; [|eexists; split; vm_compute; reflexivity].
    repeat (apply o_char; [unfold graphic; cbn; lia|discriminate|discriminate|]). apply o_quoted; [|constructor].
    repeat (apply q_char; [discriminate|discriminate|discriminate|discriminate|]). constructor.
Qed.
Print Assumptions C38_options_refuted.

(** ** C39: openssh-key-v1 private key containers.
    A container is accepted exactly if it has the magic, one key, a known cipher/KDF pair whose private section - as it
    is, or decrypted with the key derived from the password - has two equal check words, the key type ssh-ed25519, a
    public key (not looked at), 64 private key bytes, a comment and padding 1,2,3,...; the result is the key object for
    those 64 bytes. *)
Theorem C39_container_exact :
  forall C, crypto_ok C -> forall data spare getpw sk, len data < 2^32 -> 0 <= spare ->
  (parse_openssh_private C data spare getpw = Ok sk <->
   exists cipher kdf opts pub block sect priv,
     data = container cipher kdf opts pub block /\ unlocks C (password getpw) cipher kdf opts block sect /\
     private_section priv sect /\ sk = private_key_of C priv).
Proof.
  intros C HC data spare getpw sk Hl Hs. split; [apply container_inv|].
  intros (cipher & kdf & opts & pub & block & sect & priv & -> & Hu & Hp & ->). apply (container_ok C HC _ _ _ _ _ sect); assumption.
Qed.
Print Assumptions C39_container_exact.
(** the private section determines the key: what is stored is what is loaded *)
Theorem C39_section_unique :
  forall priv1 priv2 sect, private_section priv1 sect -> private_section priv2 sect -> priv1 = priv2.
Proof.
  assert (S : forall a b x y, len a < 2^32 -> len b < 2^32 -> S4 a ++ x = S4 b ++ y -> a = b /\ x = y).
  { intros a b x y Ha Hb E. unfold S4 in E. rewrite <- !app_assoc in E. apply app_inj_len in E; [|rewrite !len_be32; reflexivity]. destruct E as (E1 & E2).
    apply (f_equal unbe32) in E1. pose proof (unbe32_be32 (len a) []) as U1. pose proof (unbe32_be32 (len b) []) as U2. rewrite app_nil_r in U1, U2. rewrite U1, U2 in E1.
    pose proof (len_nonneg a). pose proof (len_nonneg b). rewrite !Z.mod_small in E1 by lia. apply app_inj_len in E2; assumption. }
  intros p1 p2 sect (c1 & u1 & m1 & n1 & Hp1 & Hc1 & Hn1 & Hu1 & Hm1 & E1) (c2 & u2 & m2 & n2 & Hp2 & Hc2 & Hn2 & Hu2 & Hm2 & E2). rewrite E2 in E1. clear E2.
  apply app_inj_len in E1; [|rewrite !len_be32; reflexivity]. destruct E1 as (_ & E1). apply app_inj_len in E1; [|rewrite !len_be32; reflexivity]. destruct E1 as (_ & E1).
  apply app_inv_head in E1. apply S in E1; [|assumption..]. destruct E1 as (_ & E1). apply S in E1; [|lia..]. destruct E1 as (E1 & _). symmetry. exact E1.
Qed.
Print Assumptions C39_section_unique.
Definition skbytes : bytes := Eval vm_compute in sk_Sk skA.
Definition sectA : bytes := be32 77 ++ be32 77 ++ S4 (str "ssh-ed25519") ++ S4 keyA ++ S4 skbytes ++ S4 (str "joe") ++ padding 2.
Definition plainA : bytes := container (str "none") (str "none") [] (wire_key keyA) sectA.
(** the same with a password: the toy cipher adds a number *)
Definition saltA : bytes := str "0123456789abcdef".
Definition kA48 : bytes := Eval vm_compute in bcrypt_kdf toy (str "secret") saltA 16.
Definition blockA : bytes := map (fun b => z2b (b2z b + poly 255 (take 32 kA48 ++ take 16 (drop 32 kA48)))) sectA.
Definition lockedA : bytes := container (str "aes256-ctr") (str "bcrypt") (S4 saltA ++ be32 16) (wire_key keyA) blockA.
Lemma sect_ok : private_section skbytes sectA.
Proof. exists 77, keyA, (str "joe"), 2%nat. repeat split; try (cbn; lia); vm_compute; reflexivity. Qed.
Example C39_instance : len lockedA < 2^32 /\
  (exists sect, unlocks toy (Some (str "secret")) (str "aes256-ctr") (str "bcrypt") (S4 saltA ++ be32 16) blockA sect /\ private_section skbytes sect) /\
  parse_openssh_private toy lockedA 0 (Some (Ok (str "secret"))) = Ok (private_key_of toy skbytes) /\
  parse_openssh_private toy plainA 0 None = Ok (private_key_of toy skbytes) /\
  parse_openssh_private toy lockedA 0 (Some (Ok (str "Secret"))) = Fail ErrIncorrectPassword.
Proof.
  split; [vm_compute; reflexivity|]. split.
  - exists sectA. split; [|exact sect_ok].
    assert (E : sectA = aes256_ctr toy (take 32 (bcrypt_kdf toy (str "secret") saltA 16)) (take 16 (drop 32 (bcrypt_kdf toy (str "secret") saltA 16))) blockA) by (vm_compute; reflexivity).
    rewrite E at 1. apply un_ctr; [reflexivity|discriminate|cbn; lia|lia].
  - split; [vm_compute; reflexivity|]. split; vm_compute; reflexivity.
Qed.
