(** What the key readers return. *)
From Verif Require Import Bytes BytesLemmas GoErr GoIO Crypto CryptoLaws Keys KeyFiles ExtLaws Base64 GoText TextProofs Ssh SpecSsh SshProofs SshKeyProofs Thm_Ssh Thm_KeyFiles.
Require Import ZifyBool.

Lemma make_public_loaded C E b pk : make_public_key C E b = Ok pk -> exists key c, len key = 32 /\ loaded C key c pk.
Proof.
  unfold make_public_key. destruct (unmarshal_public C E zero_pub b) as [pk' [[]|e|w]] eqn:H; intros X; try discriminate X. injection X as <-.
  unfold unmarshal_public in H. destruct (parse_ssh_pubkey C b) as [[xk|]|e|w] eqn:P; try discriminate H.
  - injection H as <-. apply line_exact in P. destruct P as (k & t & c & key & _ & L & _ & R). eauto.
  - destruct (y_pub E b) as [r|]; [|discriminate H]. destruct (len (su_pk r) =? 0); [discriminate H|].
    destruct (b64_decode (su_pk r)) as [key| |]; try discriminate H. unfold make_public_from_bytes in H. destruct (Z.eqb_spec (len key) 32) as [L|]; cbn [negb] in H; [|discriminate H].
    injection H as <-. exists key, []. split; [exact L|reflexivity].
Qed.
Lemma read_public_loaded C E r pk : read_public_key C E r = Ok pk -> exists key c, len key = 32 /\ loaded C key c pk.
Proof. destruct r as [b| |]; cbn [read_public_key bind]; intros H; try discriminate H. eapply make_public_loaded. exact H. Qed.

Lemma read_private_loaded C E r pw sk : read_private_key C E r pw = Ok sk -> exists skb, len skb = 64 /\ sk = private_key_of C skb.
Proof.
  destruct r as [b| |]; cbn [read_private_key bind]; intros X; try discriminate X. unfold make_private_key in X.
  destruct (unmarshal_private C E zero_priv b pw) as [sk' [[]|e|w]] eqn:H; try discriminate X. injection X as <-.
  unfold unmarshal_private in H. destruct (looks_openssh b).
  - destruct (parse_ssh_private C (pem_decode E b) pw) as [xk| |] eqn:P; try discriminate H. injection H as <-. unfold parse_ssh_private in P.
    destruct (pem_decode E b) as [blk|]; [|discriminate P]. destruct (pem_encrypted blk); [discriminate P|]. destruct (beq _ _); [|discriminate P].
    apply container_inv in P. destruct P as (? & ? & ? & ? & ? & ? & priv & _ & _ & (? & ? & ? & ? & L & _) & ->). exists priv. split; [exact L|reflexivity].
  - match type of H with match ?x with Ok _ => _ | Fail _ => _ | Panic _ => _ end = _ => destruct x as [sk2|e|w] eqn:X end; try discriminate H. injection H as <-.
    destruct (match pw with Some r => r | None => Ok [] end) as [p| |]; cbn [bind] in X; try discriminate X.
    destruct (y_priv E b) as [r|]; [|discriminate X]. destruct (_ || _); [discriminate X|]. destruct (b64_decode (sp_salt r)); try discriminate X. destruct (b64_decode (sp_esk r)); try discriminate X.
    destruct (scrypt_key C _ _ _ _ _); try discriminate X. destruct (new_gcm _); try discriminate X. destruct (_ <? _); [discriminate X|]. destruct (gcm_open C _ _ _ _) as [skb|]; [|discriminate X].
    unfold make_private_from_bytes in X. destruct (Z.eqb_spec (len skb) 64) as [L|]; cbn [negb] in X; [|discriminate X]. injection X as <-. exists skb. split; [exact L|reflexivity].
Qed.

From Verif Require Import SpecIO IOProofs Sign Encrypt Decrypt Spec Support FreeProofs Fs SpecFs FsProofs Store Cli SpecCli.
(** ** files *)
Lemma slurp_ok W p b : slurp W p = Ok b <-> file_holds W p b.
Proof.
  unfold slurp, read_file, file_holds. destruct (content _ _) as [c|]; [|split; [discriminate|intros [H _]; discriminate H]].
  destruct (wo_refused W p) as [e|]; split; [discriminate|intros [_ H]; discriminate H|intros H; split; congruence|intros [H _]; congruence].
Qed.
Lemma slurp_nopanic W p x : slurp W p <> Panic x.
Proof. unfold slurp, read_file. destruct (content _ _); [destruct (wo_refused W p)|]; discriminate. Qed.
Lemma open_in_ok W p rd : open_in W p = Ok rd <-> exists b, file_holds W p b /\ rd = wo_pieces W p b.
Proof.
  unfold open_in, file_holds. destruct (content _ _) as [c|]; [|split; [discriminate|intros (b & [H _] & _); discriminate H]].
  destruct (wo_refused W p) as [e|]; split; [discriminate|intros (b & [_ H] & _); discriminate H|intros H; exists c; split; [split; congruence|congruence]|].
  intros (b & [H _] & ->). congruence.
Qed.
Lemma open_in_nopanic W p x : open_in W p <> Panic x.
Proof. unfold open_in. destruct (content _ _); [destruct (wo_refused W p)|]; discriminate. Qed.
Lemma len_pos (b : bytes) : (0 <? len b) = true <-> b <> [].
Proof. destruct b; [split; [discriminate|congruence]|]. rewrite len_cons. pose proof (len_nonneg b0). split; [discriminate|]. intros _. lia. Qed.
Lemma beq_str p s : beq p s = true <-> p = s.
Proof. apply beq_iff. Qed.
Lemma input_ok W p rd : (if beq p (str "-") then Ok (wo_stdin W) else open_in W p) = Ok rd <-> input_is W p rd.
Proof.
  unfold input_is. destruct (beq p (str "-")) eqn:E.
  - apply beq_str in E. split; [intros H; left; split; congruence|]. intros [[_ ->]|[H _]]; [reflexivity|contradiction].
  - assert (N : p <> str "-") by (intros X; apply beq_str in X; congruence). rewrite open_in_ok. split; [intros H; right; auto|]. intros [[H _]|[_ H]]; [contradiction|exact H].
Qed.
Lemma get_pass_ok W nopw envpw : passphrase W nopw envpw (get_pass W nopw envpw).
Proof.
  unfold passphrase, get_pass. destruct nopw; [reflexivity|]. destruct (0 <? len envpw) eqn:E; split; intros H.
  - reflexivity.
  - apply len_pos in E. contradiction.
  - apply len_pos in H. congruence.
  - destruct (wo_ask W); eauto.
Qed.
Lemma get_pass_is W nopw envpw r : passphrase W nopw envpw r -> (forall e, r = Fail e -> get_pass W nopw envpw = Fail (EMsg "askpass")) /\ (forall p, r = Ok p -> get_pass W nopw envpw = Ok p).
Proof.
  unfold passphrase, get_pass. destruct nopw; [intros ->; split; congruence|]. intros [H1 H2]. destruct (0 <? len envpw) eqn:E.
  - rewrite H1 by (apply len_pos; exact E). split; congruence.
  - assert (envpw = []) as Z by (destruct envpw; [reflexivity|]; pose proof (proj2 (len_pos (b :: envpw)) ltac:(discriminate)); congruence). specialize (H2 Z).
    destruct (wo_ask W) as [p|]; [rewrite H2; split; congruence|]. destruct H2 as (e & ->). split; [reflexivity|discriminate].
Qed.
Lemma unasked C E b e e' sk : make_private_key C E b (Some (Fail e)) = Ok sk -> make_private_key C E b (Some (Fail e')) = Ok sk.
Proof.
  unfold make_private_key, unmarshal_private. destruct (looks_openssh b); [|discriminate].
  assert (X : forall k, parse_ssh_private C (pem_decode E b) (Some (Fail e)) = Ok k -> parse_ssh_private C (pem_decode E b) (Some (Fail e')) = Ok k).
  { intros k. unfold parse_ssh_private. destruct (pem_decode E b) as [blk|]; [|discriminate]. destruct (pem_encrypted blk); [discriminate|]. destruct (beq _ _); [|discriminate].
    unfold parse_openssh_private. destruct (_ <? _); [discriminate|]. destruct (negb _); [discriminate|]. destruct (_ <? _); [discriminate|].
    destruct (ssh_unmarshal _ _) as [[|v1 [|v2 [|v3 [|v4 [|v5 [|v6 [|]]]]]]]|]; try discriminate; try (destruct v1; discriminate); try (destruct v1; try discriminate; destruct v2; discriminate);
    destruct v1; try discriminate; destruct v2; try discriminate; destruct v3; try discriminate; destruct v4; try discriminate; destruct v5; try discriminate; destruct v6; try discriminate.
    destruct (negb _); [discriminate|]. destruct (_ && _); [discriminate|]. destruct (_ && _); [discriminate|]. exact (fun H => H). }
  destruct (parse_ssh_private C (pem_decode E b) (Some (Fail e))) as [k| |]; try discriminate. rewrite (X k eq_refl). exact (fun H => H).
Qed.
Lemma private_ok C E W nopw envpw p sk : read_private_key C E (slurp W p) (Some (get_pass W nopw envpw)) = Ok sk <-> private_in C E W nopw envpw p sk.
Proof.
  unfold read_private_key. split.
  - destruct (slurp W p) as [b| |] eqn:S; cbn [bind]; try discriminate. intros H. apply slurp_ok in S. exists b, (get_pass W nopw envpw).
    split; [exact S|]. split; [apply get_pass_ok|exact H].
  - intros (b & pw & Hf & Hpw & Hm). apply slurp_ok in Hf. rewrite Hf. cbn [bind]. destruct (get_pass_is _ _ _ _ Hpw) as (H1 & H2). destruct pw as [pw|e|w].
    + rewrite (H2 _ eq_refl). exact Hm.
    + rewrite (H1 _ eq_refl). eapply unasked. exact Hm.
    + exfalso. unfold passphrase in Hpw. destruct nopw; [discriminate Hpw|]. destruct Hpw as [P1 P2]. destruct envpw as [|c envpw].
      * specialize (P2 eq_refl). destruct (wo_ask W); [discriminate P2|]. destruct P2 as (e & P2). discriminate P2.
      * specialize (P1 ltac:(discriminate)). discriminate P1.
Qed.
Lemma public_ok C E W p pk : read_public_key C E (slurp W p) = Ok pk <-> public_in C E W p pk.
Proof.
  unfold read_public_key, public_in. split.
  - destruct (slurp W p) as [b| |] eqn:S; cbn [bind]; try discriminate. intros H. apply slurp_ok in S. eauto.
  - intros (b & S & H). apply slurp_ok in S. rewrite S. exact H.
Qed.

(** ** output *)
Lemma names_ok o : names_file o = true <-> a_file o.
Proof. unfold names_file, a_file. rewrite andb_true_iff, negb_true_iff, len_pos. split; intros [H1 H2]; (split; [exact H1|]). - intros X. apply beq_str in X. congruence. - destruct (beq o (str "-")) eqn:E; [apply beq_str in E; contradiction|reflexivity]. Qed.
Lemma with_output_file W v m outfile force body :
  let x := with_output W v m outfile true force body in let f := wo_fs W in let dst := wo_place W outfile in
  (x_code x <> 0 /\ x_ops x = [] /\ (content f dst = None \/ force = true -> se_open v <> None)) \/
  exists c w, body (sf_sink v) = (c, w) /\ x = mkOut c (sf_ops v m dst w) (wo_stdout W) /\ (force = true \/ content f dst = None).
Proof.
  cbv zeta. unfold with_output, safe_open. destruct (content (wo_fs W) (wo_place W outfile)) as [b|] eqn:E.
  - destruct force; [destruct (se_open v) eqn:O|].
    + left. split; [discriminate|]. split; [reflexivity|]. congruence.
    + right. destruct (body (sf_sink v)) as [c w]. exists c, w. auto.
    + left. split; [discriminate|]. split; [reflexivity|]. intros [H|H]; discriminate H.
  - destruct (se_open v) eqn:O.
    + left. split; [discriminate|]. split; [reflexivity|]. congruence.
    + right. destruct (body (sf_sink v)) as [c w]. exists c, w. auto.
Qed.
Lemma to_survives f dn f' : f' = run_ops f dn \/ survives f dn f' -> survives f dn f'.
Proof. intros [->|X]; [apply survives_run|exact X]. Qed.
Lemma always_nil v f dst : fresh v f dst -> always f [] (unchanged v f).
Proof.
  intros Hf dn f' Hc Hs. apply crash_nil in Hc. subst dn. apply to_survives in Hs. apply (like_unchanged v f f' dst Hf). destruct Hs as ((k & Hn) & Hd & _).
  constructor; [intros s Hs; rewrite Hn; cbn; rewrite firstn_nil; reflexivity|]. intros s i _. apply Hd. intros a d c E. destruct a; discriminate E.
Qed.
Lemma always_abort v m f dst w : fresh v f dst -> committed v w = false -> always f (sf_ops v m dst w) (unchanged v f).
Proof.
  intros Hf Hc dn f' Hcr Hs. apply to_survives in Hs. apply (like_unchanged v f f' dst Hf). pose proof (sf_ops_trace v m dst w) as T. rewrite Hc in T. eapply abort_like; eauto.
Qed.
Lemma always_commit v m f dst w : fresh v f dst -> committed v w = true ->
  always f (sf_ops v m dst w) (fun f' => unchanged v f f' \/ replaced v dst (w_out w) f f') /\ replaced v dst (w_out w) f (run_ops f (sf_ops v m dst w)).
Proof.
  intros Hf Hc. pose proof (sf_ops_trace v m dst w) as T. rewrite Hc in T. split.
  - intros dn f' Hcr Hs. apply to_survives in Hs. destruct (stage_atomic _ _ _ _ _ _ Hf (crash_stage _ _ _ _ _ _ T Hcr) Hs) as [A|A].
    + left. eapply like_unchanged; eauto.
    + right. apply swapped_replaced; assumption.
  - apply swapped_replaced; [exact Hf|]. exact (trace_end _ _ _ _ _ _ Hf T).
Qed.
Lemma not_closed v w : w_nclosed w = 0 -> committed v w = false.
Proof. unfold committed. intros ->. reflexivity. Qed.
Lemma close_failed v w : close_err v <> None -> committed v w = false.
Proof. unfold committed. destruct (close_err v); [|contradiction]. intros _. apply andb_false_r. Qed.
Lemma w_close_more w : w_nclosed (snd (w_close w)) = w_nclosed w + 1 /\ w_out (snd (w_close w)) = w_out w /\ w_sched (snd (w_close w)) = w_sched w.
Proof. unfold w_close. destruct (w_closes w); auto. Qed.
Lemma committed_iff v w : clean (sf_sink v) w -> 0 < w_nclosed w -> committed v w = match close_err v with None => true | Some _ => false end.
Proof. intros Hc Hn. unfold committed. rewrite (clean_not_failed _ _ Hc). replace (0 <? w_nclosed w) with true by lia. reflexivity. Qed.

(** ** decrypt *)
Lemma dec_body_spec C sk pk rd v c w : dec_body C sk pk rd (sf_sink v) = (c, w) ->
  (c <> 0 /\ w_nclosed w = 0) \/
  (c = 0 /\ clean (sf_sink v) w /\ 0 < w_nclosed w /\ exists d d' out, opened_by C rd sk pk d /\ decrypt C d sink = (d', out, Ok tt) /\ w_out out = w_out w).
Proof.
  unfold dec_body. destruct (new_decryptor C rd) as [[d0|e|p] rd'] eqn:En; [|intros H; injection H as <- <-; left; split; [discriminate|reflexivity]..].
  destruct (set_private_key C d0 sk pk) as [[d sk'] [[]|e|p]] eqn:Es; [|intros H; injection H as <- <-; left; split; [discriminate|reflexivity]..].
  destruct (decrypt C d (sf_sink v)) as [[d' w1] rs] eqn:Ed. apply decrypt_free in Ed. destruct Ed as ((_ & L1 & L2) & F).
  destruct rs as [[]|e|p]; [|intros H; injection H as <- <-; left; split; [discriminate|exact L2]..].
  destruct (F eq_refl) as (Hc & s & Hs & Hf). intros H. right. pose proof (w_close_more w1) as (M1 & M2 & M3). injection H as <- <-.
  split; [reflexivity|]. split; [|split].
  - destruct Hc as (used & Hu & Hn). exists used. rewrite M3. auto.
  - rewrite M1, L2. reflexivity.
  - exists d, d', (free s [] 0). split; [exists d0, rd', sk'; auto|]. split; [exact (Hf [] [] 0)|]. rewrite M2, Hs. reflexivity.
Qed.
(** ** encrypt *)
Lemma is_user_iff fn : is_user fn = true <-> user_name fn.
Proof.
  unfold is_user, user_name. pose proof (find_byte_inv (Byte.eqb x40) fn) as H. destruct (find_byte (Byte.eqb x40) fn) as [i|].
  - destruct H as (a & x & b & -> & <- & Ha & Hx). apply eqb_iff in Hx. subst x. split.
    + intros L. exists a, b. split; [reflexivity|]. split; [apply len_pos; exact L|]. intros Hi. rewrite Forall_forall in Ha. specialize (Ha _ Hi). discriminate Ha.
    + intros (a' & b' & E & Hne & Hni). destruct a as [|c a]; [|reflexivity]. exfalso. destruct a' as [|c' a']; [contradiction|]. injection E as <- _. apply Hni. left. reflexivity.
  - split; [discriminate|]. intros (a & b & -> & _). rewrite Forall_forall in H. specialize (H x40). rewrite (proj2 (eqb_iff x40 x40) eq_refl) in H. specialize (H ltac:(apply in_or_app; right; left; reflexivity)). discriminate H.
Qed.
Lemma keymap_spec pka fn : forall found pk, keymap_get pka fn found = Some pk <->
  (exists pre post, pka = pre ++ pk :: post /\ pk_comment pk = fn /\ Forall (fun k => pk_comment k <> fn) post) \/
  (found = Some pk /\ Forall (fun k => pk_comment k <> fn) pka).
Proof.
  induction pka as [|k pka IH]; intros found pk; cbn [keymap_get].
  - split; [intros H; right; auto|]. intros [(pre & post & E & _)|[H _]]; [destruct pre; discriminate E|exact H].
  - rewrite IH. split.
    + intros [(pre & post & -> & H)|[H F]]; [left; exists (k :: pre), post; auto|]. destruct (beq (pk_comment k) fn) eqn:E.
      * apply beq_str in E. injection H as <-. left. exists [], pka. auto.
      * right. split; [exact H|]. constructor; [|exact F]. intros X. apply beq_str in X. congruence.
    + intros [(pre & post & E & Hc & F)|[H F]].
      * destruct pre as [|k' pre]; injection E as -> ->; [right|left; eauto]. split; [|exact F]. rewrite (proj2 (beq_str _ _) Hc). reflexivity.
      * inversion F as [|? ? N F']; subst. right. split; [|exact F']. destruct (beq (pk_comment k) fn) eqn:E; [apply beq_str in E; contradiction|reflexivity].
Qed.
(** the lookup in the loop *)
Definition lookup (C : crypto) (E : ext) (W : world) (pka : list pubkey) (fn : bytes) : res pubkey :=
  if is_user fn then match keymap_get pka fn None with Some pk => Ok pk | None => Fail (EMsg "can't find user %s in %s") end
  else read_public_key C E (slurp W fn).
Lemma lookup_ok C E W pka fn pk : authorized C W pka -> (lookup C E W pka fn = Ok pk <-> recipient C E W fn pk).
Proof.
  intros Ha. unfold lookup, recipient. destruct (is_user fn) eqn:U.
  - apply is_user_iff in U. split.
    + destruct (keymap_get pka fn None) as [k|] eqn:K; [|discriminate]. intros H. injection H as ->. apply keymap_spec in K. destruct K as [(pre & post & -> & Hc & F)|[H _]]; [|discriminate H].
      left. split; [exact U|]. exists pre, post. auto.
    + intros [(_ & pre & post & Ha2 & Hc & F)|[N _]]; [|contradiction]. assert (pka = pre ++ pk :: post) as ->.
      { destruct Ha as (h1 & E1 & A1), Ha2 as (h2 & E2 & A2). rewrite E1 in E2. injection E2 as <-. cbv zeta in A1, A2.
        destruct A1 as [[N1 ->]|(b1 & F1 & P1)], A2 as [[N2 X2]|(b2 & F2 & P2)].
        - symmetry. exact X2.
        - destruct F2 as [F2 F2']. unfold no_file in N1. destruct N1; congruence.
        - destruct F1 as [F1 F1']. unfold no_file in N2. destruct N2; congruence.
        - destruct F1 as [F1 _], F2 as [F2 _]. congruence. }
      rewrite (proj2 (keymap_spec _ _ None pk)); [reflexivity|]. left. eauto.
  - assert (N : ~ user_name fn) by (intros X; apply is_user_iff in X; congruence). rewrite public_ok. split; [intros H; right; auto|]. intros [[X _]|[_ H]]; [contradiction|exact H].
Qed.
Lemma enc_recipients_spec C E W pka : forall fns e g errs e' g' n, enc_recipients C E W pka fns e g errs = Ok (e', g', n) ->
  errs <= n /\ (n = errs -> exists pks, Forall2 (fun fn pk => lookup C E W pka fn = Ok pk) fns pks /\ add_recipients C e pks g = Some (e', g')).
Proof.
  induction fns as [|fn fns IH]; intros e g errs e' g' n; cbn [enc_recipients].
  - intros H. injection H as <- <- <-. split; [lia|]. intros _. exists []. split; [constructor|reflexivity].
  - change (if is_user fn then _ else _) with (lookup C E W pka fn). destruct (lookup C E W pka fn) as [pk|x|p] eqn:L; [| |discriminate].
    + destruct (add_recipient C e pk g) as [[[e1 pk1] g1] [[]|x|p]] eqn:A; try discriminate. intros H. apply IH in H. destruct H as (H1 & H2). split; [exact H1|]. intros Hn.
      destruct (H2 Hn) as (pks & F & R). exists (pk :: pks). split; [constructor; assumption|]. cbn [add_recipients]. rewrite A. exact R.
    + intros H. apply IH in H. destruct H as (H1 & _). split; [lia|]. lia.
Qed.
Lemma enc_recipients_total C E W pka : forall fns pks e g errs e' g', Forall2 (fun fn pk => lookup C E W pka fn = Ok pk) fns pks -> add_recipients C e pks g = Some (e', g') ->
  enc_recipients C E W pka fns e g errs = Ok (e', g', errs).
Proof.
  intros fns pks e g errs e' g' F. revert e g. induction F as [|fn pk fns pks L F IH]; intros e g A; cbn [enc_recipients add_recipients] in *; [congruence|].
  change (if is_user fn then _ else _) with (lookup C E W pka fn). rewrite L. destruct (add_recipient C e pk g) as [[[e1 pk1] g1] [[]|x|p]]; try discriminate A. apply IH. exact A.
Qed.
Lemma enc_body_spec C E W pka sk blk fns rd v c w : authorized C W pka -> enc_body C E W pka sk blk fns rd (sf_sink v) = (c, w) ->
  (c <> 0 /\ committed v w = false) \/
  (c = 0 /\ committed v w = true /\ exists pks e g' e2 rd2 out g2, Forall2 (recipient C E W) fns pks /\ session C sk blk pks (wo_rng W) e g' /\
     encrypt C e rd sink g' = (e2, rd2, out, g2, Ok tt) /\ w_out out = w_out w).
Proof.
  intros Ha. unfold enc_body.
  assert (N0 : committed v (sf_sink v) = false) by reflexivity.
  destruct (new_encryptor C sk blk (wo_rng W)) as [[e0|x|p] g0] eqn:En; [|intros H; injection H as <- <-; left; split; [discriminate|exact N0]..].
  destruct (enc_recipients C E W pka fns e0 g0 0) as [[[e g] errs]|x|p] eqn:Er; [|intros H; injection H as <- <-; left; split; [discriminate|exact N0]..].
  apply enc_recipients_spec in Er. destruct Er as (H0 & Hr). destruct (Z.ltb_spec 0 errs) as [Hp|Hz]; [intros H; injection H as <- <-; left; split; [discriminate|exact N0]|].
  destruct (Hr ltac:(lia)) as (pks & F & A). assert (F' : Forall2 (recipient C E W) fns pks).
  { clear -F Ha. induction F; constructor; [|assumption]. apply (lookup_ok C E W pka); assumption. }
  destruct (encrypt C e rd (sf_sink v) g) as [[[[e2 rd2] w1] g2] rs] eqn:Ec. apply encrypt_free in Ec.
  assert (Bad : later (sf_sink v) w1 \/ (exists x cs, w_closes (sf_sink v) = Some x :: cs) -> committed v w1 = false).
  { intros [(_ & _ & L)|(x & cs & L)]; [apply not_closed; exact L|]. apply close_failed. cbn [sf_sink w_closes] in L. congruence. }
  destruct rs as [[]|x|p]; [|intros H; injection H as <- <-; left; split; [discriminate|exact (Bad Ec)]..].
  destruct Ec as (Hc & Hn & Hcl & s & Hs & Hf). cbn [sf_sink w_closes] in Hcl. destruct Hcl as (Hcl & _). pose proof (w_close_more w1) as (M1 & M2 & M3).
  intros H. injection H as <- <-. right. split; [reflexivity|]. split.
  - rewrite committed_iff, Hcl; [reflexivity| |rewrite M1, Hn; reflexivity]. destruct Hc as (used & Hu & Hc). exists used. rewrite M3. auto.
  - exists pks, e, g, e2, rd2, (free s [] 1), g2. split; [exact F'|]. split; [exists e0, g0; auto|]. split; [exact (Hf [] 0)|]. rewrite M2, Hs. reflexivity.
Qed.
