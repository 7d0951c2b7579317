(** Proofs about Ssh.v. *)
From Verif Require Import Bytes BytesLemmas GoErr Crypto CryptoLaws Keys Base64 SpecBase64 Base64Proofs GoText TextProofs Ssh SpecSsh.
Require Import ZifyBool.
Ltac Zify.zify_post_hook ::= Z.div_mod_to_equations.
Local Notation length := List.length.
Local Notation concat := List.concat.

Lemma len_S4 s : len (S4 s) = 4 + len s.
Proof. unfold S4. rewrite len_app, len_be32. reflexivity. Qed.
Lemma parse_string_S4 s r : len s + len r < 2^32 -> parse_string (S4 s ++ r) = Some (s, r).
Proof.
  intros H. unfold parse_string. pose proof (len_nonneg s). pose proof (len_nonneg r). unfold S4. rewrite <- app_assoc.
  rewrite !len_app, len_be32. destruct (Z.ltb_spec (4 + (len s + len r)) 4); [lia|].
  rewrite unbe32_be32. rewrite (drop_app_eq 4) by reflexivity. rewrite len_app. unfold u32. rewrite !Z.mod_small by lia.
  destruct (Z.ltb_spec (len s + len r) (len s)); [lia|]. rewrite take_app_exact, drop_app_exact. reflexivity.
Qed.
Lemma parse_string_inv d s r : parse_string d = Some (s, r) -> d = S4 s ++ r /\ len s < 2^32.
Proof.
  unfold parse_string. destruct (Z.ltb_spec (len d) 4) as [|H4]; [discriminate|]. pose proof (unbe32_range d) as Hr. set (n := unbe32 d) in *.
  pose proof (len_nonneg (drop 4 d)) as Hn. unfold u32. destruct (Z.ltb_spec (len (drop 4 d) mod 2^32) n) as [|Hl]; [discriminate|].
  intros H. injection H as <- <-. assert (Hle : n <= len (drop 4 d)). { pose proof (Z.mod_le (len (drop 4 d)) (2^32) Hn ltac:(lia)). lia. }
  rewrite len_take_le by lia. split; [|lia]. unfold S4. rewrite len_take_le by lia. rewrite <- app_assoc, take_drop.
  rewrite <- (take_drop 4 d) at 1. f_equal. unfold n. rewrite <- (be32_unbe32 (take 4 d)) by (apply len_take_le; lia). f_equal.
  destruct d as [|a [|b [|c [|e d]]]]; try (exfalso; cbn in H4; lia). cbn. reflexivity.
Qed.

(** lists of values as ssh.Unmarshal sees them *)
Lemma fields_string fs s r vs x : len s + len r < 2^32 -> ssh_fields fs r = Some (vs, x) -> ssh_fields (FString :: fs) (S4 s ++ r) = Some (VBytes s :: vs, x).
Proof. intros H1 H2. cbn [ssh_fields]. rewrite parse_string_S4 by exact H1. rewrite H2. reflexivity. Qed.
Lemma fields_u32 fs z r vs x : 0 <= z < 2^32 -> ssh_fields fs r = Some (vs, x) -> ssh_fields (FU32 :: fs) (be32 z ++ r) = Some (VU32 z :: vs, x).
Proof.
  intros H1 H2. cbn [ssh_fields]. rewrite len_app, len_be32. pose proof (len_nonneg r). destruct (Z.ltb_spec (4 + len r) 4); [lia|].
  rewrite (drop_app_eq 4) by reflexivity. rewrite H2, unbe32_be32, Z.mod_small by lia. reflexivity.
Qed.
Lemma fields_string_inv fs d vs x : ssh_fields (FString :: fs) d = Some (vs, x) ->
  exists s r vs', d = S4 s ++ r /\ len s < 2^32 /\ vs = VBytes s :: vs' /\ ssh_fields fs r = Some (vs', x).
Proof.
  cbn [ssh_fields]. destruct (parse_string d) as [[s r]|] eqn:E; [|discriminate]. destruct (ssh_fields fs r) as [[vs' y]|] eqn:E2; [|discriminate].
  intros H. injection H as <- <-. apply parse_string_inv in E. exists s, r, vs'. tauto.
Qed.
Lemma be32_unbe32_app d : 4 <= len d -> be32 (unbe32 d) ++ drop 4 d = d.
Proof.
  intros H4. rewrite <- (take_drop 4 d) at 3. f_equal. rewrite <- (be32_unbe32 (take 4 d)) by (apply len_take_le; lia). f_equal.
  destruct d as [|a [|b [|c [|e d]]]]; try (exfalso; cbn in H4; lia). cbn. reflexivity.
Qed.
Lemma fields_u32_inv fs d vs x : ssh_fields (FU32 :: fs) d = Some (vs, x) ->
  exists z r vs', d = be32 z ++ r /\ 0 <= z < 2^32 /\ vs = VU32 z :: vs' /\ ssh_fields fs r = Some (vs', x).
Proof.
  cbn [ssh_fields]. destruct (Z.ltb_spec (len d) 4) as [|H]; [discriminate|]. destruct (ssh_fields fs (drop 4 d)) as [[vs' y]|] eqn:E2; [|discriminate].
  intros K. injection K as <- <-. exists (unbe32 d), (drop 4 d), vs'. split; [symmetry; apply be32_unbe32_app; exact H|]. split; [apply unbe32_range|]. tauto.
Qed.
Lemma fields_rest_inv d vs x : ssh_fields [FRest] d = Some (vs, x) -> vs = [VBytes d] /\ x = [].
Proof. cbn. intros H. injection H as <- <-. auto. Qed.
Lemma fields_nil_inv d vs x : ssh_fields [] d = Some (vs, x) -> vs = [] /\ x = d.
Proof. cbn. intros H. injection H as <- <-. auto. Qed.
Lemma unmarshal_inv fs d vs : ssh_unmarshal fs d = Some vs -> d <> [] /\ ssh_fields fs d = Some (vs, []).
Proof.
  unfold ssh_unmarshal. destruct (Z.eqb_spec (len d) 0) as [|H]; [discriminate|].
  destruct (ssh_fields fs d) as [[v [|? ?]]|]; try discriminate. intros K. injection K as ->. split; [|reflexivity].
  intros ->. apply H. reflexivity.
Qed.
Lemma unmarshal_ok fs d vs : d <> [] -> ssh_fields fs d = Some (vs, []) -> ssh_unmarshal fs d = Some vs.
Proof.
  intros H1 H2. unfold ssh_unmarshal. destruct (Z.eqb_spec (len d) 0) as [E|]; [apply len_0_nil in E; contradiction|]. rewrite H2. reflexivity.
Qed.

(** ** public keys *)
Lemma app_nonnil (a b : bytes) : 0 < len a -> a ++ b <> [].
Proof. intros H E. apply (f_equal len) in E. rewrite len_app in E. change (len (@nil byte)) with 0 in E. pose proof (len_nonneg b). lia. Qed.
Lemma parse_key_bytes C key : len key = 32 ->
  parse_string (wire_key key) = Some (str "ssh-ed25519", S4 key) /\
  ssh_unmarshal [FString; FRest] (S4 key) = Some [VBytes key; VBytes []] /\
  make_public_from_bytes C zero_pub key = Ok (mkPub key [] None (take 16 (sha256 C key))).
Proof.
  intros H. split; [|split].
  - unfold wire_key. apply parse_string_S4. rewrite len_S4, H. change (len (str "ssh-ed25519")) with 11. lia.
  - apply unmarshal_ok; [intros E; apply (f_equal len) in E; rewrite len_S4, H in E; discriminate E|].
    rewrite <- (app_nil_r (S4 key)). apply fields_string; [change (len (@nil byte)) with 0; lia|reflexivity].
  - unfold make_public_from_bytes. rewrite H. reflexivity.
Qed.
Lemma parse_enc_ok C t comm key : b64_text (unbroken t) (wire_key key) -> len key = 32 ->
  parse_enc_pubkey C t comm = Ok (Some (mkPub key (trim_space comm) None (take 16 (sha256 C key)))).
Proof.
  intros Ht Hk. apply b64_decode_iff in Ht. unfold parse_enc_pubkey. rewrite Ht. cbn [bind].
  destruct (parse_key_bytes C key Hk) as (-> & H2 & H3). unfold algo_ed25519. rewrite beq_refl. cbn [negb]. rewrite H2.
  change (len (@nil byte)) with 0. change (0 <? 0) with false. cbv iota. rewrite H3. cbn [bind pk_Pk pk_ck pk_hash]. reflexivity.
Qed.
Lemma parse_enc_inv C t comm pk : parse_enc_pubkey C t comm = Ok (Some pk) ->
  exists key, b64_text (unbroken t) (wire_key key) /\ len key = 32 /\ pk = mkPub key (trim_space comm) None (take 16 (sha256 C key)).
Proof.
  unfold parse_enc_pubkey. destruct (b64_decode t) as [d|e|w] eqn:Ed; cbn [bind]; try discriminate. apply b64_decode_iff in Ed.
  destruct (parse_string d) as [[algo r]|] eqn:Ep; [|discriminate]. apply parse_string_inv in Ep. destruct Ep as (-> & Ha).
  destruct (beq algo algo_ed25519) eqn:Eb; cbn [negb]; [|discriminate]. apply beq_eq in Eb. subst algo.
  destruct (ssh_unmarshal [FString; FRest] r) as [vs|] eqn:Eu; [|discriminate]. apply unmarshal_inv in Eu. destruct Eu as (Hne & Eu).
  apply fields_string_inv in Eu. destruct Eu as (key & rest & vs' & -> & Hk & -> & Er). apply fields_rest_inv in Er. destruct Er as (-> & _).
  destruct (Z.ltb_spec 0 (len rest)) as [|Hr]; [discriminate|]. assert (rest = []) by (apply len_0_nil; pose proof (len_nonneg rest); lia). subst rest.
  unfold make_public_from_bytes. destruct (Z.eqb_spec (len key) 32) as [E|]; cbn [negb bind]; [|discriminate].
  intros H. injection H as <-. exists key. rewrite app_nil_r in Ed. split; [exact Ed|]. split; [exact E|]. reflexivity.
Qed.
Lemma parse_enc_foreign C t comm blob : b64_text (unbroken t) blob -> foreign_blob blob -> len blob < 2^32 -> parse_enc_pubkey C t comm = Ok None.
Proof.
  intros Ht (algo & rest & -> & Hne & Ha) Hl. apply b64_decode_iff in Ht. unfold parse_enc_pubkey. rewrite Ht. cbn [bind].
  rewrite len_app, len_S4 in Hl. rewrite parse_string_S4 by lia. destruct (beq algo algo_ed25519) eqn:E; [apply beq_eq in E; contradiction|]. reflexivity.
Qed.
Lemma parse_enc_none C t comm : parse_enc_pubkey C t comm = Ok None -> exists blob, b64_text (unbroken t) blob /\ foreign_blob blob.
Proof.
  unfold parse_enc_pubkey. destruct (b64_decode t) as [d|e|w] eqn:Ed; cbn [bind]; try discriminate. apply b64_decode_iff in Ed.
  destruct (parse_string d) as [[algo r]|] eqn:Ep; [|discriminate]. apply parse_string_inv in Ep. destruct Ep as (-> & Ha).
  destruct (beq algo algo_ed25519) eqn:Eb; cbn [negb].
  - destruct (ssh_unmarshal _ r) as [[|[|] [|[|] [|? ?]]]|]; try discriminate. destruct (0 <? len _); [discriminate|].
    unfold make_public_from_bytes. destruct (negb _); cbn [bind]; discriminate.
  - intros _. exists (S4 algo ++ r). split; [exact Ed|]. exists algo, r. split; [reflexivity|]. split; [|exact Ha]. intros ->. rewrite beq_refl in Eb. discriminate Eb.
Qed.
Lemma parse_enc_no_panic C t comm w : parse_enc_pubkey C t comm <> Panic w.
Proof.
  unfold parse_enc_pubkey, b64_decode. destruct (b64_dec t []) as [d|]; cbn [bind]; [|discriminate].
  destruct (parse_string d) as [[algo r]|]; [|discriminate]. destruct (negb _); [discriminate|].
  destruct (ssh_unmarshal _ r) as [[|[|] [|[|] [|? ?]]]|]; try discriminate. destruct (0 <? len _); [discriminate|].
  unfold make_public_from_bytes. destruct (negb _); cbn [bind]; discriminate.
Qed.
Lemma parse_enc_not_base64 C t comm : (forall b, ~ b64_text (unbroken t) b) -> exists e, parse_enc_pubkey C t comm = Fail e.
Proof.
  intros H. unfold parse_enc_pubkey. destruct (b64_decode t) as [d|e|w] eqn:E.
  - apply b64_decode_iff in E. exfalso. exact (H d E).
  - cbn. eauto.
  - unfold b64_decode in E. destruct (b64_dec t []); discriminate E.
Qed.

(** ** authorized_keys: one line *)
Lemma word_no_blank s : Forall graphic s -> Forall (fun c => is_blank c = false) s.
Proof. intros H. eapply Forall_impl; [|exact H]. intros c Hc. apply is_blank_false. apply graphic_not_blank. exact Hc. Qed.
Lemma digit_graphic c d : digit c d -> graphic c.
Proof.
  intros (Hd & Hn). apply nth_error_In in Hn. assert (T : forallb (fun c => (33 <=? b2z c) && (b2z c <=? 126)) rfc4648 = true) by (vm_compute; reflexivity).
  rewrite forallb_forall in T. specialize (T c Hn). unfold graphic. lia.
Qed.
Lemma b64_text_graphic t b : b64_text t b -> Forall graphic t.
Proof.
  intros H. apply b64_text_chars in H. eapply Forall_impl; [|exact H]. intros c [(d & Hd)|Hc]; [eapply digit_graphic; exact Hd|subst c]. unfold graphic. cbn. lia.
Qed.
Lemma neat_word s : s <> [] -> Forall graphic s -> neat s.
Proof.
  intros Hne Hs. right. destruct s as [|a s]; [contradiction|]. inversion Hs; subst.
  destruct s as [|c s]; [exists a, a; auto|].
  destruct (@exists_last _ (c :: s)) as (m & b & E); [discriminate|]. exists a, b. split; [assumption|]. split.
  - rewrite E in H2. apply Forall_app in H2. destruct H2 as (_ & H2). inversion H2; assumption.
  - right. exists m. rewrite E. reflexivity.
Qed.
Lemma neat_cat u v w : neat u -> u <> [] -> neat w -> w <> [] -> neat (u ++ v ++ w).
Proof.
  intros [|(a & b & Ha & Hb & Hu)] Hu0 [|(c & d & Hc & Hd & Hw)] Hw0; try contradiction. right.
  destruct Hw as [-> | (m' & ->)]; destruct Hu as [-> | (m & ->)].
  - exists a, c. split; [exact Ha|]. split; [exact Hc|]. right. exists v. reflexivity.
  - exists a, c. split; [exact Ha|]. split; [exact Hc|]. right. exists (m ++ b :: v). rewrite <- !app_assoc. cbn [app]. rewrite <- !app_assoc. reflexivity.
  - exists a, d. split; [exact Ha|]. split; [exact Hd|]. right. exists (v ++ c :: m'). cbn [app]. rewrite <- !app_assoc. reflexivity.
  - exists a, d. split; [exact Ha|]. split; [exact Hd|]. right. exists ((m ++ b :: v) ++ c :: m'). cbn [app]. rewrite <- !app_assoc. cbn [app]. reflexivity.
Qed.
Lemma neat_app_nil u v w : neat u -> u <> [] -> neat w -> w <> [] -> neat (u ++ v ++ w) /\ u ++ v ++ w <> [].
Proof. intros. split; [apply neat_cat; assumption|]. intros E. apply app_eq_nil in E. tauto. Qed.

Lemma blanks_space bl : blanks bl -> Forall space bl.
Proof. intros (_ & H). eapply Forall_impl; [|exact H]. intros c. apply blank_space. Qed.

(** parseAuthorizedKey on " blob comment" *)
Lemma parse_auth_key C bl t comment s' :
  Forall space bl -> t <> [] -> Forall graphic t -> Forall space s' ->
  (comment = [] \/ exists bl2 c, blanks bl2 /\ neat c /\ c <> [] /\ comment = bl2 ++ c) ->
  parse_authorized_key C (bl ++ (t ++ comment) ++ s') = parse_enc_pubkey C t comment.
Proof.
  intros Hbl Hne Ht Hs' Hc. unfold parse_authorized_key. assert (Hn : neat t) by (apply neat_word; assumption).
  rewrite trim_core; [|assumption|assumption|].
  2:{ destruct Hc as [-> | (bl2 & c & _ & Hc & Hc0 & ->)]; [rewrite app_nil_r; exact Hn|]. apply neat_cat; assumption. }
  destruct Hc as [-> | (bl2 & c & (Hb0 & Hb) & Hc & Hc0 & ->)].
  - rewrite app_nil_r. rewrite find_byte_none by (apply word_no_blank; exact Ht). rewrite take_all by lia. rewrite drop_all by lia. reflexivity.
  - destruct bl2 as [|b bl2]; [contradiction|]. cbn [app]. inversion Hb; subst.
    rewrite find_byte_app; [|apply word_no_blank; exact Ht|apply is_blank_spec; assumption].
    rewrite take_app_exact, drop_app_exact. reflexivity.
Qed.
Lemma trim_comment bl2 c : blanks bl2 -> neat c -> trim_space (bl2 ++ c) = c.
Proof. intros Hb Hc. rewrite <- (app_nil_r c) at 1. apply trim_core; [apply blanks_space; exact Hb|constructor|exact Hc]. Qed.

Lemma not_cr s : ~ In x0d s -> Forall (fun c => Byte.eqb x0d c = false) s.
Proof. intros H. apply Forall_forall. intros c Hc. apply eqb_neq. intros E. subst c. contradiction. Qed.
Lemma graphic_not_cr s : Forall graphic s -> ~ In x0d s.
Proof. intros H Hi. rewrite Forall_forall in H. specialize (H _ Hi). unfold graphic in H. cbn in H. lia. Qed.
Lemma blank_not_cr s : Forall blank s -> ~ In x0d s.
Proof. intros H Hi. rewrite Forall_forall in H. specialize (H _ Hi). unfold blank in H. cbn in H. lia. Qed.
Lemma one_line_not_cr s : one_line s -> ~ In x0d s.
Proof. intros H Hi. unfold one_line in H. rewrite Forall_forall in H. specialize (H _ Hi). tauto. Qed.

(** cutting at the carriage return and trimming leaves the entry itself *)
Lemma cut_trim s core s' : Forall space s -> ~ In x0d s -> neat core -> ~ In x0d core -> Forall space s' ->
  trim_space (match find_byte (Byte.eqb x0d) (s ++ core ++ s') with Some e => take e (s ++ core ++ s') | None => s ++ core ++ s' end) = core.
Proof.
  intros Hs Hcr Hn Hcc Hs'. pose proof (find_byte_inv (Byte.eqb x0d) s') as F. destruct (find_byte (Byte.eqb x0d) s') as [i|].
  - destruct F as (a & x & b & -> & _ & Ha & Hx). rewrite !app_assoc. rewrite find_byte_app; [|rewrite !Forall_app; repeat split; auto using not_cr|exact Hx].
    rewrite take_app_exact. rewrite <- app_assoc. apply trim_core; auto. apply Forall_app in Hs'. tauto.
  - rewrite find_byte_none by (rewrite !Forall_app; repeat split; auto using not_cr). apply trim_core; auto.
Qed.

Definition the_key (C : crypto) (kc : bytes * bytes) : pubkey := mkPub (fst kc) (snd kc) None (take 16 (sha256 C (fst kc))).

Lemma key_part_facts kt t comment part b : key_part kt t comment part -> b64_text t b -> b <> [] ->
  neat part /\ part <> [] /\ ~ In x0d part /\ word kt /\ t <> [] /\ Forall graphic t /\
  exists bl1 cm, blanks bl1 /\ part = kt ++ bl1 ++ t ++ cm /\ trim_space cm = comment /\
    (cm = [] \/ exists bl2 c, blanks bl2 /\ neat c /\ c <> [] /\ cm = bl2 ++ c).
Proof.
  intros (bl1 & Hbl & Hkt & Hp) Ht Hb. pose proof (b64_text_graphic _ _ Ht) as Hg.
  assert (Ht0 : t <> []) by (intros ->; inversion Ht; congruence).
  pose proof (neat_word _ (proj1 Hkt) (proj2 Hkt)) as Nk. pose proof (neat_word _ Ht0 Hg) as Nt.
  destruct Hp as [(-> & ->)|(Hc & Hnc & Hol & bl2 & Hb2 & ->)].
  - destruct (neat_app_nil kt bl1 t Nk (proj1 Hkt) Nt Ht0) as (N1 & N2). split; [exact N1|]. split; [exact N2|]. split.
    { rewrite !in_app_iff. intros [H|[H|H]]; revert H; [apply graphic_not_cr; apply Hkt|apply blank_not_cr; apply Hbl|apply graphic_not_cr; exact Hg]. }
    split; [exact Hkt|]. split; [exact Ht0|]. split; [exact Hg|]. exists bl1, []. rewrite app_nil_r. split; [exact Hbl|]. split; [reflexivity|]. split; [reflexivity|left; reflexivity].
  - replace (kt ++ bl1 ++ t ++ bl2 ++ comment) with (kt ++ (bl1 ++ t ++ bl2) ++ comment) by (rewrite <- !app_assoc; reflexivity).
    destruct (neat_app_nil kt (bl1 ++ t ++ bl2) comment Nk (proj1 Hkt) Hnc Hc) as (N1 & N2). split; [exact N1|]. split; [exact N2|]. split.
    { rewrite !in_app_iff. intros [H|[[H|[H|H]]|H]]; revert H; [apply graphic_not_cr; apply Hkt|apply blank_not_cr; apply Hbl|apply graphic_not_cr; exact Hg|apply blank_not_cr; apply Hb2|apply one_line_not_cr; exact Hol]. }
    split; [exact Hkt|]. split; [exact Ht0|]. split; [exact Hg|]. exists bl1, (bl2 ++ comment). split; [exact Hbl|]. split; [rewrite <- !app_assoc; reflexivity|].
    split; [apply trim_comment; assumption|]. right. exists bl2, comment. tauto.
Qed.
Lemma stands_nonnil blob comment ks : stands_for blob comment ks -> blob <> [].
Proof.
  intros [key Hk ->|(algo & rest & -> & _) _]; intros E; apply (f_equal len) in E; change (len (@nil byte)) with 0 in E.
  - unfold wire_key in E. rewrite len_app, !len_S4 in E. pose proof (len_nonneg key). pose proof (len_nonneg (str "ssh-ed25519")). lia.
  - rewrite len_app, len_S4 in E. pose proof (len_nonneg algo). pose proof (len_nonneg rest). lia.
Qed.
Lemma stands_parse C t blob cm comment ks : b64_text t blob -> stands_for blob comment ks -> trim_space cm = comment ->
  exists o, parse_enc_pubkey C t cm = Ok o /\ map (the_key C) ks = match o with Some pk => [pk] | None => [] end.
Proof.
  intros Ht Hs Hc. pose proof (b64_text_unbroken _ _ Ht) as U. rewrite <- U in Ht at 1. destruct Hs as [key Hk ->|Hf Hl].
  - rewrite (parse_enc_ok C t cm key Ht Hk). eexists. split; [reflexivity|]. rewrite Hc. reflexivity.
  - rewrite (parse_enc_foreign C t cm blob Ht Hf Hl). eexists. split; reflexivity.
Qed.

Lemma head_of_word kt r : word kt -> hd_error kt <> Some x23 -> exists c l, kt ++ r = c :: l /\ c <> x23 /\ graphic c.
Proof.
  intros (H0 & Hg) Hh. destruct kt as [|c kt]; [contradiction|]. inversion Hg; subst. exists c, (kt ++ r). split; [reflexivity|]. split; [|assumption].
  intros ->. apply Hh. reflexivity.
Qed.
(** the match on the first character of the trimmed line *)
Lemma line_match (A : Type) (l : bytes) (x y z : A) c r : l = c :: r -> c <> x23 ->
  match l with [] => x | x23 :: _ => y | _ => z end = z.
Proof. intros -> Hc. destruct c; try reflexivity. contradiction. Qed.

Lemma auth_line_key C s part s' kt t blob comment ks :
  Forall space s -> Forall space s' -> ~ In x0d s -> key_part kt t comment part -> hd_error kt <> Some x23 ->
  b64_text t blob -> stands_for blob comment ks -> auth_line C (s ++ part ++ s') = Ok (map (the_key C) ks).
Proof.
  intros Hs Hs' Hcr Hp Hh Ht Hst.
  destruct (key_part_facts _ _ _ _ _ Hp Ht (stands_nonnil _ _ _ Hst)) as (Np & Np0 & Ncr & Hkt & Ht0 & Hg & bl1 & cm & Hbl & Epart & Hcm & Hcmf).
  unfold auth_line. rewrite cut_trim by assumption. destruct (head_of_word kt (bl1 ++ t ++ cm) Hkt Hh) as (c & l & El & Hc & _).
  rewrite (line_match _ _ _ _ _ c l) by (rewrite ?Epart; assumption).
  destruct bl1 as [|b bl1]; [destruct Hbl; contradiction|].
  assert (Hb : Forall blank (b :: bl1)) by apply Hbl. pose proof (Forall_inv Hb) as Hb1.
  assert (F : find_byte is_blank part = Some (len kt)).
  { rewrite Epart. cbn [app]. apply find_byte_app; [apply word_no_blank; apply Hkt|apply is_blank_spec; exact Hb1]. }
  assert (D : drop (len kt) part = b :: bl1 ++ t ++ cm) by (rewrite Epart; cbn [app]; apply drop_app_exact).
  rewrite F, D. clear F D.
  destruct (stands_parse C t blob cm comment ks Ht Hst Hcm) as (o & Ho & Eo).
  replace (b :: bl1 ++ t ++ cm) with ((b :: bl1) ++ (t ++ cm) ++ []) by (rewrite app_nil_r; reflexivity).
  rewrite parse_auth_key; [|apply blanks_space; exact Hbl|exact Ht0|exact Hg|constructor|exact Hcmf].
  rewrite Ho, Eo. destruct o; reflexivity.
Qed.

(** scanning the options field *)
Lemma opt_end_quoted q : quoted q -> forall r i prev, (i > 0)%Z -> prev <> x5c -> exists p, opt_end (q ++ r) i prev true = opt_end r (i + len q) p true /\ p <> x5c.
Proof.
  intros Hq. induction Hq as [|c q H1 H2 H3 H4 Hq IH|q Hq IH]; intros r i prev Hi Hp.
  - exists prev. cbn [app]. rewrite len_nil. replace (i + 0) with i by lia. auto.
  - cbn [app opt_end negb andb]. apply eqb_neq in H1. rewrite H1. cbn [andb].
    destruct (IH r (i + 1) c ltac:(lia) H2) as (p & E & Hpp). exists p. rewrite E, len_cons. split; [f_equal; lia|exact Hpp].
  - cbn [app opt_end negb andb]. change (Byte.eqb x5c x22) with false. cbn [andb]. change (Byte.eqb x22 x22) with true.
    change (Byte.eqb x5c x5c) with true. cbn [negb]. destruct (Z.eqb_spec (i + 1) 0); [lia|]. cbn [orb andb].
    destruct (IH r (i + 1 + 1) x22 ltac:(lia) ltac:(discriminate)) as (p & E & Hpp). exists p. rewrite E, !len_cons. split; [f_equal; lia|exact Hpp].
Qed.
Lemma opt_end_options o : options o -> forall b r i prev, blank b -> (i = 0 \/ prev <> x5c) -> 0 <= i -> opt_end (o ++ b :: r) i prev false = i + len o.
Proof.
  intros Ho. induction Ho as [|c o Hg Hc1 Hc2 Ho IH|q o Hq Ho IH]; intros b r i prev Hb Hp Hi.
  - cbn [app opt_end]. apply is_blank_spec in Hb. rewrite Hb. cbn [negb andb]. change (len (@nil byte)) with 0. lia.
  - cbn [app opt_end]. rewrite (proj2 (is_blank_false c)) by (apply graphic_not_blank; exact Hg). cbn [negb andb].
    apply eqb_neq in Hc1. rewrite Hc1. cbn [andb]. rewrite IH by (auto; lia). rewrite len_cons. lia.
  - replace ((x22 :: q ++ x22 :: o) ++ b :: r) with (x22 :: q ++ (x22 :: o ++ b :: r)) by (cbn [app]; rewrite <- app_assoc; reflexivity).
    cbn [opt_end]. change (is_blank x22) with false. cbn [negb andb]. change (Byte.eqb x22 x22) with true. cbn [andb].
    assert (T : (i =? 0) || negb (Byte.eqb prev x5c) = true).
    { destruct Hp as [->|Hp]; [reflexivity|]. apply eqb_neq in Hp. rewrite Hp. apply orb_true_r. }
    rewrite T. destruct (opt_end_quoted q Hq (x22 :: o ++ b :: r) (i + 1) x22 ltac:(lia) ltac:(discriminate)) as (p & E & Hpp). rewrite E.
    cbn [opt_end negb andb]. change (Byte.eqb x22 x22) with true. apply eqb_neq in Hpp. rewrite Hpp. cbn [negb andb]. rewrite orb_true_r. cbn [andb].
    pose proof (len_nonneg q). rewrite IH; [|exact Hb|right; discriminate|lia]. rewrite !len_cons, len_app, len_cons. lia.
Qed.
Lemma options_head o : options o -> o <> [] -> exists a o', o = a :: o' /\ graphic a.
Proof.
  intros H H0. destruct H as [|c s Hc|q s Hq]; [contradiction|eauto|]. exists x22, (q ++ x22 :: s). split; [reflexivity|]. unfold graphic. cbn. lia.
Qed.
Lemma options_not_cr o : options o -> ~ In x0d o.
Proof.
  assert (Q : forall q, quoted q -> ~ In x0d q).
  { intros q Hq. induction Hq as [|c q H1 H2 H3 H4 Hq IH|q Hq IH]; [intros []|intros [H|H]; [congruence|exact (IH H)]|intros [H|[H|H]]; [discriminate H|discriminate H|exact (IH H)]]. }
  intros H. induction H as [|c o Hg Hc1 Hc2 Ho IH|q o Hq Ho IH]; [intros []| |].
  - intros [E|E]; [subst c; unfold graphic in Hg; cbn in Hg; lia|exact (IH E)].
  - intros [E|E]; [discriminate E|]. apply in_app_iff in E. destruct E as [E|[E|E]]; [exact (Q _ Hq E)|discriminate E|exact (IH E)].
Qed.
Lemma skip_blanks_app bl r : Forall blank bl -> (exists c r', r = c :: r' /\ ~ blank c) -> skip_blanks (bl ++ r) = r.
Proof.
  intros Hb (c & r' & -> & Hc). induction Hb as [|b bl H Hb IH]; cbn [app skip_blanks].
  - rewrite (proj2 (is_blank_false c) Hc). reflexivity.
  - rewrite (proj2 (is_blank_spec b) H). exact IH.
Qed.
Lemma not_blank_false w : Forall (fun c => ~ blank c) w -> Forall (fun c => is_blank c = false) w.
Proof. intros H. eapply Forall_impl; [|exact H]. intros c. apply is_blank_false. Qed.


Lemma neat_suffix u v : neat (u ++ v) -> (exists c v', v = c :: v' /\ graphic c) -> neat v.
Proof.
  intros Hn (c & v' & Ev & Hc). right. destruct (@exists_last _ v) as (m & b & Em); [rewrite Ev; discriminate|].
  assert (Hb : graphic b).
  { destruct Hn as [H|(a & d & Ha & Hd & [H|(m' & H)])].
    - apply app_eq_nil in H. destruct H as (_ & H). congruence.
    - rewrite Em, app_assoc in H. change [a] with ([] ++ [a]) in H. apply app_inj_tail in H. destruct H as (_ & ->). exact Ha.
    - rewrite Em, app_assoc in H. change (a :: m' ++ [d]) with ((a :: m') ++ [d]) in H. apply app_inj_tail in H. destruct H as (_ & ->). exact Hd. }
  exists c, b. split; [exact Hc|]. split; [exact Hb|]. rewrite Ev in *. destruct v' as [|y v']; [left; reflexivity|]. right.
  destruct (@exists_last _ (y :: v')) as (m2 & b2 & E2); [discriminate|]. rewrite E2 in Em |- *.
  change (c :: m2 ++ [b2]) with ((c :: m2) ++ [b2]) in Em. apply app_inj_tail in Em. destruct Em as (_ & ->). exists m2. reflexivity.
Qed.

(** parseAuthorizedKey looks at the second word of the line *)
Lemma parse_second_word C line w : second_word line w -> neat line ->
  exists i comm, find_byte is_blank line = Some i /\ parse_authorized_key C (drop i line) = parse_enc_pubkey C w comm.
Proof.
  intros (w1 & bl & tl & -> & Hw1 & Hw1b & Hbl & (c & w' & Ew & Hc) & Hwb & Htl) Hn.
  destruct bl as [|b bl]; [destruct Hbl; contradiction|]. assert (Hb : Forall blank (b :: bl)) by apply Hbl. pose proof (Forall_inv Hb) as Hb1.
  exists (len w1), tl. cbn [app]. split; [apply find_byte_app; [apply not_blank_false; exact Hw1b|apply is_blank_spec; exact Hb1]|].
  rewrite drop_app_exact. unfold parse_authorized_key.
  replace (b :: bl ++ w ++ tl) with ((b :: bl) ++ (w ++ tl) ++ []) by (rewrite app_nil_r; reflexivity).
  rewrite trim_core; [|apply blanks_space; exact Hbl|constructor|].
  2:{ apply (neat_suffix (w1 ++ b :: bl)); [rewrite <- app_assoc; exact Hn|]. exists c, (w' ++ tl). rewrite Ew. auto. }
  destruct Htl as [-> | (x & tl' & -> & Hx)].
  - rewrite app_nil_r. rewrite find_byte_none by (apply not_blank_false; exact Hwb). rewrite take_all, drop_all by lia. reflexivity.
  - rewrite find_byte_app; [|apply not_blank_false; exact Hwb|apply is_blank_spec; exact Hx]. rewrite take_app_exact, drop_app_exact. reflexivity.
Qed.

Lemma auth_line_options C s o bl part s' kt t blob comment ks w :
  Forall space s -> Forall space s' -> ~ In x0d s -> options o -> o <> [] -> hd_error o <> Some x23 -> blanks bl ->
  key_part kt t comment part -> second_word (o ++ bl ++ part) w -> (forall b, ~ b64_text (unbroken w) b) ->
  b64_text t blob -> stands_for blob comment ks -> auth_line C (s ++ (o ++ bl ++ part) ++ s') = Ok (map (the_key C) ks).
Proof.
  intros Hs Hs' Hcr Ho Ho0 Hh Hb Hp Hsw Hnb Ht Hst.
  destruct (key_part_facts _ _ _ _ _ Hp Ht (stands_nonnil _ _ _ Hst)) as (Np & Np0 & Ncr & Hkt & Ht0 & Hg & bl1 & cm & Hbl & Epart & Hcm & Hcmf).
  destruct (options_head o Ho Ho0) as (a & o' & Eo & Ha).
  set (core := o ++ bl ++ part) in *.
  assert (Hpg : exists c p', part = c :: p' /\ graphic c). { destruct (neat_head _ Np) as [|H]; [contradiction|exact H]. }
  assert (Nc : neat core).
  { unfold core. rewrite Eo. change ((a :: o') ++ bl ++ part) with ([a] ++ (o' ++ bl ++ part)). rewrite (app_assoc o').
    apply neat_cat; [right; exists a, a; auto|discriminate|exact Np|exact Np0]. }
  assert (Ncc : ~ In x0d core).
  { unfold core. rewrite !in_app_iff. intros [H|[H|H]]; revert H; [apply options_not_cr; exact Ho|apply blank_not_cr; apply Hb|exact Ncr]. }
  unfold auth_line. rewrite cut_trim by assumption.
  assert (Ec : core = a :: (o' ++ bl ++ part)) by (unfold core; rewrite Eo; reflexivity).
  rewrite (line_match _ _ _ _ _ _ _ Ec) by (intros ->; apply Hh; rewrite Eo; reflexivity).
  destruct (parse_second_word C core w Hsw Nc) as (i & comm & Hi & Hpw). rewrite Hi, Hpw.
  destruct (parse_enc_not_base64 C w comm Hnb) as (e & ->).
  assert (Eend : opt_end core 0 x00 false = len o).
  { unfold core. destruct bl as [|b bl]; [destruct Hb; contradiction|]. cbn [app]. pose proof (Forall_inv (proj2 Hb)) as Hb1.
    rewrite opt_end_options; [lia|exact Ho|exact Hb1|left; reflexivity|lia]. }
  rewrite Eend. replace (drop (len o) core) with (bl ++ part) by (unfold core; rewrite drop_app_exact; reflexivity).
  assert (Hpn : exists c r', part = c :: r' /\ ~ blank c).
  { destruct Hpg as (c & p' & Ep & Hc). exists c, p'. split; [exact Ep|apply graphic_not_blank; exact Hc]. }
  rewrite skip_blanks_app by (try apply (proj2 Hb); exact Hpn).
  destruct bl1 as [|b bl1]; [destruct Hbl; contradiction|].
  assert (Hb' : Forall blank (b :: bl1)) by apply Hbl. pose proof (Forall_inv Hb') as Hb1.
  assert (F : find_byte is_blank part = Some (len kt)).
  { rewrite Epart. cbn [app]. apply find_byte_app; [apply word_no_blank; apply Hkt|apply is_blank_spec; exact Hb1]. }
  assert (D : drop (len kt) part = b :: bl1 ++ t ++ cm) by (rewrite Epart; cbn [app]; apply drop_app_exact).
  rewrite F, D. clear F D. destruct part as [|c0 part]; [contradiction|].
  destruct (stands_parse C t blob cm comment ks Ht Hst Hcm) as (oo & Ho2 & Eo2).
  replace (b :: bl1 ++ t ++ cm) with ((b :: bl1) ++ (t ++ cm) ++ []) by (rewrite app_nil_r; reflexivity).
  rewrite parse_auth_key; [|apply blanks_space; exact Hbl|exact Ht0|exact Hg|constructor|exact Hcmf].
  rewrite Ho2, Eo2. destruct oo; reflexivity.
Qed.

Lemma auth_line_blank C s : Forall space s -> auth_line C s = Ok [].
Proof.
  intros H. unfold auth_line. pose proof (find_byte_inv (Byte.eqb x0d) s) as F. destruct (find_byte (Byte.eqb x0d) s) as [i|].
  - destruct F as (a & x & b & -> & <- & _). rewrite take_app_exact. apply Forall_app in H. rewrite trim_spaces by apply H. reflexivity.
  - rewrite trim_spaces by exact H. reflexivity.
Qed.
Lemma trim_head ws c s : Forall space ws -> graphic c -> exists s', trim_space (ws ++ c :: s) = c :: s'.
Proof.
  intros Hw Hc. unfold trim_space.
  assert (F : spacy space_forms = true /\ headed space_forms = true) by (split; vm_compute; reflexivity).
  destruct F as (F1 & F2). rewrite (strip_spaces space_forms ws (c :: s) F1 F2 Hw (or_intror (ex_intro _ c (ex_intro _ s (conj eq_refl Hc))))) by (rewrite app_length; lia).
  (* stripping the reversed text cannot eat the first character *)
  assert (G : forall fuel l, exists l', strip (map (@rev byte) space_forms) fuel (l ++ [c]) = l' ++ [c]).
  { induction fuel as [|fuel IH]; intros l; cbn [strip]; [eauto|].
    destruct (find _ _) as [w|] eqn:E; [|eauto]. apply find_some in E. destruct E as (Hin & Hp). apply is_prefix_iff in Hp. destruct Hp as (r & Hp).
    assert (Hl : len w <= len l).
    { destruct (Z.le_gt_cases (len w) (len l)) as [|Hgt]; [assumption|]. exfalso.
      assert (L : len (l ++ [c]) = len w + len r) by (rewrite Hp, len_app; reflexivity). rewrite len_app in L. change (len [c]) with 1 in L.
      pose proof (len_nonneg r). assert (r = []) by (apply len_0_nil; lia). subst r. rewrite app_nil_r in Hp.
      assert (T : forallb (fun w => forallb (fun x => (b2z x <? 33) || (126 <? b2z x)) w) (map (@rev byte) space_forms) = true) by (vm_compute; reflexivity).
      rewrite forallb_forall in T. specialize (T w Hin). rewrite forallb_forall in T. specialize (T c). rewrite <- Hp in T.
      specialize (T ltac:(apply in_or_app; right; left; reflexivity)). unfold graphic in Hc. lia. }
    rewrite drop_app_l by exact Hl. apply IH. }
  destruct (G (List.length (c :: s)) (rev s)) as (l' & E). cbn [rev]. rewrite E, rev_app_distr. cbn. eauto.
Qed.
Lemma auth_line_comment C s t : Forall space s -> auth_line C (s ++ x23 :: t) = Ok [].
Proof.
  intros H. unfold auth_line. assert (Hg : graphic x23) by (unfold graphic; cbn; lia).
  pose proof (find_byte_inv (Byte.eqb x0d) s) as F. destruct (find_byte (Byte.eqb x0d) s) as [i|].
  - destruct F as (a & x & b & -> & _ & Ha & Hx). rewrite <- app_assoc. cbn [app]. rewrite find_byte_app by assumption. rewrite take_app_exact.
    apply Forall_app in H. rewrite trim_spaces by apply H. reflexivity.
  - pose proof (find_byte_inv (Byte.eqb x0d) t) as F2. destruct (find_byte (Byte.eqb x0d) t) as [j|].
    + destruct F2 as (a & x & b & -> & _ & Ha & Hx). replace (s ++ x23 :: a ++ x :: b) with ((s ++ x23 :: a) ++ x :: b) by (rewrite <- app_assoc; reflexivity).
      rewrite find_byte_app; [|apply Forall_app; split; [exact F|constructor; [reflexivity|exact Ha]]|exact Hx]. rewrite take_app_exact.
      destruct (trim_head s x23 a H Hg) as (s' & ->). reflexivity.
    + rewrite find_byte_none; [|apply Forall_app; split; [exact F|constructor; [reflexivity|exact F2]]].
      destruct (trim_head s x23 t H Hg) as (s' & ->). reflexivity.
Qed.
Lemma auth_line_entry C l ks : auth_entry l ks -> auth_line C l = Ok (map (the_key C) ks).
Proof.
  intros H. destruct H; [apply auth_line_blank; assumption|apply auth_line_comment; assumption|eapply auth_line_key; eassumption|eapply auth_line_options; eassumption].
Qed.
Lemma auth_line_total C l : exists ks, auth_line C l = Ok ks.
Proof.
  unfold auth_line. set (l1 := trim_space _). clearbody l1. destruct l1 as [|c l1]; [eauto|].
  assert (N : forall x, parse_authorized_key C x = Ok None \/ (exists p, parse_authorized_key C x = Ok (Some p)) \/ exists e, parse_authorized_key C x = Fail e).
  { intros x. unfold parse_authorized_key. pose proof (parse_enc_no_panic C) as P.
    destruct (parse_enc_pubkey C _ _) as [[p|]|e|w] eqn:E; [eauto|eauto|eauto|exfalso; exact (P _ _ _ E)]. }
  assert (Z : exists ks, match find_byte is_blank (c :: l1) with
      | None => Ok []
      | Some i => match parse_authorized_key C (drop i (c :: l1)) with
          | Ok (Some pk) => Ok [pk] | Ok None => Ok [] | Panic w => Panic w
          | Fail _ => let inp := skip_blanks (drop (opt_end (c :: l1) 0 x00 false) (c :: l1)) in
              match inp with [] => Ok [] | _ => match find_byte is_blank inp with None => Ok []
                | Some i => match parse_authorized_key C (drop i inp) with Ok (Some pk) => Ok [pk] | Panic w => Panic w | _ => Ok [] end end end end end = Ok ks).
  { destruct (find_byte is_blank (c :: l1)) as [i|]; [|eauto]. destruct (N (drop i (c :: l1))) as [-> |[(p & ->)|(e & ->)]]; [eauto|eauto|].
    cbv zeta. destruct (skip_blanks _) as [|d l2]; [eauto|]. destruct (find_byte is_blank (d :: l2)) as [j|]; [|eauto].
    destruct (N (drop j (d :: l2))) as [-> |[(p & ->)|(e' & ->)]]; eauto. }
  destruct Z as (ks & E). destruct c; try (exists ks; exact E). exists []. reflexivity.
Qed.

(** ** the loop over lines *)
Lemma auth_loop_acc C fuel : forall inp acc, auth_loop C fuel inp acc = match auth_loop C fuel inp [] with Ok ks => Ok (acc ++ ks) | Fail e => Fail e | Panic w => Panic w end.
Proof.
  induction fuel as [|fuel IH]; intros inp acc; cbn [auth_loop]; [rewrite app_nil_r; reflexivity|].
  destruct (len inp =? 0); [rewrite app_nil_r; reflexivity|].
  destruct (match find_byte _ inp with Some e => _ | None => _ end) as [line rest].
  destruct (auth_line C line) as [ks|e|w]; cbn [bind app]; try reflexivity. rewrite (IH rest (acc ++ ks)), (IH rest ks).
  destruct (auth_loop C fuel rest []); try reflexivity. rewrite app_assoc. reflexivity.
Qed.
Lemma auth_loop_fuel C fuel : forall fuel' inp acc, (List.length inp <= fuel)%nat -> (List.length inp <= fuel')%nat -> auth_loop C fuel inp acc = auth_loop C fuel' inp acc.
Proof.
  induction fuel as [|fuel IH]; intros fuel' inp acc H H'.
  - destruct inp; [|cbn in H; lia]. destruct fuel'; reflexivity.
  - destruct inp as [|c inp]; [destruct fuel'; reflexivity|]. destruct fuel' as [|fuel']; [cbn in H'; lia|]. cbn [auth_loop].
    destruct (len (c :: inp) =? 0); [reflexivity|].
    pose proof (find_byte_inv (Byte.eqb x0a) (c :: inp)) as F. destruct (find_byte (Byte.eqb x0a) (c :: inp)) as [i|].
    + destruct F as (a & x & b & E & <- & _). rewrite E. replace (len a + 1) with (len (a ++ [x])) by (rewrite len_app; reflexivity).
      replace (a ++ x :: b) with ((a ++ [x]) ++ b) by (rewrite <- app_assoc; reflexivity). rewrite drop_app_exact.
      destruct (auth_line C _); cbn [bind]; try reflexivity. apply (f_equal (@List.length byte)) in E. rewrite app_length in E. cbn in E, H, H'. apply IH; lia.
    + destruct (auth_line C _); cbn [bind]; try reflexivity. apply IH; cbn; lia.
Qed.
Lemma parse_auth_nil C : parse_authorized_keys C [] = Ok [].
Proof. reflexivity. Qed.
Lemma parse_auth_last C l ks : ~ In x0a l -> auth_line C l = Ok ks -> parse_authorized_keys C l = Ok ks.
Proof.
  intros Hn Hl. destruct l as [|c l]; [cbn in Hl; injection Hl as <-; reflexivity|]. unfold parse_authorized_keys. cbn [List.length auth_loop].
  destruct (Z.eqb_spec (len (c :: l)) 0) as [E|_]; [apply len_0_nil in E; discriminate E|].
  rewrite find_byte_none by (apply Forall_forall; intros x Hx; apply eqb_neq; intros <-; contradiction). rewrite Hl. cbn [bind app].
  destruct (List.length l); reflexivity.
Qed.
Lemma parse_auth_cons C l f ks : ~ In x0a l -> auth_line C l = Ok ks ->
  parse_authorized_keys C (l ++ x0a :: f) = match parse_authorized_keys C f with Ok ks' => Ok (ks ++ ks') | Fail e => Fail e | Panic w => Panic w end.
Proof.
  intros Hn Hl. unfold parse_authorized_keys. rewrite app_length. cbn [List.length]. rewrite Nat.add_succ_r. cbn [auth_loop].
  destruct (Z.eqb_spec (len (l ++ x0a :: f)) 0) as [E|_]; [apply len_0_nil in E; destruct l; discriminate E|].
  rewrite find_byte_app; [|apply Forall_forall; intros x Hx; apply eqb_neq; intros <-; contradiction|reflexivity]. rewrite take_app_exact.
  replace (len l + 1) with (len (l ++ [x0a])) by (rewrite len_app; reflexivity).
  replace (l ++ x0a :: f) with ((l ++ [x0a]) ++ f) by (rewrite <- app_assoc; reflexivity). rewrite drop_app_exact.
  rewrite Hl. cbn [bind app]. rewrite auth_loop_acc. rewrite (auth_loop_fuel C _ (List.length f)) by lia. reflexivity.
Qed.
Lemma lines_ind (P : bytes -> Prop) : (forall l, ~ In x0a l -> P l) -> (forall l f, ~ In x0a l -> P f -> P (l ++ x0a :: f)) -> forall s, P s.
Proof.
  intros H1 H2. assert (G : forall n s, (List.length s <= n)%nat -> P s).
  { induction n as [|n IH]; intros s Hs; [destruct s; [apply H1; intros []|cbn in Hs; lia]|].
    pose proof (find_byte_inv (Byte.eqb x0a) s) as F. destruct (find_byte (Byte.eqb x0a) s) as [i|].
    - destruct F as (a & x & b & -> & _ & Ha & Hx). apply eqb_iff in Hx. subst x. apply H2.
      + intros Hi. rewrite Forall_forall in Ha. specialize (Ha _ Hi). discriminate Ha.
      + apply IH. rewrite app_length in Hs. cbn in Hs. lia.
    - apply H1. intros Hi. rewrite Forall_forall in F. specialize (F _ Hi). discriminate F. }
  intros s. apply (G (List.length s)). apply le_n.
Qed.
Lemma parse_auth_total C s : exists ks, parse_authorized_keys C s = Ok ks.
Proof.
  induction s as [l Hn|l f Hn (ks & IH)] using lines_ind; destruct (auth_line_total C l) as (k & Hk).
  - exists k. apply parse_auth_last; assumption.
  - exists (k ++ ks). rewrite (parse_auth_cons C l f k Hn Hk), IH. reflexivity.
Qed.
Lemma parse_auth_split C a b ka kb : ~ In x0a a -> parse_authorized_keys C a = Ok ka -> parse_authorized_keys C b = Ok kb ->
  parse_authorized_keys C (a ++ x0a :: b) = Ok (ka ++ kb).
Proof.
  intros Hn Ha Hb. destruct (auth_line_total C a) as (k & Hk). rewrite (parse_auth_last C a k Hn Hk) in Ha. injection Ha as ->.
  rewrite (parse_auth_cons C a b ka Hn Hk), Hb. reflexivity.
Qed.
Lemma parse_auth_file C f ks : auth_file f ks -> parse_authorized_keys C f = Ok (map (the_key C) ks).
Proof.
  intros H. induction H as [|l ks Hn He|l ks f ks' Hn He Hf IH]; [reflexivity| |].
  - apply parse_auth_last; [exact Hn|]. apply auth_line_entry. exact He.
  - rewrite (parse_auth_cons C l f _ Hn (auth_line_entry C l ks He)), IH, map_app. reflexivity.
Qed.

(** soundness: every key returned comes from a blob in the text *)
Definition from_text (C : crypto) (s : bytes) (pk : pubkey) : Prop :=
  exists t key comm, occurs t s /\ b64_text (unbroken t) (wire_key key) /\ len key = 32 /\ pk = mkPub key (trim_space comm) None (take 16 (sha256 C key)) /\ occurs comm s.
Lemma occurs_trans a b c : occurs a b -> occurs b c -> occurs a c.
Proof. intros (p & q & ->) (r & s & ->). exists (r ++ p), (q ++ s). rewrite <- !app_assoc. reflexivity. Qed.
Lemma occurs_take n s : occurs (take n s) s.
Proof. exists [], (drop n s). rewrite take_drop. reflexivity. Qed.
Lemma occurs_drop n s : occurs (drop n s) s.
Proof. exists (take n s), []. rewrite app_nil_r, take_drop. reflexivity. Qed.
Lemma occurs_trim s : occurs (trim_space s) s.
Proof. destruct (trim_part s) as (p & q & E). exists p, q. exact E. Qed.
Lemma from_text_occurs C a b pk : occurs a b -> from_text C a pk -> from_text C b pk.
Proof. intros Ho (t & key & comm & H1 & H2 & H3 & H4 & H5). exists t, key, comm. split; [eapply occurs_trans; eassumption|]. split; [exact H2|]. split; [exact H3|]. split; [exact H4|]. eapply occurs_trans; eassumption. Qed.
Lemma parse_auth_key_sound C s pk : parse_authorized_key C s = Ok (Some pk) -> from_text C s pk.
Proof.
  unfold parse_authorized_key. intros H. apply parse_enc_inv in H. destruct H as (key & H1 & H2 & H3). eexists _, key, _. split; [|split; [exact H1|split; [exact H2|split; [exact H3|]]]].
  - eapply occurs_trans; [apply occurs_take|apply occurs_trim].
  - eapply occurs_trans; [apply occurs_drop|apply occurs_trim].
Qed.
Lemma skip_blanks_occurs s : occurs (skip_blanks s) s.
Proof. induction s as [|c s IH]; [exists [], []; reflexivity|]. cbn [skip_blanks]. destruct (is_blank c); [|exists [], []; rewrite app_nil_r; reflexivity].
  eapply occurs_trans; [exact IH|]. exists [c], []. rewrite app_nil_r. reflexivity. Qed.
Lemma auth_line_sound C l ks pk : auth_line C l = Ok ks -> In pk ks -> from_text C l pk.
Proof.
  unfold auth_line. set (l0 := match find_byte _ l with Some e => _ | None => _ end). set (l1 := trim_space l0).
  assert (O1 : occurs l1 l). { unfold l1, l0. eapply occurs_trans; [apply occurs_trim|]. destruct (find_byte _ l); [apply occurs_take|exists [], []; rewrite app_nil_r; reflexivity]. }
  clearbody l1. clear l0. intros H Hin. apply (from_text_occurs C l1 l pk O1). clear O1 l.
  assert (Z : forall (G : l1 <> []), match find_byte is_blank l1 with
      | None => Ok []
      | Some i => match parse_authorized_key C (drop i l1) with
          | Ok (Some pk) => Ok [pk] | Ok None => Ok [] | Panic w => Panic w
          | Fail _ => let inp := skip_blanks (drop (opt_end l1 0 x00 false) l1) in
              match inp with [] => Ok [] | _ => match find_byte is_blank inp with None => Ok []
                | Some i => match parse_authorized_key C (drop i inp) with Ok (Some pk) => Ok [pk] | Panic w => Panic w | _ => Ok [] end end end end end = Ok ks -> from_text C l1 pk).
  { intros _ K. destruct (find_byte is_blank l1) as [i|]; [|injection K as <-; contradiction].
    destruct (parse_authorized_key C (drop i l1)) as [[p|]|e|w] eqn:E; try discriminate K.
    - injection K as <-. destruct Hin as [->|[]]. apply (from_text_occurs C (drop i l1)); [apply occurs_drop|]. apply parse_auth_key_sound. exact E.
    - injection K as <-. contradiction.
    - cbv zeta in K. set (l2 := skip_blanks _) in *.
      assert (O2 : occurs l2 l1) by (eapply occurs_trans; [apply skip_blanks_occurs|apply occurs_drop]). clearbody l2.
      destruct l2 as [|d l2]; [injection K as <-; contradiction|]. destruct (find_byte is_blank (d :: l2)) as [j|]; [|injection K as <-; contradiction].
      destruct (parse_authorized_key C (drop j (d :: l2))) as [[p|]|e'|w] eqn:E2; try discriminate K; try (injection K as <-; contradiction).
      injection K as <-. destruct Hin as [->|[]]. apply (from_text_occurs C (drop j (d :: l2))); [eapply occurs_trans; [apply occurs_drop|exact O2]|]. apply parse_auth_key_sound. exact E2. }
  destruct l1 as [|c l1]; [injection H as <-; contradiction|]. destruct c; try (apply Z; [discriminate|exact H]). injection H as <-. contradiction.
Qed.
Lemma parse_auth_sound C s : forall ks pk, parse_authorized_keys C s = Ok ks -> In pk ks -> from_text C s pk.
Proof.
  induction s as [l Hn|l f Hn IH] using lines_ind; intros ks pk H Hin; destruct (auth_line_total C l) as (k & Hk).
  - rewrite (parse_auth_last C l k Hn Hk) in H. injection H as <-. eapply auth_line_sound; eassumption.
  - rewrite (parse_auth_cons C l f k Hn Hk) in H. destruct (parse_authorized_keys C f) as [kf| |] eqn:E; try discriminate H. injection H as <-.
    apply in_app_iff in Hin. destruct Hin as [Hin|Hin].
    + apply (from_text_occurs C l); [exists [], (x0a :: f); reflexivity|]. eapply auth_line_sound; eassumption.
    + apply (from_text_occurs C f); [exists (l ++ [x0a]), []; rewrite app_nil_r, <- app_assoc; reflexivity|]. eapply IH; [reflexivity|exact Hin].
Qed.
