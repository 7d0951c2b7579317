(** Further lemmas for the theorems on encryption: totality, determinism, reuse of an encryptor. *)
From Verif Require Import Bytes BytesLemmas GoErr GoIO SpecIO IOProofs Pb SpecPb PbProofs Crypto CryptoLaws Keys Sign
  Encrypt Decrypt Stream Spec SpecStream EncryptProofs DecryptProofs AcceptProofs OpenProofs RoundTrip StreamProofs.
Require Import ZifyBool.
Ltac Zify.zify_post_hook ::= Z.div_mod_to_equations.
Local Notation length := List.length.
Local Notation concat := List.concat.

(** ** every list of genuine keys makes a session *)
Lemma add_recipient_total C sender blk pks e pk seed g : crypto_ok C -> ready C sender blk pks e -> pubof C seed pk ->
  exists e' pk' g', add_recipient C e pk g = (e', pk', g', Ok tt).
Proof.
  intros HC Hr Hp. unfold add_recipient. rewrite (rd_started _ _ _ _ _ Hr). unfold wrap_key.
  assert (Hc : exists pk', to_curve_pk pk = Ok (curve_pt pk, pk')).
  { unfold to_curve_pk, curve_pt. destruct (pk_ck pk) as [c|]; [eauto|].
    rewrite (po_pk _ _ _ Hp), (ok_ed_public_len C HC). change (32 <? 32) with false. cbv iota zeta. eauto. }
  destruct Hc as (pk' & ->). unfold X25519. rewrite (rd_esk _ _ _ _ _ Hr). cbn [negb Z.eqb Pos.eqb].
  rewrite (curve_pt_of C seed pk HC Hp), (ok_x25519_len C HC). cbn [negb Z.eqb Pos.eqb].
  assert (Hz : beq (x25519 C (e_encSK e) (x25519 C (scalar_of C seed) basepoint)) (zeros 32) = false).
  { apply beq_neq. apply (ok_dh_nonzero C HC); [apply (rd_esk _ _ _ _ _ Hr)|apply len_scalar; exact HC]. }
  rewrite Hz. destruct (rand_buf rx_nonce_size g) as [rb g1]. unfold expand.
  change (aes_key_size + rx_nonce_size) with 44. change aes_key_size with 32.
  rewrite new_gcm_32 by (rewrite len_take_le; [reflexivity|]; rewrite len_hkdf by (assumption || lia); lia).
  cbn [wrapf bind]. eauto.
Qed.

Lemma add_recipients_total C sender blk : crypto_ok C -> forall pks pks0 e g, ready C sender blk pks0 e ->
  Forall (fun pk => exists seed, pubof C seed pk) pks -> exists e' g', add_recipients C e pks g = Some (e', g').
Proof.
  intros HC. induction pks as [|pk pks IH]; intros pks0 e g Hr Hpk; [cbn; eauto|].
  inversion Hpk as [|? ? (seed & Hp) Hpk']; subst. cbn [add_recipients].
  destruct (add_recipient_total C sender blk pks0 e pk seed g HC Hr Hp) as (e1 & pk' & g1 & Ha). rewrite Ha.
  apply (IH (pks0 ++ [pk])); [|exact Hpk'].
  apply (add_recipients_spec C sender blk HC [pk] pks0 e g e1 g1 Hr). cbn [add_recipients]. rewrite Ha. reflexivity.
Qed.

Lemma session_total C sender blk pks g : crypto_ok C -> good_sender sender ->
  Forall (fun pk => exists seed, pubof C seed pk) pks -> exists e g', session C sender blk pks g e g'.
Proof.
  intros HC Hg Hpk. destruct (new_encryptor_total C sender blk g HC Hg) as (e0 & g0 & He).
  destruct (add_recipients_total C sender blk HC pks [] e0 g0 (new_encryptor_spec _ _ _ _ _ _ HC Hg He) Hpk) as (e & g' & Ha).
  exists e, g', e0, g0. auto.
Qed.

Lemma matches_good C sender spk : crypto_ok C -> sender_matches C sender spk -> good_sender sender.
Proof.
  intros HC H sk ->. destruct H as (seed & pk & Hk & _). rewrite (kp_sk _ _ _ Hk), len_app, (kp_seed _ _ _ Hk), (ok_ed_public_len C HC). reflexivity.
Qed.
Lemma keypair_good C seed sk : crypto_ok C -> keypair C seed sk -> good_sender (Some sk).
Proof.
  intros HC Hk sk0 H0. injection H0 as <-. rewrite (kp_sk _ _ _ Hk), len_app, (kp_seed _ _ _ Hk), (ok_ed_public_len C HC). reflexivity.
Qed.

(** ** splitting into chunks is a function of the plaintext *)
Lemma chunked_concat n lastok cs s : chunked n lastok cs s -> concat cs = s.
Proof.
  induction 1 as [c Hc|c cs s Hc H IH]; [cbn; apply app_nil_r|]. change (concat (c :: cs)) with (c ++ concat cs). rewrite IH. reflexivity.
Qed.
Lemma chunked_split n lastok cs s : chunked n lastok cs s -> exists init last, cs = init ++ [last] /\
  Forall (fun c => len c = n) init /\ lastok (len last).
Proof.
  induction 1 as [c Hc|c cs s Hc H (init & last & -> & Hi & Hl)].
  - exists [], c. repeat split; auto.
  - exists (c :: init), last. repeat split; auto.
Qed.
Lemma encrypt_chunks_pos n cs s : encrypt_chunks n cs s -> 1 <= n -> cs <> [].
Proof. intros H _. destruct H; discriminate. Qed.
Lemma encrypt_chunks_det n cs s : 1 <= n -> encrypt_chunks n cs s -> forall cs', encrypt_chunks n cs' s -> cs' = cs.
Proof.
  intros Hn H. induction H as [c Hc|c cs s Hc H IH]; intros cs' H'.
  - inversion H' as [c2 Hc2 E1 E2|c2 cs2 s2 Hc2 H2 E1 E2]; [reflexivity|]. exfalso.
    apply (f_equal len) in E2. rewrite len_app in E2. pose proof (len_nonneg s2). lia.
  - inversion H' as [c2 Hc2 E1 E2|c2 cs2 s2 Hc2 H2 E1 E2].
    + exfalso. rewrite len_app in Hc2. pose proof (len_nonneg s). lia.
    + apply app_inj_len in E2; [|lia]. destruct E2 as [-> ->]. f_equal. apply IH. exact H2.
Qed.

(** ** no error of the destination is lost: every Write call made returned no error *)
Lemma clean_refl w : clean w w. Proof. exists []. split; [reflexivity|constructor]. Qed.
Lemma clean_trans a b c : clean a b -> clean b c -> clean a c.
Proof.
  intros (u & Hu & Fu) (v & Hv & Fv). exists (u ++ v). rewrite Hu, Hv, app_assoc. split; [reflexivity|]. apply Forall_app. auto.
Qed.
Lemma fullwrite_loop_clean s : forall buf out o s', fullwrite_loop s buf out = (None, o, s') ->
  exists used, s = used ++ s' /\ Forall (fun p => snd p = None) used.
Proof.
  induction s as [|[k e] s IH]; intros buf out o s' H.
  - assert (s' = []) as -> by (destruct buf; cbn in H; congruence). exists []. split; [reflexivity|constructor].
  - destruct buf as [|b buf]; cbn in H.
    + injection H as <- <-. exists []. split; [reflexivity|constructor].
    + destruct e as [x|]; [discriminate|]. destruct (IH _ _ _ _ H) as (used & -> & Hf). exists ((k, None) :: used).
      split; [reflexivity|]. constructor; auto.
Qed.
Lemma fullwrite_clean b w w' : fullwrite b w = (None, w') -> clean w w'.
Proof.
  unfold fullwrite. destruct (fullwrite_loop (w_sched w) b (w_out w)) as [[e o] s] eqn:E. intros H. injection H as -> <-.
  exact (fullwrite_loop_clean _ _ _ _ _ E).
Qed.
Lemma w_close_clean w e w' : w_close w = (e, w') -> w_sched w' = w_sched w.
Proof. unfold w_close. destruct (w_closes w); intros H; injection H as <- <-; reflexivity. Qed.

Lemma enc_start_clean C e w e' w' : enc_start C e w = (e', w', Ok tt) -> clean w w'.
Proof.
  unfold enc_start. destruct (marshal_to _ _) as [v|x|x]; try discriminate. cbv zeta.
  destruct (new_gcm _) as [k|x|x]; try discriminate.
  destruct (fullwrite _ w) as [[x|] w1] eqn:E; try discriminate. intros H. injection H as <- <-. eapply fullwrite_clean; exact E.
Qed.
Lemma write_trailer_clean C e w g w' g' : write_trailer C e w g = (w', g', Ok tt) -> clean w w'.
Proof.
  unfold write_trailer. destruct (match e_auth e with true => _ | false => _ end) as [[tr|x|x] g1]; try discriminate.
  destruct (fullwrite tr w) as [[x|] w1] eqn:E; try discriminate. intros H. injection H as <- <-. eapply fullwrite_clean; exact E.
Qed.
Lemma enc_block_clean C e pt w i eof g e' w' g' : enc_block C e pt w i eof g = (e', w', g', Ok tt) -> clean w w'.
Proof.
  unfold enc_block. destruct (e_ae e) as [k|]; try discriminate. destruct (e_hmac e) as [[hk hd]|]; try discriminate. cbv zeta.
  destruct (_ <? _); try discriminate.
  destruct (fullwrite _ w) as [[x|] w1] eqn:E; try discriminate. destruct eof.
  - destruct (write_trailer _ _ _ _) as [[w2 g2] rs] eqn:Et. intros H. injection H as <- <- <- ->.
    eapply clean_trans; [eapply fullwrite_clean; exact E|eapply write_trailer_clean; exact Et].
  - intros H. injection H as <- <- <-. eapply fullwrite_clean; exact E.
Qed.
Lemma enc_loop_clean C fuel : forall e r w i g e' r' w' g', enc_loop C fuel e r w i g = (e', r', w', g', Ok tt) -> clean w w'.
Proof.
  induction fuel as [|fuel IH]; intros e r w i g e' r' w' g' H; [discriminate|]. rewrite enc_loop_S in H.
  destruct (read_full r (h_chunk (e_hdr e))) as [[b err] r1]. cbv zeta in H.
  destruct (match err with None => Ok false | Some IoEOF | Some ErrClosedPipe | Some ErrUnexpectedEOF => Ok true | Some x => Fail (EWrap "encrypt: I/O read error" x) end) as [eof|x|x]; try discriminate.
  destruct (enc_block C e b w i eof g) as [[[e1 w1] g1] rs] eqn:Eb. destruct rs as [[]|x|x]; try discriminate.
  pose proof (enc_block_clean _ _ _ _ _ _ _ _ _ _ Eb) as Hc. destruct eof.
  - injection H as <- <- <- <-. exact Hc.
  - eapply clean_trans; [exact Hc|]. eapply IH. exact H.
Qed.
Lemma encrypt_clean C e r w g e' r' w' g' : encrypt C e r w g = (e', r', w', g', Ok tt) -> clean w w'.
Proof.
  unfold encrypt. destruct (e_stream e); try discriminate.
  destruct (if e_started e then (e, w, Ok tt) else enc_start C e w) as [[e1 w1] rs] eqn:Es.
  destruct rs as [[]|x|x]; try discriminate.
  destruct (enc_loop C (S (rd_size r)) e1 r w1 0 g) as [[[[e2 r2] w2] g2] rs] eqn:El. destruct rs as [[]|x|x]; try discriminate.
  destruct (w_close w2) as [[x|] w3] eqn:Ec; try discriminate. intros H. injection H as <- <- <- <-.
  assert (H1 : clean w w1). { destruct (e_started e); [injection Es as <- <-; apply clean_refl|eapply enc_start_clean; exact Es]. }
  pose proof (enc_loop_clean _ _ _ _ _ _ _ _ _ _ _ El) as H2. destruct (clean_trans _ _ _ H1 H2) as (used & Hu & Hf).
  exists used. rewrite (w_close_clean _ _ _ Ec). auto.
Qed.
Lemma dec_loop_clean C fuel : forall d w i d' w', dec_loop C fuel d w i = (d', w', Ok tt) -> clean w w'.
Proof.
  induction fuel as [|fuel IH]; intros d w i d' w' H; [discriminate|]. rewrite dec_loop_S in H.
  destruct (dec_chunk C d i) as [d1 r1]. destruct r1 as [[m eof]|x|]; try discriminate. cbv zeta in H.
  destruct (if 0 <? m then fullwrite (take m (d_buf d1)) w else (None, w)) as [[x|] w1] eqn:E; try discriminate.
  assert (Hc : clean w w1). { destruct (0 <? m); [eapply fullwrite_clean; exact E|injection E as <-; apply clean_refl]. }
  destruct eof; [injection H as <- <-; exact Hc|]. eapply clean_trans; [exact Hc|eapply IH; exact H].
Qed.
Lemma decrypt_clean C d w d' w' : decrypt C d w = (d', w', Ok tt) -> clean w w'.
Proof.
  unfold decrypt. destruct (d_key d); try discriminate. destruct (d_stream d); try discriminate. destruct (d_eof d); try discriminate.
  apply dec_loop_clean.
Qed.

(** ** a second Encrypt on the same encryptor *)
Lemma encrypt_again C sender blk pks e r w g s er e1 r1 w1 g1 r2 w2 g2 s2 er2 e3 r3 w3 g3 rs :
  crypto_ok C -> good_sender sender -> 0 <= blk -> ready C sender blk pks e -> len (pb_header (e_hdr e)) < 2^62 ->
  delivers r s er -> encrypt C e r w g = (e1, r1, w1, g1, Ok tt) ->
  delivers r2 s2 er2 -> encrypt C e1 r2 w2 g2 = (e3, r3, w3, g3, rs) ->
  let fk := keys_of C (e_hdr e) (e_key e) in
  match rs with
  | Ok _ => exists cs tr, encrypt_chunks (block_size blk) cs s2 /\ w_out w3 = w_out w2 ++ frames C (fk_data fk) (fk_base fk) 0 cs ++ tr
  | Fail x => (x = EWrap "encrypt: I/O read error" er2 /\ ~ eof_like er2) \/
              (exists m y, In (m, Some y) (w_sched w2) /\ cause x = cause y) \/ In (Some x) (w_closes w2)
  | Panic _ => False
  end.
Proof.
  intros HC Hg Hb Hr Hl Hd H Hd2 H2 fk.
  pose proof (encrypt_spec _ _ _ _ _ _ _ _ _ _ _ _ _ _ _ HC Hg Hb Hr Hl Hd H) as (_ & _ & cs & Hcs & Ht). fold fk in Ht.
  destruct (the_trailer C e (fk_mac fk) (mac_input cs) g) as [tr gx]. destruct Ht as (_ & _ & _ & He1 & _).
  pose proof (ready_live C sender blk pks e HC Hg Hb Hr) as Hlive. cbv zeta in Hlive. fold fk in Hlive.
  apply (live_with _ _ _ _ _ (mac_input cs)) in Hlive. rewrite <- He1 in Hlive.
  unfold encrypt in H2. assert (Hst : e_stream e1 = false) by (rewrite He1; apply (rd_stream _ _ _ _ _ Hr)).
  assert (Hsd : e_started e1 = true) by (rewrite He1; reflexivity). rewrite Hst, Hsd in H2. cbv beta iota in H2.
  destruct (enc_loop C (S (rd_size r2)) e1 r2 w2 0 g2) as [[[[e4 r4] w4] g4] rs4] eqn:El.
  pose proof (enc_loop_spec C HC _ _ _ _ _ _ _ _ _ _ _ _ _ _ _ _ _ Hlive Hd2 (Nat.lt_succ_diag_r _) El) as (Hl2 & _ & Hloop).
  assert (Hn : h_chunk (e_hdr e1) = block_size blk) by (rewrite He1; apply (rd_chunk _ _ _ _ _ Hr)). rewrite Hn in *.
  destruct rs4 as [v|x|]; [| |contradiction].
  - destruct (w_close w4) as [[x|] w5] eqn:Ec; injection H2 as <- <- <- <- <-.
    + right. right. unfold w_close in Ec. destruct Hl2 as (_ & Hc2 & _). rewrite <- Hc2.
      destruct (w_closes w4) as [|c cs2]; [discriminate|]. injection Ec as -> _. now left.
    + destruct Hloop as (_ & cs2 & Hcs2 & _ & Ht2). exists cs2.
      destruct (the_trailer C e1 (fk_mac fk) (mac_input cs ++ mac_input cs2) g2) as [tr2 gy]. destruct Ht2 as (_ & Hw).
      exists tr2. split; [exact Hcs2|]. rewrite (w_close_out _ _ _ Ec), Hw. reflexivity.
  - injection H2 as <- <- <- <- <-. destruct Hloop as [Hx|Hx]; auto.
Qed.

(** ** produced files in closed form *)
Record made_file (C : crypto) (sender : option privkey) (blk : Z) (pks : list pubkey) (e : encryptor) (s file : bytes) (cs : list bytes) (tr : bytes) : Prop := {
  mf_blk : 0 <= blk < 2^30;
  mf_ready : ready C sender blk pks e;
  mf_sender : good_sender sender;
  mf_ne : pks <> [];
  mf_hdr : len (pb_header (e_hdr e)) <= 1048576;
  mf_chunk : 1 <= h_chunk (e_hdr e) < 2^30;
  mf_file : file = sigtool_file C (e_hdr e) (e_key e) cs tr;
  mf_cs : encrypt_chunks (h_chunk (e_hdr e)) cs s \/ stream_chunks (h_chunk (e_hdr e)) cs s;
  mf_good : good_chunks (h_chunk (e_hdr e)) cs;
  mf_cat : concat cs = s;
  mf_tr : good_trailer C sender (keys_of C (e_hdr e) (e_key e)) cs tr }.

Lemma chunk_field_6 v : 0 <= v < 2^32 -> chunk_field_len v <= 6.
Proof.
  intros Hv. unfold chunk_field_len. rewrite size_varint_spec by lia. unfold varint. cbn [leb128].
  do 5 (match goal with |- context[?x <? 128] => destruct (Z.ltb_spec x 128); [cbn; lia|]; rewrite len_cons end). lia.
Qed.
Lemma chunk_field_1 v : 0 <= v < 2^32 -> 1 <= chunk_field_len v.
Proof.
  intros Hv. unfold chunk_field_len. rewrite size_varint_spec by lia. pose proof (len_nonneg (varint v)). lia.
Qed.
Lemma few_recipients C sender blk pks e : crypto_ok C -> 0 <= blk -> ready C sender blk pks e ->
  len pks <= 15885 -> len (pb_header (e_hdr e)) <= 1048576.
Proof.
  intros HC Hb Hr Hl. rewrite (ready_header_len _ _ _ _ _ HC Hb Hr). pose proof (block_size_range blk Hb).
  pose proof (chunk_field_6 (block_size blk) ltac:(lia)). lia.
Qed.
Lemma header_small C sender blk pks e : crypto_ok C -> 0 <= blk -> ready C sender blk pks e ->
  len pks < 2^40 -> len (pb_header (e_hdr e)) < 2^62.
Proof.
  intros HC Hb Hr Hl. rewrite (ready_header_len _ _ _ _ _ HC Hb Hr). pose proof (block_size_range blk Hb).
  pose proof (chunk_field_6 (block_size blk) ltac:(lia)). lia.
Qed.

Lemma made_inv C sender blk pks e s file : crypto_ok C -> made C sender blk pks e s file ->
  exists cs tr, made_file C sender blk pks e s file cs tr.
Proof.
  intros HC (Hb & Hp & Hg & H).
  assert (Hch : ready C sender blk pks e -> h_chunk (e_hdr e) = block_size blk /\ 1 <= block_size blk < 2^30).
  { intros Hr. split; [apply (rd_chunk _ _ _ _ _ Hr)|]. unfold block_size, chunk_default, max_chunk, u32.
    destruct (Z.eqb_spec blk 0); [lia|]. destruct (Z.ltb_spec (2^30) blk); lia. }
  assert (Hne : pks <> []) by (intros ->; cbn in Hp; lia).
  destruct H as [(g & g' & rd & er & wr & e2 & rd2 & wr2 & g2 & Hs & Hd & Hw & He & Hf)|
                 (g & g' & wr & e1 & wr1 & w1 & bs & e2 & wr2 & g2 & w2 & rs & e3 & wr3 & g3 & w3 & Hs & Hw & H1 & H2 & H3 & Hbs & Hf)];
    pose proof (session_ready _ _ _ _ _ _ _ HC Hg Hs) as Hr;
    pose proof (few_recipients _ _ _ _ _ HC (proj1 Hb) Hr (proj2 Hp)) as Hl; destruct (Hch Hr) as [Hc Hcr]; rewrite <- Hc in Hcr.
  - pose proof (encrypt_spec _ _ _ _ _ _ _ _ _ _ _ _ _ _ _ HC Hg (proj1 Hb) Hr ltac:(lia) Hd He) as (_ & _ & cs & Hcs & Ht).
    destruct (the_trailer C e _ (mac_input cs) g') as [tr gx]. destruct Ht as (_ & Htr & Ho & _). rewrite Hw in Ho. cbn [app] in Ho.
    rewrite <- Hc in Hcs. assert (Hpos : 0 < h_chunk (e_hdr e)) by lia. destruct (chunked_good _ _ _ Hpos Hcs) as [Hgc Hcc].
    exists cs, tr. constructor; auto. congruence.
  - pose proof (stream_encrypt_spec _ _ _ _ _ _ _ _ _ _ _ _ _ _ _ _ _ _ _ _ _ HC Hg (proj1 Hb) Hr ltac:(lia) H1 H2 H3) as (_ & _ & cs & tr & Hcs & Htr & Ho).
    rewrite Hw in Ho. cbn [app] in Ho. rewrite Hbs in Hcs.
    rewrite <- Hc in Hcs. assert (Hpos : 0 < h_chunk (e_hdr e)) by lia. destruct (stream_good _ _ _ Hpos Hcs) as [Hgc Hcc].
    exists cs, tr. constructor; auto. congruence.
Qed.

Lemma concat_full n init : Forall (fun c : bytes => len c = n) init -> len (concat init) = n * len init.
Proof.
  induction 1 as [|c l Hc H IH]; [unfold len; cbn; lia|]. change (concat (c :: l)) with (c ++ concat l).
  rewrite len_app, len_cons, IH, Hc. ring.
Qed.
Lemma chunk_count n cs s : 1 <= n -> encrypt_chunks n cs s -> n * (len cs - 1) <= len s < n * len cs.
Proof.
  intros Hn H. destruct (chunked_split _ _ _ _ H) as (init & last & -> & Hi & Hl).
  apply chunked_concat in H. subst s. rewrite concat_app, !len_app, (concat_full n) by exact Hi. cbn [List.concat].
  rewrite app_nil_r. change (len [last]) with 1. split; nia.
Qed.


Lemma stream_count n cs s : 1 <= n -> stream_chunks n cs s -> n * (len cs - 1) <= len s.
Proof.
  intros Hn [H|[-> ->]]; [|unfold len; cbn; lia]. destruct (chunked_split _ _ _ _ H) as (init & last & -> & Hi & Hl).
  apply chunked_concat in H. subst s. rewrite concat_app, !len_app, (concat_full n) by exact Hi. cbn [List.concat].
  rewrite app_nil_r. change (len [last]) with 1. nia.
Qed.
Lemma made_count n cs s : 1 <= n -> encrypt_chunks n cs s \/ stream_chunks n cs s -> len s < (2^32 - 1) * n -> Z.of_nat (length cs) < 2^32.
Proof.
  intros Hn H Hl. change (Z.of_nat (length cs)) with (len cs). assert (n * (len cs - 1) <= len s).
  { destruct H as [H|H]; [apply chunk_count in H; lia|apply stream_count in H; lia]. } nia.
Qed.
