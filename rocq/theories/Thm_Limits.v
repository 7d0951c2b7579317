(** Theorems on errors and limits: C21, C22, C23, C24. *)
From Verif Require Import Bytes BytesLemmas GoErr GoIO SpecIO IOProofs Pb SpecPb PbProofs Crypto CryptoLaws Keys Sign
  Encrypt Decrypt Stream Spec SpecStream EncryptProofs DecryptProofs AcceptProofs OpenProofs RoundTrip StreamProofs
  Support Toy Scene Thm_Encrypt.
Require Import ZifyBool.
Ltac Zify.zify_post_hook ::= Z.div_mod_to_equations.
Local Notation length := List.length.
Local Notation concat := List.concat.

(** ** C22: internal writes *)
Theorem C22_fullwrite_all_or_error :
  forall buf w err w', fullwrite buf w = (err, w') ->
  match err with
  | None => wrote w w' buf /\ clean w w'
  | Some x => (exists part, wrote w w' part /\ prefix_of part buf) /\ exists k, In (k, Some x) (w_sched w)
  end.
Proof.
  intros buf w err w' H. destruct err as [x|].
  - destruct (fullwrite_Some _ _ _ _ H) as ((k & Hk) & Hin & _). split; [|exact Hin].
    exists (take k buf). split; [exact Hk|]. exists (drop k buf). rewrite take_drop. reflexivity.
  - destruct (fullwrite_None _ _ _ H) as (Hw & _). split; [exact Hw|]. eapply fullwrite_clean; exact H.
Qed.
Print Assumptions C22_fullwrite_all_or_error.
Example C22_instance : fullwrite (str "abcdef") (mkWriter [] [(2, None); (0, None); (3, Some (EExt 5))] [] 0)
   = (Some (EExt 5), mkWriter (str "abcde") [] [] 0) /\
  fullwrite (str "abcdef") (mkWriter [] [(2, None); (0, None); (3, None)] [] 0) = (None, mkWriter (str "abcdef") [] [] 0).
Proof. split; reflexivity. Qed.

(** ** C21: I/O errors *)
(** Encrypt returned nil: the source ended with EOF (or one of two further errors, see the refutation), every
    byte it delivered is in the output, every Write on the destination succeeded, and so did Close.
    Encrypt returned an error: it is the source's error, a destination's Write error, or its Close error. *)
Theorem C21_encrypt_errors_partial :
  forall C, crypto_ok C ->
  forall sender blksize pks g e g', 0 <= blksize -> len pks < 2^40 ->
  (forall sk, sender = Some sk -> len (sk_Sk sk) = 64) -> session C sender blksize pks g e g' ->
  forall rd s er wr e2 rd2 wr2 g2 res, delivers rd s er -> encrypt C e rd wr g' = (e2, rd2, wr2, g2, res) ->
  match res with
  | Ok _ => (er = IoEOF \/ er = ErrUnexpectedEOF \/ er = ErrClosedPipe) /\ clean wr wr2 /\
      (forall c cs, w_closes wr = c :: cs -> c = None) /\
      exists head dk base chunks trailer,
         wrote wr wr2 (head ++ frames C dk base 0 chunks ++ trailer) /\ concat chunks = s
  | Fail x => cause x = cause er \/ (exists k y, In (k, Some y) (w_sched wr) /\ cause x = cause y) \/ (exists cs, w_closes wr = Some x :: cs)
  | Panic _ => False
  end.
Proof.
  intros C HC sender blk pks g e g' Hb Hp Hg Hs rd s er wr x2 rd2 wr2 h2 res D1 E1.
  pose proof (session_ready _ _ _ _ _ _ _ HC Hg Hs) as Hr. pose proof (header_small _ _ _ _ _ HC Hb Hr Hp) as Hl.
  pose proof (encrypt_spec _ _ _ _ _ _ _ _ _ _ _ _ _ _ _ HC Hg Hb Hr Hl D1 E1) as (_ & H).
  destruct res as [[]|x|x].
  - destruct H as (He & cs & Hcs & Ht). destruct (the_trailer C e _ (mac_input cs) g') as [tr gx]. destruct Ht as (_ & _ & Ho & _).
    split; [unfold eof_like in He; tauto|]. split; [eapply encrypt_clean; exact E1|]. split.
    + revert E1. unfold encrypt. rewrite (rd_stream _ _ _ _ _ Hr), (rd_started _ _ _ _ _ Hr).
      destruct (enc_start C e wr) as [[e3 w3] r3] eqn:Es. destruct r3 as [[]|x|x]; try discriminate.
      destruct (enc_loop C (S (rd_size rd)) e3 rd w3 0 g') as [[[[e4 r4] w4] g4] r4'] eqn:El. destruct r4' as [[]|x|x]; try discriminate.
      assert (Hc : w_closes w4 = w_closes wr).
      { pose proof (enc_start_spec C e wr e3 w3 (Ok tt) HC (ready_small _ _ _ _ _ HC Hb Hr Hl) Es) as ((_ & Hc1 & _) & He1 & _).
        pose proof (ready_live C sender blk pks e HC Hg Hb Hr) as Hlive. cbv zeta in Hlive. rewrite <- He1 in Hlive.
        pose proof (enc_loop_spec C HC _ _ _ _ _ _ _ _ _ _ _ _ _ _ _ _ _ Hlive D1 (Nat.lt_succ_diag_r _) El) as ((_ & Hc2 & _) & _).
        congruence. }
      unfold w_close. rewrite Hc. destruct (w_closes wr) as [|[c|] cs']; try discriminate; intros _ c0 cs0 H0; congruence.
    + set (fk := keys_of C (e_hdr e) (e_key e)) in *.
      exists (full_header (e_hdr e) ++ header_cksum C (e_hdr e)), (fk_data fk), (fk_base fk), cs, tr.
      split; [|eapply chunked_concat; exact Hcs]. unfold wrote. rewrite Ho. unfold sigtool_file, body. fold fk. rewrite <- !app_assoc. reflexivity.
  - destruct H as [[-> _]|H]; [left; reflexivity|right; exact H].
  - exact H.
Qed.
Print Assumptions C21_encrypt_errors_partial.

(** Decrypt returned nil: every Write on the destination succeeded and everything that was decrypted was written;
    a Write error is always returned. *)
Theorem C21_decrypt_write_errors :
  forall C d w d' w' res, decrypt C d w = (d', w', res) ->
  (res = Ok tt -> clean w w') /\
  ((exists used, w_sched w = used ++ w_sched w' /\ exists k x, In (k, Some x) used) -> exists y, res = Fail y \/ (exists p, res = Panic p)).
Proof.
  intros C d w d' w' res H.
  assert (G : res = Ok tt -> clean w w') by (intros ->; eapply decrypt_clean; exact H). split; [exact G|].
  intros (used & Hu & k & x & Hin). destruct res as [[]|y|p]; [|exists y; auto|exists IoEOF; eauto].
  exfalso. destruct (G eq_refl) as (used2 & Hu2 & Hf). rewrite Hu in Hu2. apply app_inv_tail in Hu2. subst used2.
  rewrite Forall_forall in Hf. specialize (Hf _ Hin). discriminate.
Qed.
Print Assumptions C21_decrypt_write_errors.

(** The full property fails: a source reporting io.ErrUnexpectedEOF (as a reader of a truncated compressed or
    archived stream does) or io.ErrClosedPipe is taken to have ended normally: Encrypt returns nil. *)
Theorem C21_refuted :
  ~ (forall C, crypto_ok C -> forall sender blksize pks g e g', 0 <= blksize -> session C sender blksize pks g e g' ->
     (forall sk, sender = Some sk -> len (sk_Sk sk) = 64) ->
     forall rd s er wr e2 rd2 wr2 g2, delivers rd s er -> encrypt C e rd wr g' = (e2, rd2, wr2, g2, Ok tt) -> er = IoEOF).
Proof.
  intros H.
  assert (M2 : exists e r w g, encrypt toy e1 [(str "hello", None); ([], Some ErrUnexpectedEOF)] sink g1 = (e, r, w, g, Ok tt)).
  { destruct (encrypt toy e1 [(str "hello", None); ([], Some ErrUnexpectedEOF)] sink g1) as [[[[a' b'] c'] d'] r] eqn:E2.
    assert (R : r = Ok tt). { change r with (snd (a', b', c', d', r)). rewrite <- E2. vm_compute. reflexivity. } subst r. eauto. }
  destruct M2 as (a' & b' & c' & d' & E2).
  specialize (H toy toy_ok (Some skS) 4 [pkA; pkB] g0 e1 g1 ltac:(lia) session1 (matches_good _ _ _ toy_ok matches1)
    [(str "hello", None); ([], Some ErrUnexpectedEOF)] (str "hello" ++ []) ErrUnexpectedEOF sink a' b' c' d'
    ltac:(constructor; constructor) E2). discriminate.
Qed.
Print Assumptions C21_refuted.

(** ** C23: block sizes *)
(** The chunk size written in the header is the requested one, 4 MiB for 0, capped at 1 GiB.  (With less than
    1 GiB the file can be decrypted: C01.) *)
Theorem C23_chunk_size_partial :
  forall C, crypto_ok C ->
  forall sender blksize pks g e g', 0 <= blksize -> (forall sk, sender = Some sk -> len (sk_Sk sk) = 64) ->
  session C sender blksize pks g e g' ->
  h_chunk (e_hdr e) = (if blksize =? 0 then 4194304 else if blksize <=? 2^30 then blksize else 2^30).
Proof.
  intros C HC sender blk pks g e g' Hb Hg Hs. pose proof (session_ready _ _ _ _ _ _ _ HC Hg Hs) as Hr.
  rewrite (rd_chunk _ _ _ _ _ Hr). unfold block_size, chunk_default, max_chunk, u32.
  destruct (Z.eqb_spec blk 0); [reflexivity|]. destruct (Z.ltb_spec (2^30) blk), (Z.leb_spec blk (2^30)); lia.
Qed.
Print Assumptions C23_chunk_size_partial.
Example C23_instance : h_chunk (e_hdr e1) = 4.
Proof. reflexivity. Qed.

Lemma full_header_front C h rest h' ck' rest' : len (pb_header h) < 2^32 -> unmarshal_header (pb_header h) = Ok h ->
  valid_header C (full_header h ++ rest) h' ck' rest' -> h' = h /\ len (pb_header h) <= 1048576.
Proof.
  intros Hl Hu (var & H). cbv zeta in H. destruct H as (He & _ & _ & Hv & Hu' & _).
  unfold full_header in He. rewrite <- !app_assoc in He.
  apply app_inj_len in He; [|reflexivity]. destruct He as [_ He]. apply app_inj_len in He; [|reflexivity]. destruct He as [_ He].
  apply app_inj_len in He; [|reflexivity]. destruct He as [Hb He]. apply be32_inj in Hb; [|pose proof (len_nonneg (pb_header h)); lia|lia].
  apply app_inj_len in He; [|exact Hb]. destruct He as [<- _]. split; [congruence|lia].
Qed.

(** The full property fails: with a block size of 1 GiB or more NewEncryptor and Encrypt succeed, but NewDecryptor
    rejects every file so produced. *)
Theorem C23_refuted :
  forall C, crypto_ok C ->
  forall sender blksize pks g e g', 2^30 <= blksize -> len pks < 2^25 ->
  (forall sk, sender = Some sk -> len (sk_Sk sk) = 64) -> session C sender blksize pks g e g' ->
  forall rd s er wr e2 rd2 wr2 g2, delivers rd s er -> w_out wr = [] -> encrypt C e rd wr g' = (e2, rd2, wr2, g2, Ok tt) ->
  forall file ef d file', delivers file (w_out wr2) ef -> new_decryptor C file <> (Ok d, file').
Proof.
  intros C HC sender blk pks g e g' Hb Hp Hg Hs rd s er wr x2 rd2 wr2 h2 D1 Hw E1 file ef d file' Hf Hn.
  pose proof (session_ready _ _ _ _ _ _ _ HC Hg Hs) as Hr.
  assert (Hb0 : 0 <= blk) by lia.
  pose proof (header_small _ _ _ _ _ HC Hb0 Hr ltac:(lia)) as Hl.
  pose proof (encrypt_spec _ _ _ _ _ _ _ _ _ _ _ _ _ _ _ HC Hg Hb0 Hr Hl D1 E1) as (_ & _ & cs & Hcs & Ht).
  destruct (the_trailer C e _ (mac_input cs) g') as [tr gx]. destruct Ht as (_ & _ & Ho & _). rewrite Hw in Ho. cbn [app] in Ho.
  rewrite Ho in Hf. unfold sigtool_file in Hf.
  pose proof (new_decryptor_spec _ _ _ _ _ _ HC Hf Hn) as (h & ck & rest & Hv & _).
  pose proof (ready_header_len _ _ _ _ _ HC Hb0 Hr) as Hlen. pose proof (block_size_range blk Hb0).
  assert (Hc6 : chunk_field_len (block_size blk) <= 6) by (apply chunk_field_6; lia).
  assert (Hu : unmarshal_header (pb_header (e_hdr e)) = Ok (e_hdr e)) by (apply unmarshal_spec; [eapply ready_small; eauto|eapply ready_known; eauto]).
  pose proof (full_header_front C (e_hdr e) _ _ _ _ ltac:(lia) Hu Hv) as [-> _].
  destruct Hv as (var & _ & _ & _ & _ & _ & Hch & _). rewrite (rd_chunk _ _ _ _ _ Hr) in Hch.
  unfold block_size, max_chunk, u32 in Hch. destruct (Z.eqb_spec blk 0); [lia|]. destruct (Z.ltb_spec (2^30) blk); [lia|].
  rewrite Z.mod_small in Hch; lia.
Qed.
Print Assumptions C23_refuted.
(** such a file can be made *)
Example C23_refuted_instance : exists e g a b c d, session toy None (2^30) [pkA] g0 e g /\ encrypt toy e src sink g = (a, b, c, d, Ok tt).
Proof.
  destruct (C01_encrypt_succeeds toy toy_ok None (2^30) [pkA] g0 ltac:(lia) ltac:(cbn; lia) ltac:(discriminate)
    ltac:(intros pk [<-|[]]; exists seedA; apply pA)) as (e & g & Hs & He).
  destruct (He src text sink src_delivers ltac:(split; constructor)) as (a & b & c & d & H). exists e, g, a, b, c, d. auto.
Qed.

(** ** C24: number of recipients *)
(** up to 15885 recipients are fine (with C01), whatever the block size *)
Theorem C24_recipients_partial :
  forall C, crypto_ok C ->
  forall sender blksize pks g e g', 0 <= blksize < 2^30 -> 1 <= len pks <= 15885 ->
  (forall sk, sender = Some sk -> len (sk_Sk sk) = 64) -> session C sender blksize pks g e g' ->
  forall rd s er wr e2 rd2 wr2 g2, delivers rd s er -> w_out wr = [] -> encrypt C e rd wr g' = (e2, rd2, wr2, g2, Ok tt) ->
  forall file ef, delivers file (w_out wr2) ef -> exists d file', new_decryptor C file = (Ok d, file') /\ len (h_keys (d_hdr d)) = len pks.
Proof.
  intros C HC sender blk pks g e g' Hb Hp Hg Hs rd s er wr x2 rd2 wr2 h2 D1 Hw E1 file ef Hf.
  pose proof (session_ready _ _ _ _ _ _ _ HC Hg Hs) as Hr.
  pose proof (few_recipients _ _ _ _ _ HC (proj1 Hb) Hr (proj2 Hp)) as Hl.
  pose proof (encrypt_spec _ _ _ _ _ _ _ _ _ _ _ _ _ _ _ HC Hg (proj1 Hb) Hr ltac:(lia) D1 E1) as (_ & _ & cs & Hcs & Ht).
  destruct (the_trailer C e _ (mac_input cs) g') as [tr gx]. destruct Ht as (_ & _ & Ho & _). rewrite Hw in Ho. cbn [app] in Ho.
  rewrite Ho in Hf. unfold sigtool_file in Hf.
  assert (Hne : pks <> []) by (intros ->; cbn in Hp; lia).
  pose proof (ready_valid_header C sender blk pks e (body C (keys_of C (e_hdr e) (e_key e)) cs tr) HC Hb Hr Hne Hl) as Hv.
  destruct (new_decryptor C file) as [rs file'] eqn:En.
  pose proof (new_decryptor_spec _ _ _ _ _ _ HC Hf En) as Hn. destruct rs as [d|x|p]; [|exfalso; apply Hn; eauto|contradiction].
  destruct Hn as (h & ck & rest & Hv' & -> & _). eexists _, file'. split; [reflexivity|]. cbn.
  destruct (valid_header_det _ _ _ _ _ _ _ _ Hv Hv') as (<- & _). pose proof (rd_keys _ _ _ _ _ Hr) as Hk. unfold len. f_equal.
  clear -Hk. induction Hk; cbn; congruence.
Qed.
Print Assumptions C24_recipients_partial.
(** with more, Encrypt still succeeds but no file so produced can be opened *)
Theorem C24_refuted :
  forall C, crypto_ok C ->
  forall sender blksize pks g e g', 0 <= blksize -> 15886 <= len pks < 2^25 ->
  (forall sk, sender = Some sk -> len (sk_Sk sk) = 64) -> session C sender blksize pks g e g' ->
  forall rd s er wr e2 rd2 wr2 g2, delivers rd s er -> w_out wr = [] -> encrypt C e rd wr g' = (e2, rd2, wr2, g2, Ok tt) ->
  forall file ef d file', delivers file (w_out wr2) ef -> new_decryptor C file <> (Ok d, file').
Proof.
  intros C HC sender blk pks g e g' Hb Hp Hg Hs rd s er wr x2 rd2 wr2 h2 D1 Hw E1 file ef d file' Hf Hn.
  pose proof (session_ready _ _ _ _ _ _ _ HC Hg Hs) as Hr.
  pose proof (header_small _ _ _ _ _ HC Hb Hr ltac:(lia)) as Hl.
  pose proof (encrypt_spec _ _ _ _ _ _ _ _ _ _ _ _ _ _ _ HC Hg Hb Hr Hl D1 E1) as (_ & _ & cs & Hcs & Ht).
  destruct (the_trailer C e _ (mac_input cs) g') as [tr gx]. destruct Ht as (_ & _ & Ho & _). rewrite Hw in Ho. cbn [app] in Ho.
  rewrite Ho in Hf. unfold sigtool_file in Hf.
  pose proof (new_decryptor_spec _ _ _ _ _ _ HC Hf Hn) as (h & ck & rest & Hv & _).
  pose proof (ready_header_len _ _ _ _ _ HC Hb Hr) as Hlen. pose proof (block_size_range blk Hb).
  assert (Hc6 : 1 <= chunk_field_len (block_size blk) <= 6) by (split; [apply chunk_field_1|apply chunk_field_6]; lia).
  assert (Hu : unmarshal_header (pb_header (e_hdr e)) = Ok (e_hdr e)) by (apply unmarshal_spec; [eapply ready_small; eauto|eapply ready_known; eauto]).
  pose proof (full_header_front C (e_hdr e) _ _ _ _ ltac:(lia) Hu Hv) as [_ Hx]. lia.
Qed.
Print Assumptions C24_refuted.
Example C24_refuted_instance : exists pks e g a b c d, len pks = 15886 /\ session toy None 0 pks g0 e g /\ encrypt toy e src sink g = (a, b, c, d, Ok tt).
Proof.
  set (pks := repeat pkA (Z.to_nat 15886)). assert (Hl : len pks = 15886) by (unfold pks; rewrite len_repeat; lia).
  destruct (C01_encrypt_succeeds toy toy_ok None 0 pks g0 ltac:(lia) ltac:(lia) ltac:(discriminate)
    ltac:(intros pk Hin; apply repeat_spec in Hin; subst pk; exists seedA; apply pA)) as (e & g & Hs & He).
  destruct (He src text sink src_delivers ltac:(split; constructor)) as (a & b & c & d & H). exists pks, e, g, a, b, c, d. auto.
Qed.
