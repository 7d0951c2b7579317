(** C84: files one after the other in one source. *)
From Verif Require Import Bytes BytesLemmas GoErr GoIO Crypto CryptoLaws Keys Pb Encrypt Decrypt Stream Spec SpecIO SpecStream IOProofs EncryptProofs AcceptProofs
  DecryptProofs OpenProofs RoundTrip Support StreamProofs Toy Scene Thm_Encrypt Thm_Decrypt Thm_Stream.
Local Notation length := List.length.
Local Notation concat := List.concat.

(** how a file ends: files of Encrypt end in an empty frame exactly if the content is a multiple of the block size (or empty), files of the stream
    writer only if nothing at all was written *)
Definition ends_in_data C sender blksize pks e s file : Prop :=
  (made_by_encrypt C sender blksize pks e s file /\ len s mod chunk_of blksize <> 0) \/ (made_by_stream C sender blksize pks e s file /\ s <> []).
Definition ends_empty C sender blksize pks e s file : Prop :=
  (made_by_encrypt C sender blksize pks e s file /\ len s mod chunk_of blksize = 0) \/ (made_by_stream C sender blksize pks e s file /\ s = []).

Lemma last_app {A} (l : list A) x d : last (l ++ [x]) d = x.
Proof. apply last_last. Qed.
Lemma encrypt_last n cs s : 1 <= n -> encrypt_chunks n cs s -> len (last cs []) = len s mod n.
Proof.
  intros Hn H. destruct (chunked_split _ _ _ _ H) as (init & c & -> & Hi & Hl). rewrite last_app.
  apply chunked_concat in H. subst s. rewrite concat_app, len_app, (concat_full n) by exact Hi. cbn [List.concat]. rewrite app_nil_r.
  cbn beta in Hl. rewrite (Z.mul_comm n), Z.add_comm, Z_mod_plus_full, Z.mod_small; lia.
Qed.
Lemma stream_last n cs s : 1 <= n -> stream_chunks n cs s -> last cs [] = [] <-> s = [].
Proof.
  intros Hn [H|(-> & ->)]; [|split; auto]. destruct (chunked_split _ _ _ _ H) as (init & c & -> & Hi & Hl). rewrite last_app.
  apply chunked_concat in H. subst s. rewrite concat_app. cbn [List.concat]. rewrite app_nil_r. cbn beta in Hl. split.
  - intros ->. change (len (@nil byte)) with 0 in Hl. lia.
  - intros H. apply app_eq_nil in H. tauto.
Qed.
Lemma made_last C sender blk pks e s file (b : bool) : crypto_ok C -> 0 <= blk < 2^30 -> 1 <= len pks <= 15885 ->
  (forall sk, sender = Some sk -> len (sk_Sk sk) = 64) ->
  (if b then ends_in_data else ends_empty) C sender blk pks e s file ->
  exists cs tr, made_file C sender blk pks e s file cs tr /\ (if b then last cs [] <> [] else last cs [] = []).
Proof.
  intros HC Hb Hp Hg H.
  pose proof (block_size_range blk (proj1 Hb)) as Hbr.
  assert (Hch : ready C sender blk pks e -> h_chunk (e_hdr e) = block_size blk /\ 1 <= block_size blk < 2^30).
  { intros Hr. split; [apply (rd_chunk _ _ _ _ _ Hr)|]. unfold block_size, chunk_default, max_chunk, u32.
    destruct (Z.eqb_spec blk 0); [lia|]. destruct (Z.ltb_spec (2^30) blk); lia. }
  assert (Hne : pks <> []) by (intros ->; cbn in Hp; lia).
  assert (HE : made_by_encrypt C sender blk pks e s file -> exists cs tr, made_file C sender blk pks e s file cs tr /\ encrypt_chunks (block_size blk) cs s).
  { intros (g & g' & rd & er & wr & e2 & rd2 & wr2 & g2 & Hs & Hd & Hw & He & Hf).
    pose proof (session_ready _ _ _ _ _ _ _ HC Hg Hs) as Hr. pose proof (few_recipients _ _ _ _ _ HC (proj1 Hb) Hr (proj2 Hp)) as Hl.
    destruct (Hch Hr) as [Hc Hcr]. rewrite <- Hc in Hcr.
    pose proof (encrypt_spec _ _ _ _ _ _ _ _ _ _ _ _ _ _ _ HC Hg (proj1 Hb) Hr ltac:(lia) Hd He) as (_ & _ & cs & Hcs & Ht).
    destruct (the_trailer C e _ (mac_input cs) g') as [tr gx]. destruct Ht as (_ & Htr & Ho & _). rewrite Hw in Ho. cbn [app] in Ho.
    exists cs, tr. split; [|exact Hcs]. rewrite <- Hc in Hcs. assert (Hpos : 0 < h_chunk (e_hdr e)) by lia.
    destruct (chunked_good _ _ _ Hpos Hcs) as [Hgc Hcc]. constructor; auto. congruence. }
  assert (HS : made_by_stream C sender blk pks e s file -> exists cs tr, made_file C sender blk pks e s file cs tr /\ stream_chunks (block_size blk) cs s).
  { intros (g & g' & wr & e1 & wr1 & w1 & bs & e2 & wr2 & g2 & w2 & rs & e3 & wr3 & g3 & w3 & Hs & Hw & H1 & H2 & H3 & Hbs & Hf).
    pose proof (session_ready _ _ _ _ _ _ _ HC Hg Hs) as Hr. pose proof (few_recipients _ _ _ _ _ HC (proj1 Hb) Hr (proj2 Hp)) as Hl.
    destruct (Hch Hr) as [Hc Hcr]. rewrite <- Hc in Hcr.
    pose proof (stream_encrypt_spec _ _ _ _ _ _ _ _ _ _ _ _ _ _ _ _ _ _ _ _ _ HC Hg (proj1 Hb) Hr ltac:(lia) H1 H2 H3) as (_ & _ & cs & tr & Hcs & Htr & Ho).
    rewrite Hw in Ho. cbn [app] in Ho. rewrite Hbs in Hcs.
    exists cs, tr. split; [|exact Hcs]. rewrite <- Hc in Hcs. assert (Hpos : 0 < h_chunk (e_hdr e)) by lia.
    destruct (stream_good _ _ _ Hpos Hcs) as [Hgc Hcc]. constructor; auto. congruence. }
  destruct b; [unfold ends_in_data in H|unfold ends_empty in H]; rewrite <- (block_size_chunk blk (proj1 Hb)) in H; destruct H as [(H & Hx)|(H & Hx)].
  - destruct (HE H) as (cs & tr & Hm & Hcs). exists cs, tr. split; [exact Hm|]. pose proof (encrypt_last _ _ _ (proj1 Hbr) Hcs) as L.
    intros E. rewrite E in L. change (len (@nil byte)) with 0 in L. lia.
  - destruct (HS H) as (cs & tr & Hm & Hcs). exists cs, tr. split; [exact Hm|]. rewrite (stream_last _ _ _ (proj1 Hbr) Hcs). exact Hx.
  - destruct (HE H) as (cs & tr & Hm & Hcs). exists cs, tr. split; [exact Hm|]. pose proof (encrypt_last _ _ _ (proj1 Hbr) Hcs) as L.
    apply len_0_nil. lia.
  - destruct (HS H) as (cs & tr & Hm & Hcs). exists cs, tr. split; [exact Hm|]. apply (stream_last _ _ _ (proj1 Hbr) Hcs). exact Hx.
Qed.

(** one file and whatever follows it: opening and decrypting read the file and nothing of what follows *)
Theorem C84_next_file_untouched_partial :
  forall C, crypto_ok C ->
  forall sender blksize pks e s file, 0 <= blksize < 2^30 -> 1 <= len pks <= 15885 -> ends_in_data C sender blksize pks e s file ->
  forall rd extra er seed pk sk spk, delivers rd (file ++ extra) er -> In pk pks -> pubof C seed pk -> keypair C seed sk -> sender_matches C sender spk ->
  no_accident C (e_hdr e) seed (e_key e) ->
  exists d, opened_by C rd sk spk d /\ authenticated_sender d = signed sender /\
    (forall out, accepts out -> exists d' out', decrypt C d out = (d', out', Ok tt)) /\
    forall out d' out', decrypt C d out = (d', out', Ok tt) -> wrote out out' s /\ delivers (d_rd d') extra er.
Proof.
  intros C HC sender blk pks e s file Hb Hp Hend rd extra er seed pk sk spk Hrd Hin Hpk Hk Hm Hna.
  destruct (made_last C sender blk pks e s file true HC Hb Hp (matches_good _ _ _ HC Hm) Hend) as (cs & tr & [_ Hr Hg Hne Hl Hlt Hout Hck Hgc Hcc Htr] & Hlast).
  rewrite Hout in Hrd. unfold sigtool_file in Hrd. rewrite <- !app_assoc in Hrd.
  destruct (honest_open C HC sender blk pks e Hb Hr Hl seed pk sk spk Hpk Hin Hk (or_introl Hna) Hm _ _ _ Hrd) as (d & Hod & Hos & Hau).
  destruct (honest_body_accepted C HC sender blk pks e Hr spk Hm d cs tr extra Hau Hgc Htr) as (outs & rest & Hacc & Hcat & Hre & _).
  rewrite (Hre Hlast) in Hacc. exists d. split; [exact Hod|]. split; [exact Hau|]. split.
  - intros out Ha. destruct (decrypt_complete _ _ _ _ _ _ _ _ _ _ _ _ _ HC Hos Ha Hacc) as (d' & out' & Hdec & _). eauto.
  - intros out d' out' Hdec. pose proof (decrypt_spec _ _ _ _ _ _ _ _ _ _ _ _ _ _ HC Hos Hdec) as (_ & _ & _ & outs2 & rest2 & Hacc2 & Hw & Hd2).
    destruct (accepted_det _ _ _ _ _ (proj2 Hlt) _ _ _ _ _ Hacc _ _ Hacc2) as (-> & ->). split; [|exact Hd2]. unfold wrote. congruence.
Qed.
Print Assumptions C84_next_file_untouched_partial.

(** any number of files one after the other in one source, for one recipient: opened and decrypted in turn, each from where the last one stopped *)
Fixpoint in_turn (C : crypto) (rd : reader) (sk : privkey) (want : list (option pubkey * bytes)) : Prop :=
  match want with
  | [] => delivers rd [] IoEOF
  | (spk, s) :: want => exists d d' out', opened_by C rd sk spk d /\ decrypt C d sink = (d', out', Ok tt) /\ w_out out' = s /\ in_turn C (d_rd d') sk want
  end.
Definition file_for (C : crypto) (seed : bytes) (spk : option pubkey) (s file : bytes) : Prop :=
  exists sender blksize pks e pk, 0 <= blksize < 2^30 /\ 1 <= len pks <= 15885 /\ ends_in_data C sender blksize pks e s file /\
    In pk pks /\ pubof C seed pk /\ sender_matches C sender spk /\ no_accident C (e_hdr e) seed (e_key e).
Theorem C84_many_files_partial :
  forall C, crypto_ok C -> forall seed sk, keypair C seed sk ->
  forall files rd, Forall (fun f => file_for C seed (fst (fst f)) (snd (fst f)) (snd f)) files -> delivers rd (concat (map snd files)) IoEOF ->
  in_turn C rd sk (map fst files).
Proof.
  intros C HC seed sk Hk. induction files as [|[[spk s] file] files IH]; intros rd Hf Hd; [exact Hd|].
  inversion Hf as [|x l (sender & blk & pks & e & pk & Hb & Hp & He & Hin & Hpk & Hm & Hna) Hf']; subst.
  cbn [map fst snd List.concat in_turn] in *.
  destruct (C84_next_file_untouched_partial C HC sender blk pks e s file Hb Hp He rd _ _ seed pk sk spk Hd Hin Hpk Hk Hm Hna) as (d & Ho & _ & Hdec & Hx).
  destruct (Hdec sink ltac:(split; constructor)) as (d' & out' & E). destruct (Hx _ _ _ E) as (Hw & Hr).
  exists d, d', out'. split; [exact Ho|]. split; [exact E|]. split; [exact Hw|]. apply IH; assumption.
Qed.
Print Assumptions C84_many_files_partial.

(** what is missing: after a file which ends in an empty frame the last 80 bytes of that file (the seal of the empty frame and the trailer) are still
    unread, so the next opening fails unless they happen to start like a file *)
Theorem C84_refuted :
  forall C, crypto_ok C ->
  forall sender blksize pks e s file, 0 <= blksize < 2^30 -> 1 <= len pks <= 15885 -> ends_empty C sender blksize pks e s file ->
  forall rd extra er seed pk sk spk, delivers rd (file ++ extra) er -> In pk pks -> pubof C seed pk -> keypair C seed sk -> sender_matches C sender spk ->
  no_accident C (e_hdr e) seed (e_key e) ->
  exists d tail, opened_by C rd sk spk d /\ len tail = 80 /\ (exists front, file = front ++ tail) /\
    (forall out, accepts out -> exists d' out', decrypt C d out = (d', out', Ok tt)) /\
    forall out d' out', decrypt C d out = (d', out', Ok tt) -> wrote out out' s /\ delivers (d_rd d') (tail ++ extra) er /\
      (forall d2 rd2, new_decryptor C (d_rd d') = (Ok d2, rd2) -> take 8 tail = str "SigTool" ++ [x03]).
Proof.
  intros C HC sender blk pks e s file Hb Hp Hend rd extra er seed pk sk spk Hrd Hin Hpk Hk Hm Hna.
  destruct (made_last C sender blk pks e s file false HC Hb Hp (matches_good _ _ _ HC Hm) Hend) as (cs & tr & [_ Hr Hg Hne Hl Hlt Hout Hck Hgc Hcc Htr] & Hlast).
  destruct (exists_last (l := cs)) as (init & c & ->). { intros ->. destruct Hgc. } rewrite last_app in Hlast. subst c.
  rewrite concat_app in Hcc. cbn [List.concat] in Hcc. rewrite !app_nil_r in Hcc.
  pose proof (good_init _ _ _ Hgc) as Hfi.
  set (fk := keys_of C (e_hdr e) (e_key e)) in *.
  set (seal := gcm_seal C (fk_data fk) (frame_nonce (fk_base fk) (0 + Z.of_nat (length init))) [] (frame_word [] true)).
  assert (Hfile : file = (full_header (e_hdr e) ++ header_cksum C (e_hdr e) ++ unmarked C (fk_data fk) (fk_base fk) 0 init ++ end_marker) ++ (seal ++ tr)).
  { rewrite Hout. unfold sigtool_file, body. fold fk. rewrite frames_snoc. unfold frame. fold seal. rewrite <- end_marker_word, <- !app_assoc. reflexivity. }
  rewrite Hfile in Hrd. rewrite <- !app_assoc in Hrd.
  destruct (honest_open C HC sender blk pks e Hb Hr Hl seed pk sk spk Hpk Hin Hk (or_introl Hna) Hm _ _ _ Hrd) as (d & Hod & Hos & Hau).
  pose proof (bare_stream_accepted C (fk_data fk) (fk_base fk) (h_chunk (e_hdr e)) (trailer_check C (d_auth d) spk (fk_mac fk)) HC init 0 [] (seal ++ tr ++ extra) Hfi) as Hacc.
  exists d, (seal ++ tr). split; [exact Hod|]. split.
  { rewrite len_app. unfold seal. rewrite (ok_seal_len C HC). destruct Htr as (Htl & _). change (len (@nil byte)) with 0. unfold gcm_overhead. lia. }
  split; [eexists; exact Hfile|]. split.
  - intros out Ha. destruct (decrypt_complete _ _ _ _ _ _ _ _ _ _ _ _ _ HC Hos Ha Hacc) as (d' & out' & Hdec & _). eauto.
  - intros out d' out' Hdec. pose proof (decrypt_spec _ _ _ _ _ _ _ _ _ _ _ _ _ _ HC Hos Hdec) as (_ & _ & _ & outs2 & rest2 & Hacc2 & Hw & Hd2).
    destruct (accepted_det _ _ _ _ _ (proj2 Hlt) _ _ _ _ _ Hacc _ _ Hacc2) as (-> & ->). split; [|split; [rewrite <- app_assoc; exact Hd2|]].
    + unfold wrote. congruence.
    + intros d2 rd2 Hn. destruct (C08_accepted_header C HC _ _ _ _ _ Hd2 Hn) as (var & rest & Hs & _). cbv zeta in Hs.
      assert (H8 : take 8 (seal ++ tr ++ extra) = str "SigTool" ++ [x03]) by (rewrite Hs; reflexivity).
      rewrite <- H8, app_assoc. symmetry. apply take_app_l. rewrite len_app. unfold seal. rewrite (ok_seal_len C HC).
      destruct Htr as (Htl & _). change (len (@nil byte)) with 0. unfold gcm_overhead. lia.
Qed.
Print Assumptions C84_refuted.

(** two files of "hello world" one after the other are read by B in turn; after a file of 8 bytes in blocks of 4 the next one is not found *)
Definition two_in_turn (f1 f2 : bytes) (sk : privkey) (spk : option pubkey) : option (bytes * res bytes) :=
  match new_decryptor toy (whole (f1 ++ f2)) with
  | (Ok d0, _) => match set_private_key toy d0 sk spk with
    | (d, _, Ok _) => match decrypt toy d sink with
      | (d', w, Ok _) => Some (w_out w,
          match new_decryptor toy (d_rd d') with
          | (Ok d2, _) => match set_private_key toy d2 sk spk with
            | (d3, _, Ok _) => match decrypt toy d3 sink with (_, w2, Ok _) => Ok (w_out w2) | (_, _, Fail x) => Fail x | (_, _, Panic x) => Panic x end
            | (_, _, Fail x) => Fail x | (_, _, Panic x) => Panic x end
          | (Fail x, _) => Fail x | (Panic x, _) => Panic x end)
      | _ => None end
    | _ => None end
  | _ => None end.
Example C84_instance : file_for toy seedB (Some pkS) text file1 /\ two_in_turn file1 file1 skB (Some pkS) = Some (text, Ok text) /\
  ends_empty toy None 4 [pkA; pkB] e2 text8 file2 /\
  match two_in_turn file2 file2 skB None with Some (out, Fail _) => beq out text8 | _ => false end = true.
Proof.
  destruct file1_made as (ea & r & w & g & He & Hw). destruct file2_made as (eb & r2 & w2 & g2 & He2 & Hw2).
  split; [|split; [vm_compute; reflexivity|split; [|vm_compute; reflexivity]]].
  - exists (Some skS), 4, [pkA; pkB], e1, pkB. split; [lia|]. split; [cbn; lia|]. split.
    + left. split; [|vm_compute; discriminate]. exists g0, g1, src, IoEOF, dst, ea, r, w, g. split; [exact session1|]. split; [exact src_delivers|]. auto.
    + split; [right; left; reflexivity|]. split; [exact pB|]. split; [exact matches1|exact na1B].
  - left. split; [|vm_compute; reflexivity]. exists g0, g1, src8, IoEOF, dst, eb, r2, w2, g2. split; [exact session2|]. split; [exact src8_delivers|]. auto.
Qed.
